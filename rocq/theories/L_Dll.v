(** Lemmas about doubly linked lists. *)
From Coq Require Import ZArith List Arith Lia Bool.
From Verif Require Import Base ListLib M_Dll S_Dll.
Import ListNotations.
Local Open Scope nat_scope.

Lemma load_ok h p n : mem h p = Some n -> load h p = Ok n.
Proof. unfold load. intros ->. auto. Qed.
Lemma store_ok h p n f : mem h p = Some n -> store h p f = Ok (write h p (Some (f n))).
Proof. intro E. unfold store. rewrite (load_ok _ _ _ E). auto. Qed.
Lemma write_same h p n : mem (write h p n) p = n.
Proof. cbn. rewrite Nat.eqb_refl. auto. Qed.
Lemma write_other h p n a : a <> p -> mem (write h p n) a = mem h a.
Proof. intro N. cbn. destruct (Nat.eqb_spec a p); [contradiction|auto]. Qed.
Lemma write_brk h p n : brk (write h p n) = brk h.
Proof. auto. Qed.

Lemma linked_ext h h' l : forall p, (forall a, In a (map fst l) -> mem h' a = mem h a) -> linked h p l -> linked h' p l.
Proof.
  induction l as [|[a z] r IH]; intros p H L; auto. cbn [linked] in *. destruct L as [E L]. split.
  - rewrite H; auto. left. auto.
  - apply IH; auto. intros b Hb. apply H. right. auto.
Qed.
Lemma last_addr_app l a z : last_addr (l ++ [(a, z)]) = Some a.
Proof. unfold last_addr. rewrite rev_app_distr. reflexivity. Qed.
Lemma last_addr_cons a z r : last_addr ((a, z) :: r) = match last_addr r with Some b => Some b | None => Some a end.
Proof.
  unfold last_addr. cbn [rev]. destruct (rev r) as [|[b y] t] eqn:E; cbn; auto.
Qed.
Lemma last_addr_None l : last_addr l = None -> l = [].
Proof. destruct l as [|[a z] r]; auto. rewrite last_addr_cons. destruct (last_addr r); discriminate. Qed.

(** A list splits into two segments. [nx] is the successor of the last node. *)
Fixpoint seg (h : heap) (p : option addr) (l : list (addr * Z)) (nx : option addr) : Prop :=
  match l with
  | [] => True
  | (a, z) :: r => mem h a = Some (mkNode z p (match r with [] => nx | _ => first r end)) /\ seg h (Some a) r nx
  end.
Lemma linked_seg h l : forall p, linked h p l <-> seg h p l None.
Proof.
  induction l as [|[a z] r IH]; intro p; [tauto|]. cbn [linked seg]. rewrite IH. destruct r as [|[b y] t]; cbn [first]; tauto.
Qed.
Lemma seg_app h l1 l2 nx : forall p, seg h p (l1 ++ l2) nx <->
  seg h p l1 (match l2 with [] => nx | _ => first l2 end) /\ seg h (match last_addr l1 with Some a => Some a | None => p end) l2 nx.
Proof.
  induction l1 as [|[a z] r IH]; intro p; cbn [app seg].
  - cbn. tauto.
  - rewrite IH, last_addr_cons.
    replace (match last_addr r with Some b => Some b | None => Some a end) with (match match last_addr r with Some b => Some b | None => Some a end with Some b => Some b | None => p end)
      by (destruct (last_addr r); auto).
    assert ((match r ++ l2 with [] => nx | _ => first (r ++ l2) end) = (match r with [] => match l2 with [] => nx | _ => first l2 end | _ => first r end)) as ->.
    { destruct r as [|[b y] t]; auto. }
    destruct (last_addr r) eqn:E; tauto.
Qed.
Lemma seg_ext h h' nx l : forall p, (forall a, In a (map fst l) -> mem h' a = mem h a) -> seg h p l nx -> seg h' p l nx.
Proof.
  induction l as [|[a z] r IH]; intros p H L; auto. cbn [seg] in *. destruct L as [E L]. split.
  - rewrite H; auto. left. auto.
  - apply IH; auto. intros b Hb. apply H. right. auto.
Qed.
(** Changing the successor of the last node. *)
Lemma seg_relink h p l a z nx nx' f : NoDup (map fst (l ++ [(a, z)])) -> f = set_next nx' -> seg h p (l ++ [(a, z)]) nx ->
  forall n, mem h a = Some n -> seg (write h a (Some (f n))) p (l ++ [(a, z)]) nx'.
Proof.
  intros ND -> S n En. apply seg_app in S. destruct S as [S1 S2]. apply seg_app. rewrite map_app in ND. cbn [map fst] in ND. split.
  - apply (seg_ext h); auto. intros b Hb. apply write_other. intros ->. apply NoDup_remove_2 in ND. rewrite app_nil_r in ND. contradiction.
  - cbn [seg] in *. destruct S2 as [E _]. rewrite E in En. injection En as <-. rewrite write_same. auto.
Qed.
(** Changing the predecessor of the first node. *)
Lemma seg_reprev h p p' l a z nx n : NoDup (map fst ((a, z) :: l)) -> seg h p ((a, z) :: l) nx -> mem h a = Some n ->
  seg (write h a (Some (set_prev p' n))) p' ((a, z) :: l) nx.
Proof.
  intros ND [E S] En. cbn [seg]. rewrite write_same. rewrite E in En. injection En as <-. split; auto.
  apply (seg_ext h); auto. intros b Hb. apply write_other. intros ->. cbn in ND. inversion ND; auto.
Qed.

Lemma seg_load h p l nx a z : seg h p l nx -> In (a, z) l -> exists n, mem h a = Some n /\ n_index n = z.
Proof.
  revert p. induction l as [|[b y] r IH]; intros p S H; [destruct H|]. destruct S as [E S]. destruct H as [Eq|H].
  - injection Eq as -> ->. eexists. split; [exact E|]. reflexivity.
  - apply (IH _ S H).
Qed.
Lemma NoDup_app_split {A} (l1 l2 : list A) : NoDup (l1 ++ l2) -> NoDup l1 /\ NoDup l2 /\ forall x, In x l1 -> In x l2 -> False.
Proof.
  induction l1 as [|a r IH]; cbn; intro H.
  - repeat split; auto; constructor.
  - inversion H as [|? ? N ND]; subst. destruct (IH ND) as (A1 & A2 & A3). repeat split; auto.
    + constructor; auto. intro I. apply N, in_or_app. auto.
    + intros x [<-|I] I2; [apply N, in_or_app; auto|]. apply (A3 x); auto.
Qed.

Lemma append_ok h l1 p z l2 : heap_ok h -> dll h (l1 ++ (p, z) :: l2) ->
  exists h', dll_append h (Some p) = Ok (h', Some (brk h)) /\ brk h' = S (brk h) /\ heap_ok h' /\
    dll h' (l1 ++ (p, z) :: (brk h, (-1)%Z) :: l2) /\
    (forall b, b <> brk h -> ~ In b (map fst (l1 ++ (p, z) :: l2)) -> mem h' b = mem h b).
Proof.
  intros HO [ND L]. apply linked_seg in L. pose proof L as L0. apply seg_app in L. destruct L as [S1 S2]. cbn [seg] in S2. destruct S2 as [Ep S2].
  set (pp := match last_addr l1 with Some a => Some a | None => None end) in *. set (a := brk h) in *.
  assert (forall b, In b (map fst (l1 ++ (p, z) :: l2)) -> b < a) as LT.
  { intros b Hb. apply in_map_iff in Hb. destruct Hb as ([b' y] & <- & Hb). destruct (seg_load _ _ _ _ _ _ L0 Hb) as (n & En & _). cbn [fst].
    destruct (le_lt_dec a b') as [Q|Q]; auto. rewrite (HO b' Q) in En. discriminate. }
  assert (p < a) as Hp by (apply LT; rewrite map_app; apply in_or_app; right; left; auto).
  assert (~ In a (map fst (l1 ++ (p, z) :: l2))) as Na by (intro I; apply LT in I; lia).
  assert (map fst (l1 ++ (p, z) :: (a, (-1)%Z) :: l2) = map fst (l1 ++ [(p, z)]) ++ a :: map fst l2) as EM by (rewrite !map_app; cbn; rewrite <- app_assoc; reflexivity).
  assert (map fst (l1 ++ (p, z) :: l2) = map fst (l1 ++ [(p, z)]) ++ map fst l2) as EM2 by (rewrite !map_app; cbn; rewrite <- app_assoc; reflexivity).
  assert (NoDup (map fst (l1 ++ (p, z) :: (a, (-1)%Z) :: l2))) as ND'.
  { rewrite EM. apply NoDup_Add with (a := a) (l := map fst (l1 ++ [(p, z)]) ++ map fst l2). - apply Add_app. - rewrite <- EM2. auto. }
  destruct (NoDup_app_split (map fst l1) (map fst ((p, z) :: l2))) as (ND1 & ND2 & DJ); [rewrite <- map_app; auto|].
  unfold dll_append. rewrite (load_ok _ _ _ Ep). cbn [obind n_next]. unfold dll_new. fold a.
  set (h1 := mkHeap (fun b => if Nat.eqb b a then Some (mkNode (-1) None None) else mem h b) (S a)).
  assert (forall b, b <> a -> mem h1 b = mem h b) as H1o by (intros b N; cbn; destruct (Nat.eqb_spec b a); [contradiction|auto]).
  assert (mem h1 a = Some (mkNode (-1) None None)) as H1a by (cbn; rewrite Nat.eqb_refl; auto).
  assert (mem h1 p = Some (mkNode z pp (match l2 with [] => None | _ => first l2 end))) as H1p by (rewrite H1o by lia; exact Ep).
  rewrite (store_ok _ _ _ _ H1p). cbn [obind]. set (h2 := write h1 p _).
  assert (mem h2 a = Some (mkNode (-1) None None)) as H2a by (unfold h2; rewrite write_other by lia; auto).
  rewrite (store_ok _ _ _ _ H2a). cbn [obind]. set (h3 := write h2 a _).
  assert (mem h3 a = Some (mkNode (-1) (Some p) None)) as H3a by (unfold h3; rewrite write_same; reflexivity).
  rewrite (store_ok _ _ _ _ H3a). cbn [obind]. set (tmp := match l2 with [] => None | _ => first l2 end) in *. set (h4 := write h3 a _).
  assert (mem h4 a = Some (mkNode (-1) (Some p) tmp)) as H4a by (unfold h4; rewrite write_same; reflexivity).
  assert (mem h4 p = Some (mkNode z pp (Some a))) as H4p by (unfold h4, h3; rewrite !write_other by lia; unfold h2; rewrite write_same; reflexivity).
  assert (forall b, b <> a -> b <> p -> mem h4 b = mem h b) as H4o by (intros b N N2; unfold h4, h3, h2; rewrite !write_other by auto; auto).
  assert (exists h5, (match tmp with Some q => store h4 q (set_prev (Some a)) | None => Ok h4 end) = Ok h5 /\ brk h5 = S a /\ mem h5 a = Some (mkNode (-1) (Some p) tmp) /\
     mem h5 p = Some (mkNode z pp (Some a)) /\ (forall b, b <> a -> b <> p -> (forall y t, l2 = (b, y) :: t -> False) -> mem h5 b = mem h b) /\ seg h5 (Some a) l2 None) as (h5 & E5 & B5 & H5a & H5p & H5o & S5).
  { destruct l2 as [|[q y] t]; cbn [first] in tmp; unfold tmp.
    - exists h4. repeat split; auto.
    - assert (q <> a) as Nq by (assert (q < a) by (apply LT; rewrite map_app; apply in_or_app; right; right; left; auto); lia).
      assert (q <> p) as Nqp by (inversion ND2 as [|? ? N _]; intros ->; apply N; left; auto).
      assert (seg h4 (Some p) ((q, y) :: t) None) as S4. { apply (seg_ext h); auto. intros b Hb. apply H4o.
        - intros ->. apply Na. rewrite map_app. apply in_or_app. right. right. auto.
        - intros ->. inversion ND2 as [|? ? N _]. apply N. auto. }
      pose proof S4 as [Eq _]. rewrite (store_ok _ _ _ _ Eq). eexists. split; [reflexivity|]. split; [reflexivity|].
      rewrite !write_other by auto. split; auto. split; auto. split.
      + intros b Nb Nbp NF. rewrite write_other; auto. intros ->. apply (NF y t). auto.
      + apply seg_reprev with (p := Some p); auto. inversion ND2; auto. }
  rewrite E5. cbn [obind]. rewrite (store_ok _ _ _ _ H5a). cbn [obind]. set (h6 := write h5 a _).
  assert (forall b, b <> a -> mem h6 b = mem h5 b) as H6o by (intros; unfold h6; apply write_other; auto).
  exists h6. split; auto. split; [exact B5|]. split; [|split].
  - intros b Hb. change (brk h6) with (brk h5) in Hb. rewrite B5 in Hb. rewrite H6o by lia. rewrite H5o; try lia.
    + apply HO. unfold a in *. lia.
    + intros y t ->. assert (b < a) by (apply LT; rewrite map_app; apply in_or_app; right; right; left; auto). lia.
  - split; auto. apply linked_seg. apply seg_app. split.
    + apply (seg_ext h).
      * intros b Hb. assert (b <> a) by (intros ->; apply Na; rewrite map_app; apply in_or_app; auto). rewrite H6o by auto. apply H5o; auto.
        -- intros ->. apply (DJ p); auto. left. auto.
        -- intros y t ->. apply (DJ b); auto. right. left. auto.
      * exact S1.
    + cbn [seg first]. fold pp. rewrite H6o by lia. split; [exact H5p|]. split; [unfold h6; rewrite write_same; reflexivity|].
      apply (seg_ext h5); auto. intros b Hb. apply H6o. intros ->. apply Na. rewrite map_app. apply in_or_app. right. right. auto.
  - intros b Nb NI. rewrite H6o by auto. apply H5o; auto.
    + intros ->. apply NI. rewrite map_app. apply in_or_app. right. left. auto.
    + intros y t ->. apply NI. rewrite map_app. apply in_or_app. right. right. left. auto.
Qed.

Lemma remove_ok h l1 p z l2 : heap_ok h -> dll h (l1 ++ (p, z) :: l2) ->
  exists h', dll_remove h (Some p) = Ok (h', last_addr l1) /\ brk h' = brk h /\ heap_ok h' /\ mem h' p = None /\ dll h' (l1 ++ l2) /\
    (forall b, ~ In b (map fst (l1 ++ (p, z) :: l2)) -> mem h' b = mem h b).
Proof.
  intros HO [ND L]. apply linked_seg in L. apply seg_app in L. destruct L as [S1 S2]. cbn [seg] in S2. destruct S2 as [Ep S2].
  assert ((match last_addr l1 with Some a => Some a | None => None end) = last_addr l1) as EL by (destruct (last_addr l1); auto). rewrite EL in Ep.
  set (nx := match l2 with [] => None | _ => first l2 end) in *. cbn [first] in S1.
  destruct (NoDup_app_split (map fst l1) (map fst ((p, z) :: l2))) as (ND1 & ND2 & DJ); [rewrite <- map_app; auto|].
  assert (~ In p (map fst l1)) as Np1 by (intro I; apply (DJ p); auto; left; auto).
  assert (~ In p (map fst l2)) as Np2 by (inversion ND2; auto). assert (NoDup (map fst l2)) as ND2' by (inversion ND2; auto).
  assert (exists h1, (match last_addr l1 with Some q => store h q (set_next nx) | None => Ok h end) = Ok h1 /\ brk h1 = brk h /\ seg h1 None l1 nx /\
    forall b, ~ In b (map fst l1) -> mem h1 b = mem h b) as (h1 & E1 & B1 & S1' & O1).
  { assert (l1 = [] \/ exists r q y, l1 = r ++ [(q, y)]) as [->|(r & q & y & ->)].
    { destruct l1 as [|x t]; auto. right. destruct (exists_last (l := x :: t)) as (r & [q y] & E); [discriminate|]. exists r, q, y. auto. }
    - exists h. cbn. auto.
    - rewrite last_addr_app. assert (exists n, mem h q = Some n) as (n & En). { pose proof S1 as S. apply seg_app in S. destruct S as [_ [S _]]. eauto. }
      rewrite (store_ok _ _ _ _ En). eexists. split; [reflexivity|]. split; auto. split.
      + apply (seg_relink h None r q y (Some p) nx (set_next nx)); auto.
      + intros b Nb. apply write_other. intros ->. apply Nb. rewrite map_app. apply in_or_app. right. left. auto. }
  unfold dll_remove. rewrite (load_ok _ _ _ Ep). cbn [obind n_prev n_next]. rewrite E1. cbn [obind].
  assert (mem h1 p = Some (mkNode z (last_addr l1) nx)) as H1p by (rewrite O1; auto). rewrite (load_ok _ _ _ H1p). cbn [obind n_prev n_next].
  assert (seg h1 (Some p) l2 None) as S2'. { apply (seg_ext h); auto. intros b Hb. apply O1. intro I. apply (DJ b); auto. right. auto. }
  assert (exists h2, (match nx with Some q => store h1 q (set_prev (last_addr l1)) | None => Ok h1 end) = Ok h2 /\ brk h2 = brk h /\ seg h2 (last_addr l1) l2 None /\
    (forall b, ~ In b (map fst l2) -> mem h2 b = mem h1 b)) as (h2 & E2 & B2 & S2'' & O2).
  { destruct l2 as [|[q y] t]; cbn [first] in nx; unfold nx.
    - exists h1. cbn. auto.
    - pose proof S2' as [Eq _]. rewrite (store_ok _ _ _ _ Eq). eexists. split; [reflexivity|]. split; auto. split.
      + apply seg_reprev with (p := Some p); auto.
      + intros b Nb. apply write_other. intros ->. apply Nb. left. auto. }
  rewrite E2. cbn [obind]. assert (mem h2 p = Some (mkNode z (last_addr l1) nx)) as H2p by (rewrite O2; auto).
  unfold dll_delete. rewrite (load_ok _ _ _ H2p). cbn [obind]. set (h3 := write h2 p None).
  assert (forall b, b <> p -> mem h3 b = mem h2 b) as O3 by (intros; unfold h3; apply write_other; auto).
  exists h3. split; auto. split; auto. split; [|split; [apply write_same|split]].
  - intros b Hb. change (brk h3) with (brk h2) in Hb. rewrite B2 in Hb. destruct (Nat.eq_dec b p) as [->|N]; [apply write_same|]. rewrite O3 by auto.
    assert (mem h b = None) as Z by (apply HO; auto).
    rewrite O2, O1; auto.
    + intro I. apply in_map_iff in I. destruct I as ([b' y] & <- & I). destruct (seg_load _ _ _ _ _ _ S1 I) as (n & En & _). cbn [fst] in *. congruence.
    + intro I. apply in_map_iff in I. destruct I as ([b' y] & <- & I). destruct (seg_load _ _ _ _ _ _ S2 I) as (n & En & _). cbn [fst] in *. congruence.
  - split. { rewrite map_app in *. cbn [map fst] in ND. apply NoDup_remove_1 in ND. auto. }
    apply linked_seg, seg_app. rewrite EL. split.
    + apply (seg_ext h1); [|exact S1']. intros b Hb. rewrite O3 by (intros ->; contradiction). apply O2. intro I. apply (DJ b); auto. right. auto.
    + apply (seg_ext h2); auto. intros b Hb. apply O3. intros ->. contradiction.
  - intros b Nb. rewrite map_app in Nb. rewrite O3, O2, O1; auto.
    + intro I. apply Nb, in_or_app. auto.
    + intro I. apply Nb, in_or_app. right. right. auto.
    + intros ->. apply Nb, in_or_app. right. left. auto.
Qed.

Lemma free_ok : forall l h p fuel, NoDup (map fst l) -> linked h p l -> length l < fuel ->
  exists h', dll_free fuel h (first l) = Ok (Some h') /\ brk h' = brk h /\ (forall a, In a (map fst l) -> mem h' a = None) /\ (forall a, ~ In a (map fst l) -> mem h' a = mem h a).
Proof.
  induction l as [|[a z] r IH]; intros h p fuel ND L F.
  - exists h. destruct fuel; cbn; repeat split; auto; intros x [].
  - destruct fuel as [|f]; [cbn in F; lia|]. cbn [first dll_free]. destruct L as [E L]. rewrite (load_ok _ _ _ E). cbn [obind]. unfold dll_delete. rewrite (load_ok _ _ _ E). cbn [obind n_next].
    cbn [map fst] in *. inversion ND as [|? ? Na NDr]; subst. destruct (IH (write h a None) (Some a) f NDr) as (h' & E' & B & D & O).
    + apply (linked_ext h); auto. intros b Hb. apply write_other. intros ->. contradiction.
    + cbn in F. lia.
    + exists h'. split; auto. split; auto. split.
      * intros b [<-|Hb]; [|auto]. rewrite O by auto. apply write_same.
      * intros b Nb. rewrite O by (intro; apply Nb; right; auto). apply write_other. intros ->. apply Nb. left. auto.
Qed.
Lemma walk_ok : forall l h p fuel, linked h p l -> length l < fuel -> dll_walk fuel h (first l) = Ok (Some l).
Proof.
  induction l as [|[a z] r IH]; intros h p fuel L F; [destruct fuel; auto|].
  destruct fuel as [|f]; [cbn in F; lia|]. cbn [first dll_walk]. destruct L as [E L]. rewrite (load_ok _ _ _ E). cbn [obind n_next n_index].
  rewrite (IH h (Some a) f L) by (cbn in F; lia). reflexivity.
Qed.
Lemma walk_back_ok h : forall l fuel nx, seg h None l nx -> length l < fuel -> dll_walk_back fuel h (last_addr l) = Ok (Some (rev l)).
Proof.
  induction l as [|[a z] r IH] using rev_ind; intros fuel nx S F; [destruct fuel; auto|].
  destruct fuel as [|f]; [rewrite app_length in F; cbn in F; lia|]. rewrite last_addr_app, rev_app_distr. cbn [dll_walk_back rev app].
  apply seg_app in S. destruct S as [S1 [E _]]. rewrite (load_ok _ _ _ E). cbn [obind n_prev n_index].
  replace (match last_addr r with Some b => Some b | None => None end) with (last_addr r) by (destruct (last_addr r); auto).
  rewrite (IH f _ S1) by (rewrite app_length in F; cbn in F; lia). reflexivity.
Qed.
(** Storing an index. *)
Lemma set_index_ok h l1 p z l2 y : heap_ok h -> dll h (l1 ++ (p, z) :: l2) ->
  exists h', store h p (set_index y) = Ok h' /\ brk h' = brk h /\ heap_ok h' /\ dll h' (l1 ++ (p, y) :: l2) /\ forall b, b <> p -> mem h' b = mem h b.
Proof.
  intros HO [ND L]. apply linked_seg in L. apply seg_app in L. destruct L as [S1 [Ep S2]].
  destruct (NoDup_app_split (map fst l1) (map fst ((p, z) :: l2))) as (ND1 & ND2 & DJ); [rewrite <- map_app; auto|].
  rewrite (store_ok _ _ _ _ Ep). eexists. split; [reflexivity|]. split; auto. split; [|split].
  - intros b Hb. rewrite write_brk in Hb. destruct (Nat.eq_dec b p) as [->|N]; [rewrite (HO p Hb) in Ep; discriminate|]. rewrite write_other by auto. auto.
  - split; [rewrite map_app in *; auto|]. apply linked_seg, seg_app. split.
    + apply (seg_ext h); auto. intros b Hb. apply write_other. intros ->. apply (DJ p); auto. left. auto.
    + cbn [seg]. rewrite write_same. split; auto. apply (seg_ext h); auto. intros b Hb. apply write_other. intros ->. inversion ND2; contradiction.
  - intros. apply write_other. auto.
Qed.
