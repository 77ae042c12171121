(** Lemmas about borderline SMOTE. *)
From Coq Require Import String ZArith Bool List Reals Lra Lia Permutation Sorted.
From Verif Require Import Base ListLib M_Data S_Data L_Data L_Data2 L_Join Loop T_Data M_Heap L_Heap M_Smote S_Smote T_Smote T_Sampling M_Border S_Border.
Import ListNotations.
Local Open Scope nat_scope.

Notation pt0 := (mkPoint [] 0%Z 0%Z 0%R : point R).
Lemma firstn_sorted {A} (P : A -> A -> Prop) l k : StronglySorted P l -> StronglySorted P (firstn k l).
Proof.
  intro H. revert k. induction H as [|x l S IH F]; intros [|k]; cbn; try constructor; [apply IH|]. apply Forall_forall. intros y Hy. apply firstn_in in Hy. rewrite Forall_forall in F. auto.
Qed.
Lemma near_list dist srt m pts z : sorts_by_distance srt -> length (near_entries dist srt m pts z) = m ->
  nearest dist m pts z (map (fun e => fst e - 1) (near_entries dist srt m pts z)).
Proof.
  intros Ss Lm. destruct (near_ok dist srt m pts z Ss) as (A & _).
  assert (forall e, In e (near_entries dist srt m pts z) -> fst e - 1 < length pts /\ snd e = away dist pts z (fst e - 1) /\ snd e <> 0%R /\
    (exists smaller, length smaller < m /\ forall u, In u (map (fun p => dist z (p_x p)) pts) -> u <> 0%R -> (u < snd e)%R -> In u smaller)) as B.
  { intros e He. destruct (A e He) as (i & p & E1 & E2 & E3 & _ & E4 & E5). rewrite E1. replace (S i - 1) with i by lia. split; [apply nth_error_Some; congruence|]. split; [unfold away; rewrite (nth_error_nth _ _ _ E2); auto|]. auto. }
  assert (StronglySorted eless (near_entries dist srt m pts z) /\ forall e u, In e (near_entries dist srt m pts z) -> In u (map (fun p => dist z (p_x p)) pts) -> u <> 0%R -> (u < snd e)%R -> exists e', In e' (near_entries dist srt m pts z) /\ snd e' = u) as [S C].
  { unfold near_entries. set (vals := map (fun p => dist z (p_x p)) pts). set (ds := combine (seq 1 (length pts)) vals). destruct (Ss ds) as [P So].
    assert (length (seq 1 (length pts)) = length vals) as L by (unfold vals; now rewrite seq_length, map_length).
    assert (NoDup (map fst (srt ds))) as N. { eapply Permutation_NoDup; [apply Permutation_map, Permutation_sym, P|]. unfold ds. rewrite combine_fst by auto. apply seq_NoDup. }
    destruct (uniq_ok (srt ds) So N) as (U1 & U2 & U3). set (nzf := fun e : nat * R => if Req_EM_T (snd e) 0 then false else true). assert (StronglySorted eless (filter nzf (uniq (srt ds)))) as Sf by now apply filter_sorted.
    split; [now apply firstn_sorted|]. intros e u He Hu Nu Lu.
    assert (In u (map snd (srt ds))) as Hs. { eapply Permutation_in; [apply Permutation_map, Permutation_sym, P|]. unfold ds. now rewrite combine_snd. }
    apply in_map_iff in Hs as (e0 & E0 & He0). destruct (U3 e0 He0) as (e1 & He1 & E1). assert (In e1 (filter nzf (uniq (srt ds)))) as Hf. { apply filter_In. split; [auto|]. unfold nzf. destruct (Req_EM_T (snd e1) 0); [congruence|auto]. }
    exists e1. split; [|congruence]. assert (snd e1 < snd e)%R as L1 by congruence. clear -Sf He Hf L1. revert m He. induction Sf as [|x l Sl IH F]; intros [|m] He; cbn [firstn] in *; try destruct He as [].
    - subst x. destruct Hf as [<-|Hf]; [now left|]. rewrite Forall_forall in F. specialize (F _ Hf). unfold eless in F. lra.
    - destruct Hf as [<-|Hf]; [now left|]. right. now apply IH. }
  split; [now rewrite map_length|]. split; [|split].
  - intros i Hi. apply in_map_iff in Hi as (e & <- & He). destruct (B e He) as (B1 & B2 & B3 & _). split; [auto|congruence].
  - assert (forall l, (forall e, In e l -> In e (near_entries dist srt m pts z)) -> StronglySorted eless l -> StronglySorted (fun i j => (away dist pts z i < away dist pts z j)%R) (map (fun e => fst e - 1) l)) as G; [|now apply G].
    intros l I Sl. induction Sl as [|x l Sl IH F]; cbn [map]; constructor; [apply IH; intros; apply I; now right|]. apply Forall_forall. intros j Hj. apply in_map_iff in Hj as (e & <- & He). rewrite Forall_forall in F. specialize (F e He). unfold eless in F.
    destruct (B x (I x (or_introl eq_refl))) as (_ & <- & _). destruct (B e (I e (or_intror He))) as (_ & <- & _). exact F.
  - intros i j Hi Hj Nz Lt. apply in_map_iff in Hj as (e & <- & He). destruct (B e He) as (_ & Be & _). rewrite <- Be in Lt. destruct (C e (away dist pts z i) He) as (e' & He' & Ee).
    + unfold away. apply in_map_iff. exists (nth i pts pt0). split; [auto|now apply nth_In].
    + auto. + auto.
    + exists (fst e' - 1). split; [apply in_map_iff; eauto|]. destruct (B e' He') as (_ & <- & _). exact Ee.
Qed.
Lemma get_all pts (es : list (nat * R)) : (forall e, In e es -> fst e - 1 < length pts) -> map_outcome (fun e => vget pts (fst e - 1)) es = Ok (map (fun e => nth (fst e - 1) pts pt0) es).
Proof.
  induction es as [|e es IH]; intro H; cbn [map_outcome map]; [reflexivity|]. rewrite IH by (intros; apply H; now right). unfold vget. rewrite (nth_error_nth' pts pt0) by (apply H; now left). reflexivity.
Qed.
Lemma danger_ok dist srt m maj pts z : sorts_by_distance srt -> (exists n, distinct_nonzero (map (fun p => dist z (p_x p)) pts) n /\ m <= n) ->
  nearest dist m pts z (map (fun e => fst e - 1) (near_entries dist srt m pts z)) /\ in_danger dist srt m maj pts z = Ok (dangerous pts maj m (map (fun e => fst e - 1) (near_entries dist srt m pts z))).
Proof.
  intros Ss (n & Dn & Ln). destruct (near_ok dist srt m pts z Ss) as (A & n' & Dn' & L).
  assert (n' = n) as ->. { destruct Dn as (v & N1 & <- & I1). destruct Dn' as (v' & N2 & <- & I2). apply Permutation_length, NoDup_Permutation; [assumption|assumption|]. intro x. rewrite I1, I2. tauto. }
  rewrite Nat.min_l in L by auto. pose proof (near_list dist srt m pts z Ss L) as H. split; [auto|]. unfold in_danger. rewrite L, Nat.ltb_irrefl.
  rewrite get_all by (intros e He; apply (proj1 (proj2 H)), in_map_iff; exists e; auto). cbn [obind]. unfold dangerous, votes.
  replace (length (filter (fun p => Z.eqb (p_y p) maj) (map (fun e => nth (fst e - 1) pts pt0) (near_entries dist srt m pts z)))) with (length (filter (fun i => Z.eqb (p_y (nth i pts pt0)) maj) (map (fun e => fst e - 1) (near_entries dist srt m pts z)))); [reflexivity|].
  clear. induction (near_entries dist srt m pts z) as [|e l IH]; cbn [map filter]; [reflexivity|]. destruct (Z.eqb _ maj); cbn [length]; now rewrite IH.
Qed.
Lemma danger_short dist srt m maj pts z n : sorts_by_distance srt -> distinct_nonzero (map (fun p => dist z (p_x p)) pts) n -> n < m -> in_danger dist srt m maj pts z = UB.
Proof.
  intros Ss Dn Ln. destruct (near_ok dist srt m pts z Ss) as (A & n' & Dn' & L).
  assert (n' = n) as ->. { destruct Dn as (v & N1 & <- & I1). destruct Dn' as (v' & N2 & <- & I2). apply Permutation_length, NoDup_Permutation; [assumption|assumption|]. intro x. rewrite I1, I2. tauto. }
  unfold in_danger. rewrite L, (proj2 (Nat.ltb_lt (Nat.min m n) m)) by lia. reflexivity.
Qed.
(** Only the features and the labels matter. *)
Lemma content_x pts pts' : map content pts = map content pts' -> map p_x pts = map p_x (pts' : list (point R)).
Proof. intro E. rewrite !(map_ext p_x (fun p => fst (fst (content p)))) by reflexivity. rewrite <- !(map_map content (fun c => fst (fst c))), E. reflexivity. Qed.
Lemma content_y pts pts' : map content pts = map content pts' -> map p_y pts = map p_y (pts' : list (point R)).
Proof. intro E. rewrite !(map_ext p_y (fun p => snd (fst (content p)))) by reflexivity. rewrite <- !(map_map content (fun c => snd (fst c))), E. reflexivity. Qed.
Lemma near_content dist srt m pts pts' z : map content pts = map content pts' -> near_entries dist srt m pts z = near_entries dist srt m pts' z.
Proof.
  intro E. unfold near_entries. rewrite <- (map_length content pts), E, map_length. rewrite <- !(map_map p_x (fun x => dist z x)), (content_x _ _ E). reflexivity.
Qed.
Lemma danger_content dist srt m maj pts pts' z : map content pts = map content pts' -> in_danger dist srt m maj pts z = in_danger dist srt m maj pts' z.
Proof.
  intro E. unfold in_danger. rewrite (near_content _ _ _ _ _ _ E). destruct (Nat.ltb _ m); [reflexivity|].
  assert (forall es : list (nat * R), match map_outcome (fun e => vget pts (fst e - 1)) es, map_outcome (fun e => vget pts' (fst e - 1)) es with Ok a, Ok b => map p_y a = map p_y b | UB, UB => True | Abort, Abort => True | _, _ => False end) as H.
  { pose proof (content_y _ _ E) as Ey. induction es as [|e es IH]; cbn [map_outcome]; [reflexivity|].
    assert (nth_error (map p_y pts) (fst e - 1) = nth_error (map p_y pts') (fst e - 1)) as En by now rewrite Ey. rewrite !nth_error_map in En. unfold vget in *.
    destruct (nth_error pts (fst e - 1)), (nth_error pts' (fst e - 1)); cbn [option_map] in En; try discriminate; [|exact I]. injection En as En. cbn [obind].
    destruct (map_outcome _ es), (map_outcome _ es); cbn [obind] in *; try contradiction; try exact I. cbn [map]. congruence. }
  specialize (H (near_entries dist srt m pts' z)). destruct (map_outcome _ _) as [a| |], (map_outcome _ _) as [b| |]; try contradiction; try reflexivity. cbn [obind].
  assert (length (filter (fun p => Z.eqb (p_y p) maj) a) = length (filter (fun p => Z.eqb (p_y p) maj) b)) as ->; [|reflexivity].
  revert b H. induction a as [|x a IH]; intros [|y b] H; cbn [map] in H; try discriminate; [reflexivity|]. injection H as H1 H2. cbn [filter]. rewrite H1. destruct (Z.eqb _ maj); cbn [length]; now rewrite (IH b).
Qed.

(** *** inserting points one after the other *)
Definition renumber (n : nat) (pts : list (point R)) : list (point R) := map (fun ip => with_id (Z.of_nat (fst ip)) (snd ip)) (combine (seq n (length pts)) pts).
Notation ins := (fun (d : data R) p => let* r := insertPoint d p false in Ok (fst r)).
Lemma renumber_content n pts : map content (renumber n pts) = map content pts.
Proof. unfold renumber. rewrite map_map. revert n. induction pts as [|p l IH]; intro n; cbn; [reflexivity|]. f_equal. apply IH. Qed.
Lemma renumber_ids n pts : map p_id (renumber n pts) = map Z.of_nat (seq n (length pts)).
Proof. unfold renumber. rewrite map_map. revert n. induction pts as [|p l IH]; intro n; cbn; [reflexivity|]. f_equal. apply IH. Qed.
Lemma renumber_len n pts : length (renumber n pts) = length pts.
Proof. unfold renumber. rewrite map_length, combine_length, seq_length. lia. Qed.
Lemma ins_one (d : data R) p w : data_ok d -> (d_points d <> [] -> d_dim d = w) -> length (p_x p) = w -> (Z.of_nat (length (d_points d)) + 1 < 2 ^ 63)%Z ->
  exists d', insertPoint d p false = Ok (d', true) /\ data_ok d' /\ d_points d' = d_points d ++ [with_id (Z.of_nat (S (length (d_points d)))) p] /\ d_dim d' = w.
Proof.
  intros D N L C.
  assert (accepts d p) as Ac. { destruct (d_points d) as [|q qs] eqn:Eq; [now left|]. right. rewrite L, <- N by discriminate. unfold dim. rewrite Eq. symmetry. apply (ok_dim _ D). rewrite Eq. now left. }
  destruct (insertPoint_accept d p false Ac (ok_size _ D)) as (d' & E & P & _); [apply (ok_class _ D)|]. pose proof (insertPoint_ok _ _ _ _ _ D C E) as D'.
  exists d'. split; [auto|]. split; [auto|]. split; [auto|]. rewrite <- L. rewrite <- (ok_dim _ D' (with_id (Z.of_nat (S (length (d_points d)))) p)); [reflexivity|]. rewrite P. apply in_or_app. right. now left.
Qed.
Lemma ins_all pts w : forall d : data R, data_ok d -> (d_points d <> [] -> d_dim d = w) -> (forall p, In p pts -> length (p_x p) = w) -> (Z.of_nat (length (d_points d) + length pts) < 2 ^ 63)%Z ->
  exists d', ofold ins pts d = Ok d' /\ data_ok d' /\ d_points d' = d_points d ++ renumber (S (length (d_points d))) pts /\ (d_points d' <> [] -> d_dim d' = w).
Proof.
  induction pts as [|p pts IH]; intros d D N L C; cbn [ofold].
  - exists d. unfold renumber. cbn. rewrite app_nil_r. auto.
  - cbn [length] in C. destruct (ins_one d p w D N (L p (or_introl eq_refl)) ltac:(lia)) as (d1 & E1 & D1 & P1 & W1). rewrite E1. cbn [obind fst].
    destruct (IH d1 D1 (fun _ => W1)) as (d' & E & D' & P & W).
    + intros q Hq. apply L. now right.
    + rewrite P1, app_length. cbn [length]. lia.
    + exists d'. split; [auto|]. split; [auto|]. split; [|auto]. rewrite P, P1, <- app_assoc, app_length. cbn [length]. rewrite Nat.add_1_r. reflexivity.
Qed.
Lemma ofold_app {A S} (f : S -> A -> outcome S) l l' s : ofold f (l ++ l') s = let* s' := ofold f l s in ofold f l' s'.
Proof. revert s. induction l as [|x l IH]; intro s; cbn [app ofold]; [reflexivity|]. destruct (f s x); cbn [obind]; auto. Qed.
(** Inserting a pointer the dataset does not hold. *)
Lemma h_insert_new hp (h : hdata R) v r p v' : view hp h = Ok v -> d_size v = length (d_points v) -> NoDup (h_refs h) -> ~ In r (h_refs h) -> nth_error hp r = Some p -> insertPoint v p false = Ok (v', true) ->
  exists hp' h', h_insert hp h r false = Ok (hp', h', true) /\ view hp' h' = Ok v' /\ h_refs h' = h_refs h ++ [r] /\ length hp' = length hp /\ (forall j, j <> r -> nth_error hp' j = nth_error hp j) /\ same_content hp hp'.
Proof.
  intros V Sz N Nr Er E. unfold h_insert, vget at 1. rewrite Er. cbn [obind]. rewrite V. cbn [obind]. rewrite E. cbn [obind snd fst]. apply view_ok in V as [Rd _]. pose proof (reads_len _ _ _ Rd) as Ln.
  destruct (insert_points _ _ _ _ _ E) as [[X _]|[_ U]]; [discriminate|].
  assert (reads hp (h_refs h ++ [r]) (d_points v ++ [p])) as Rd1 by (apply Forall2_app; [auto|constructor; [auto|constructor]]).
  assert (NoDup (h_refs h ++ [r])) as Nd. { apply NoDup_app_intro; [auto|repeat constructor; intros []|]. intros x [<-|[]]. exact Nr. }
  destruct (upd_reads _ _ _ _ _ _ Rd1 Nd U) as (r' & hp' & G1 & G2 & G3 & G4 & G5 & G6).
  assert (r' = r) as ->. { rewrite Sz in G1. replace (S (length (d_points v)) - 1) with (length (h_refs h) + 0) in G1 by lia. unfold vget in G1. rewrite nth_error_app2 in G1 by lia. replace (length (h_refs h) + 0 - length (h_refs h)) with 0 in G1 by lia. cbn in G1. congruence. }
  exists hp', (mkH (h_refs h ++ [r]) (strip v')). unfold h_write. cbn [h_refs]. rewrite G1. cbn [obind]. rewrite G3. cbn [obind]. split; [reflexivity|]. split; [apply view_strip; exact G4|]. split; [reflexivity|]. split; [auto|]. split; [auto|].
  intro j. destruct (Nat.eq_dec j r) as [->|Nj]; [|now rewrite G6]. apply vupd_Ok in G3. rewrite (upd_nth_same _ _ _ _ G3), Er. reflexivity.
Qed.

(** *** the points in danger *)
Section Loops.
Context (dist : list R -> list R -> R) (srt : list (nat * R) -> list (nat * R)) (m : nat) (maj : Z) (hp0 : heap R) (h : hdata R) (d : data R).
Hypotheses (Hs : sorts_by_distance srt) (V0 : view hp0 h = Ok d) (D0 : data_ok d) (N0 : NoDup (h_refs h)) (C0 : (Z.of_nat (length (d_points d)) < 2 ^ 63)%Z).
Definition hood (x : list R) : list nat := map (fun e => fst e - 1) (near_entries dist srt m (d_points d) x).
Definition hit (z : point R) : bool := dangerous (d_points d) maj m (hood (p_x z)).
Definition enough (z : point R) : Prop := exists n, distinct_nonzero (map (fun p => dist (p_x z) (p_x p)) (d_points d)) n /\ m <= n.
(** After the points [pre]. *)
Record dinv (pre : list (point R)) (refs : list nat) (s : heap R * hdata R * list Z) : Prop := {
  di_content : same_content hp0 (fst (fst s));
  di_len : length (fst (fst s)) = length hp0;
  di_rest : forall r, In r refs -> nth_error (fst (fst s)) r = nth_error hp0 r;
  di_refs : forall r, In r (h_refs (snd (fst s))) -> ~ In r refs /\ In r (h_refs h);
  di_nodup : NoDup (h_refs (snd (fst s)));
  di_view : exists v, view (fst (fst s)) (snd (fst s)) = Ok v /\ ofold ins (filter hit pre) data_empty = Ok v;
  di_ids : snd s = rev (map p_id (filter hit pre));
  di_keep : forall r, ~ In r (h_refs (snd (fst s))) -> nth_error (fst (fst s)) r = nth_error hp0 r;
  di_reads : reads hp0 (h_refs (snd (fst s))) (filter hit pre) }.
Lemma view_content hp : same_content hp0 hp -> exists d1, view hp h = Ok d1 /\ map content (d_points d1) = map content (d_points d) /\ data_ok d1.
Proof using V0 D0.
  intro SC. apply view_ok in V0 as [Rd Ed]. apply reads_creads in Rd. apply (creads_same _ hp) in Rd; [|exact SC]. destruct (creads_reads _ _ _ Rd) as (pts & Rp & Cp).
  exists (with_points pts d). split; [|split; [exact Cp|now apply data_ok_content]]. apply view_ok. split; [exact Rp|]. rewrite Ed. destruct (h_meta h); reflexivity.
Qed.
Lemma filter_le {A} (f : A -> bool) l : length (filter f l) <= length l.
Proof. induction l as [|x l IH]; cbn; [lia|]. destruct (f x); cbn; lia. Qed.
Lemma hits_ok pre : incl pre (d_points d) -> length pre <= length (d_points d) -> exists v, ofold ins (filter hit pre) data_empty = Ok v /\ data_ok v /\ d_points v = renumber 1 (filter hit pre) /\ (d_points v <> [] -> d_dim v = d_dim d).
Proof using D0 C0.
  intros I L. destruct (ins_all (filter hit pre) (d_dim d) data_empty) as (v & E & D & P & W).
  - apply data_empty_ok.
  - intros X. exfalso. apply X. reflexivity.
  - intros p Hp. apply filter_In in Hp as [Hp _]. apply (ok_dim _ D0), I, Hp.
  - cbn [data_empty d_points length]. pose proof (filter_le hit pre). lia.
  - exists v. auto.
Qed.
Lemma danger_one r refs z pts pre s : h_refs h = firstn (length pre) (h_refs h) ++ r :: refs -> nth_error hp0 r = Some z -> d_points d = pre ++ z :: pts -> dinv pre (r :: refs) s ->
  enough z -> exists s', danger_step dist srt m maj h s r = Ok s' /\ dinv (pre ++ [z]) refs s'.
Proof using Hs V0 D0 N0 C0.
    intros Er Ez Ep I En. destruct s as [[hp dg] ids]. destruct I as [I1 I2 I3 I4 I5 (v & Iv & Iw) I7 I8 I9]. cbn [fst snd] in *.
    destruct (view_content hp I1) as (d1 & E1 & P1 & _). unfold danger_step at 1. rewrite E1. cbn [obind].
    assert (nth_error hp r = Some z) as Ez' by (rewrite I3; [exact Ez|now left]). unfold vget at 1. rewrite Ez'. cbn [obind].
    rewrite (danger_content _ _ _ _ _ _ _ P1). destruct (danger_ok dist srt m maj (d_points d) (p_x z) Hs En) as (_ & ->). cbn [obind]. fold (hood (p_x z)). fold (hit z).
    assert (~ In r refs) as Nr. { rewrite Er in N0. apply NoDup_remove_2 in N0. intro X. apply N0. apply in_or_app. now right. }
    assert (In r (h_refs h)) as Ir by (rewrite Er; apply in_or_app; right; now left).
    destruct (hit z) eqn:Hz.
    + destruct (hits_ok pre) as (v0 & F0 & Dv & Pv & Wv); [rewrite Ep; intros x Hx; apply in_or_app; now left|rewrite Ep, app_length; lia|]. assert (v0 = v) as -> by congruence.
      destruct (ins_one v z (d_dim d) Dv Wv) as (v' & E2 & D2 & P2 & W2); [apply (ok_dim _ D0); rewrite Ep; apply in_or_app; right; now left| |].
      { rewrite Pv, renumber_len. pose proof (filter_le hit pre). rewrite Ep, app_length in C0. cbn [length] in C0. lia. }
      destruct (h_insert_new hp dg v r z v' Iv (ok_size _ Dv) I5) as (hp' & dg' & E3 & V3 & R3 & L3 & K3 & S3); [intro X; apply I4 in X as [X _]; apply X; now left|exact Ez'|exact E2|].
      rewrite E3. cbn [obind fst]. eexists. split; [reflexivity|].
      constructor; cbn [fst snd].
      * intro j. rewrite S3. apply I1.
      * congruence.
      * intros x Hx. rewrite K3 by (intros ->; contradiction). apply I3. now right.
      * rewrite R3. intros x Hx. apply in_app_or in Hx as [Hx|[<-|[]]]; [|auto]. destruct (I4 x Hx) as [A B]. split; [|auto]. intro X. apply A. now right.
      * rewrite R3. apply NoDup_app_intro; [auto|repeat constructor; intros []|]. intros x [<-|[]] X. apply I4 in X as [X _]. apply X. now left.
      * exists v'. split; [auto|]. rewrite filter_app, ofold_app, Iw. cbn [obind filter]. rewrite Hz. cbn [ofold]. rewrite E2. reflexivity.
      * rewrite filter_app, map_app, rev_app_distr. cbn [filter]. rewrite Hz. cbn. now rewrite I7.
      * rewrite R3. intros x Hx. rewrite K3 by (intros ->; apply Hx, in_or_app; right; now left). apply I8. intro X. apply Hx, in_or_app. now left.
      * rewrite R3, filter_app. cbn [filter]. rewrite Hz. apply Forall2_app; [exact I9|]. constructor; [exact Ez|constructor].
    + cbn [obind]. eexists. split; [reflexivity|].
      constructor; cbn [fst snd]; auto.
      * intros x Hx. apply I3. now right.
      * intros x Hx. destruct (I4 x Hx) as [A B]. split; [|auto]. intro X. apply A. now right.
      * exists v. split; [auto|]. rewrite filter_app. cbn [filter]. rewrite Hz, app_nil_r. auto.
      * rewrite filter_app. cbn [filter]. rewrite Hz, app_nil_r. auto.
      * rewrite filter_app. cbn [filter]. rewrite Hz, app_nil_r. auto.
Qed.
Lemma danger_next r refs z pts pre : h_refs h = firstn (length pre) (h_refs h) ++ r :: refs -> d_points d = pre ++ z :: pts -> h_refs h = firstn (length (pre ++ [z])) (h_refs h) ++ refs.
Proof using V0.
    intros Er Ep.
    assert (length (h_refs h) = length (d_points d)) as Lh by (apply view_ok in V0 as [X _]; exact (reads_len _ _ _ X)).
    assert (length pre < length (h_refs h)) as Lp by (rewrite Lh, Ep, app_length; cbn; lia).
    rewrite app_length. cbn [length]. rewrite Er at 2. rewrite firstn_app, firstn_firstn, firstn_length. replace (Nat.min (length pre + 1) (length pre)) with (length pre) by lia.
    replace (length pre + 1 - Nat.min (length pre) (length (h_refs h))) with 1 by lia. cbn [firstn]. rewrite <- app_assoc. exact Er.
Qed.
Lemma danger_loop : forall refs pts pre s, h_refs h = firstn (length pre) (h_refs h) ++ refs -> reads hp0 refs pts -> d_points d = pre ++ pts -> dinv pre refs s ->
  (forall z, In z pts -> enough z) -> exists s', ofold (danger_step dist srt m maj h) refs s = Ok s' /\ dinv (d_points d) [] s'.
Proof using Hs V0 D0 N0 C0.
  induction refs as [|r refs IH]; intros pts pre s Er Rd Ep I En; cbn [ofold].
  - inversion Rd; subst pts. rewrite app_nil_r in Ep. exists s. rewrite Ep. auto.
  - inversion Rd as [|? z ? pts' Ez Rd']; subst. destruct (danger_one r refs z pts' pre s Er Ez Ep I (En z (or_introl eq_refl))) as (s1 & -> & I'). cbn [obind].
    apply (IH pts' (pre ++ [z])); auto; [now apply (danger_next r refs z pts')|now rewrite <- app_assoc|]. intros y Hy. apply En. now right.
Qed.
(** With too few neighbours for some point. *)
Lemma danger_loop_short : forall refs pts pre s, h_refs h = firstn (length pre) (h_refs h) ++ refs -> reads hp0 refs pts -> d_points d = pre ++ pts -> dinv pre refs s ->
  (exists z n, In z pts /\ distinct_nonzero (map (fun p => dist (p_x z) (p_x p)) (d_points d)) n /\ n < m) -> ofold (danger_step dist srt m maj h) refs s = UB.
Proof using Hs V0 D0 N0 C0.
  induction refs as [|r refs IH]; intros pts pre s Er Rd Ep I (q & n & Iq & Dn & Ln); cbn [ofold].
  - inversion Rd; subst pts. destruct Iq.
  - inversion Rd as [|? z ? pts' Ez Rd']; subst. destruct (near_ok dist srt m (d_points d) (p_x z) Hs) as (_ & n' & Dn' & _). destruct (Nat.lt_ge_cases n' m) as [L|L].
    + destruct s as [[hp dg] ids]. destruct (view_content hp (di_content _ _ _ I)) as (d1 & E1 & P1 & _). unfold danger_step at 1. rewrite E1. cbn [obind].
      assert (nth_error hp r = Some z) as Ez' by (rewrite <- Ez; apply (di_rest _ _ _ I); now left). unfold vget at 1. rewrite Ez'. cbn [obind].
      rewrite (danger_content _ _ _ _ _ _ _ P1), (danger_short _ _ _ _ _ _ _ Hs Dn' L). reflexivity.
    + destruct (danger_one r refs z pts' pre s Er Ez Ep I) as (s1 & -> & I'); [now exists n'|]. cbn [obind].
      apply (IH pts' (pre ++ [z])); auto; [now apply (danger_next r refs z pts')|now rewrite <- app_assoc|]. exists q, n. split; [|auto]. destruct Iq as [->|Iq]; [|auto]. exfalso.
      assert (n' = n) as ->; [|lia]. destruct Dn as (v1 & N1 & <- & I1). destruct Dn' as (v2 & N2 & <- & I2). apply Permutation_length, NoDup_Permutation; [assumption|assumption|]. intro x. rewrite I1, I2. tauto.
Qed.
Lemma dinv_start : dinv [] (h_refs h) (hp0, mkH [] (strip data_empty), []).
Proof using.
  constructor; cbn [fst snd h_refs]; auto; [intro; reflexivity|intros r []|constructor| |constructor]. exists data_empty. split; reflexivity.
Qed.
End Loops.
