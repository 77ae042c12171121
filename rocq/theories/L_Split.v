(** Lemmas about splitSample and splitByClasses. *)
From Coq Require Import ZArith Bool String Sorted Permutation Lia List.
From Verif Require Import Base ListLib M_Data S_Data L_Data L_Data2 L_Insert L_Str L_Feat.
Import ListNotations.

Lemma skipn_skipn' {A} a b (l : list A) : skipn a (skipn b l) = skipn (b + a) l.
Proof. revert l. induction b as [|b IH]; intro l; simpl; auto. destruct l; auto. destruct a; auto. Qed.

(** ** round-robin selection *)
Section Pick.
Context {A : Type}.
(** elements whose running number (starting at c) is congruent to i modulo k *)
Fixpoint pick (k i c : nat) (l : list A) : list A :=
  match l with
  | [] => []
  | x :: r => if Nat.eqb (Nat.modulo c k) i then x :: pick k i (S c) r else pick k i (S c) r
  end.

Lemma pick_app k i c l1 l2 : pick k i c (l1 ++ l2) = pick k i c l1 ++ pick k i (c + length l1) l2.
Proof.
  revert c. induction l1 as [|x l1 IH]; intro c; simpl.
  - rewrite Nat.add_0_r. auto.
  - rewrite IH. replace (S c + length l1)%nat with (c + S (length l1))%nat by lia.
    destruct (Nat.eqb (Nat.modulo c k) i); auto.
Qed.

Lemma pick_filter (f : A -> bool) k i c l : (forall x, In x l -> f x = true) -> filter f (pick k i c l) = pick k i c l.
Proof.
  intro H. apply filter_all. intros x Hx. apply H. clear H. revert c Hx. induction l as [|y l IH]; intros c Hx; simpl in *; auto.
  destruct (Nat.eqb (Nat.modulo c k) i); [destruct Hx as [->|Hx]; auto|]; right; eapply IH; eauto.
Qed.

Lemma pick_In k i c (l : list A) x : In x (pick k i c l) -> In x l.
Proof.
  revert c. induction l as [|y l IH]; intros c Hx; simpl in *; auto.
  destruct (Nat.eqb (Nat.modulo c k) i); [destruct Hx as [->|Hx]; auto|]; right; eapply IH; eauto.
Qed.

(** number of j in [c, c+m) with j mod k = i *)
Lemma div_pred_step k i x : (i < k)%nat ->
  ((S x + (k - 1 - i)) / k = (x + (k - 1 - i)) / k + (if Nat.eqb (x mod k) i then 1 else 0))%nat.
Proof.
  intro Hi. assert (k <> 0)%nat as Hk by lia.
  pose proof (Nat.div_mod x k Hk) as E. pose proof (Nat.mod_upper_bound x k Hk) as B.
  set (q := (x / k)%nat) in *. set (r := (x mod k)%nat) in *.
  destruct (Nat.eqb_spec r i) as [e|n].
  - assert ((S x + (k - 1 - i)) / k = q + 1)%nat as ->.
    { symmetry. apply Nat.div_unique with (r := 0%nat); lia. }
    assert ((x + (k - 1 - i)) / k = q)%nat as ->.
    { symmetry. apply Nat.div_unique with (r := (k - 1)%nat); lia. }
    lia.
  - destruct (Nat.lt_ge_cases r i).
    + assert ((S x + (k - 1 - i)) / k = q)%nat as ->.
      { symmetry. apply Nat.div_unique with (r := (r + (k - i))%nat); lia. }
      assert ((x + (k - 1 - i)) / k = q)%nat as ->; [|lia].
      { symmetry. apply Nat.div_unique with (r := (r + (k - 1 - i))%nat); lia. }
    + assert ((S x + (k - 1 - i)) / k = q + 1)%nat as ->.
      { symmetry. apply Nat.div_unique with (r := (r - i)%nat); lia. }
      assert ((x + (k - 1 - i)) / k = q + 1)%nat as ->; [|lia].
      { symmetry. apply Nat.div_unique with (r := (r - i - 1)%nat); lia. }
Qed.

Lemma pick_length k i c (l : list A) : (i < k)%nat ->
  (length (pick k i c l) + (c + (k - 1 - i)) / k = (c + length l + (k - 1 - i)) / k)%nat.
Proof.
  intro Hi. revert c. induction l as [|x l IH]; intro c; simpl.
  - rewrite Nat.add_0_r. auto.
  - specialize (IH (S c)). rewrite div_pred_step in IH by auto.
    replace (c + S (length l))%nat with (S c + length l)%nat by lia.
    rewrite <- IH. destruct (Nat.eqb (c mod k) i); cbn [length]; lia.
Qed.

Lemma pick_balanced k i j c (l : list A) : (i < k)%nat -> (j < k)%nat ->
  (length (pick k i c l) <= length (pick k j c l) + 1)%nat.
Proof.
  intros Hi Hj. pose proof (pick_length k i c l Hi) as E1. pose proof (pick_length k j c l Hj) as E2.
  assert (k <> 0)%nat as Hk by lia.
  assert (forall u m, (m / k <= (u + m) / k - u / k /\ (u + m) / k - u / k <= m / k + 1)%nat /\ (u / k <= (u + m) / k)%nat) as F.
  { intros u m. pose proof (Nat.div_mod u k Hk). pose proof (Nat.mod_upper_bound u k Hk).
    pose proof (Nat.div_mod m k Hk). pose proof (Nat.mod_upper_bound m k Hk).
    pose proof (Nat.div_mod (u + m) k Hk). pose proof (Nat.mod_upper_bound (u + m) k Hk).
    set (a := (u / k)%nat) in *. set (b := (m / k)%nat) in *. set (e := ((u + m) / k)%nat) in *.
    split; [split|]; nia. }
  specialize (F (c + (k - 1 - i))%nat (length l)) as F1. specialize (F (c + (k - 1 - j))%nat (length l)) as F2.
  replace (c + (k - 1 - i) + length l)%nat with (c + length l + (k - 1 - i))%nat in F1 by lia.
  replace (c + (k - 1 - j) + length l)%nat with (c + length l + (k - 1 - j))%nat in F2 by lia.
  lia.
Qed.

Lemma pick_partition k c (l : list A) : (0 < k)%nat ->
  Permutation (flat_map (fun i => pick k i c l) (seq 0 k)) l.
Proof.
  intro Hk. revert c. induction l as [|x l IH]; intro c; simpl.
  - clear. generalize (seq 0 k). induction l as [|i r IH]; simpl; auto.
  - set (m := (c mod k)%nat).
    assert (m < k)%nat as Hm by (apply Nat.mod_upper_bound; lia).
    transitivity (x :: flat_map (fun i => pick k i (S c) l) (seq 0 k)); [|constructor; apply IH]. clear IH.
    assert (In m (seq 0 k)) as Hin by (apply in_seq; lia).
    apply in_split in Hin. destruct Hin as (a & b & E).
    pose proof (seq_NoDup k 0) as ND. rewrite E in ND. apply NoDup_remove_2 in ND.
    rewrite E, !flat_map_app. simpl. rewrite Nat.eqb_refl.
    assert (forall z, ~ In m z -> flat_map (fun i => if Nat.eqb m i then x :: pick k i (S c) l else pick k i (S c) l) z
                      = flat_map (fun i => pick k i (S c) l) z) as F.
    { induction z as [|i z IHz]; simpl; intro Nz; auto. rewrite IHz by tauto.
      destruct (Nat.eqb_spec m i) as [->|]; auto. exfalso. apply Nz. auto. }
    rewrite !F by (intro X; apply ND; apply in_or_app; auto).
    simpl. symmetry. apply Permutation_middle.
Qed.
End Pick.

Lemma pick_map {A B} (f : A -> B) k i c l : pick k i c (map f l) = map f (pick k i c l).
Proof. revert c. induction l as [|x l IH]; intro c; simpl; auto. destruct (Nat.eqb (c mod k) i); simpl; rewrite IH; auto. Qed.

(** A sorted list is contiguous on a convex predicate. *)
Lemma contiguous {A} (R : A -> A -> Prop) (f : A -> bool) l :
  (forall x y z, R x y -> R y z -> f x = true -> f z = true -> f y = true) ->
  StronglySorted R l ->
  exists a m b, l = a ++ m ++ b /\ (forall x, In x a -> f x = false) /\ (forall x, In x m -> f x = true) /\ (forall x, In x b -> f x = false).
Proof.
  intros Hc Hs. induction Hs as [|x r Hs IH Hx].
  - exists [], [], []. simpl. intuition.
  - destruct IH as (a & m & b & -> & Ha & Hm & Hb). destruct (f x) eqn:Fx.
    + destruct m as [|y m].
      * exists [], [x], (a ++ b). simpl. repeat split; auto; try tauto.
        -- intros z [<-|[]]; auto.
        -- intros z Hz. apply in_app_or in Hz. destruct Hz; auto.
      * destruct a as [|z a].
        -- exists [], (x :: y :: m), b. simpl in *. repeat split; auto; try tauto.
           intros z [<-|Hz]; auto.
        -- exfalso. assert (f z = true) as X; [|rewrite (Ha z) in X by (left; auto); discriminate].
           simpl in Hs, Hx. inversion Hs; subst. inversion Hx; subst.
           apply (Hc x z y); auto.
           ++ rewrite Forall_forall in H2. apply H2. apply in_or_app. right. left. auto.
           ++ apply Hm. left; auto.
    + exists (x :: a), m, b. repeat split; auto. intros z [<-|Hz]; auto.
Qed.

Section D.
Context {T : Type}.
Implicit Types d : data T.
Implicit Types p q : point T.

Definition label_le p q : bool := String.leb (string_of_label (p_y p)) (string_of_label (p_y q)).

Lemma label_contiguous (l : list (point T)) c :
  exists a m b, isort label_le l = a ++ m ++ b /\ (forall x, In x a -> p_y x <> c) /\ (forall x, In x m -> p_y x = c) /\ (forall x, In x b -> p_y x <> c).
Proof.
  destruct (contiguous (fun p q => label_le p q = true) (fun p => Z.eqb (p_y p) c) (isort label_le l)) as (a & m & b & E & Ha & Hm & Hb).
  - intros x y z H1 H2 Hx Hz. apply Z.eqb_eq in Hx, Hz. apply Z.eqb_eq. unfold label_le in *.
    rewrite Hx in H1. rewrite Hz in H2. apply string_of_label_inj. apply String_leb_antisym; auto.
  - apply isort_sorted; unfold label_le; intros; [eapply String_leb_total|eapply String_leb_trans]; eauto.
  - exists a, m, b. split; auto. repeat split; intros x Hx.
    + apply Z.eqb_neq; auto.
    + apply Z.eqb_eq; auto.
    + apply Z.eqb_neq; auto.
Qed.

Lemma label_count_filter c (l : list (point T)) : label_count c l = Z.of_nat (length (filter (fun p => Z.eqb (p_y p) c) l)).
Proof.
  unfold label_count, labels. f_equal. induction l as [|p l IH]; simpl; auto.
  destruct (Z.eq_dec (p_y p) c) as [e|n].
  - rewrite e, Z.eqb_refl. simpl. rewrite IH. auto.
  - apply Z.eqb_neq in n. rewrite n. auto.
Qed.

Lemma pick_class_count k i c0 (l : list (point T)) c :
  exists (a m : list (point T)), length (filter (fun p => Z.eqb (p_y p) c) (pick k i c0 (isort label_le l))) = length (pick k i (c0 + length (A:=point T) a) m) /\
              (forall k' i', length (filter (fun p => Z.eqb (p_y p) c) (pick k' i' c0 (isort label_le l))) = length (pick k' i' (c0 + length (A:=point T) a) m)).
Proof.
  destruct (label_contiguous l c) as (a & m & b & E & Ha & Hm & Hb).
  assert (forall k' i', length (filter (fun p => Z.eqb (p_y p) c) (pick k' i' c0 (isort label_le l))) = length (pick k' i' (c0 + length (A:=point T) a) m)) as F.
  { intros k' i'. rewrite E, !pick_app, !filter_app.
    rewrite filter_none by (intros x Hx; apply pick_In in Hx; apply Z.eqb_neq; auto).
    rewrite pick_filter by (intros x Hx; apply Z.eqb_eq; auto).
    rewrite (filter_none _ (pick k' i' (c0 + length a + length m) b)) by (intros x Hx; apply pick_In in Hx; apply Z.eqb_neq; auto).
    rewrite app_nil_r. auto. }
  exists a, m. split; auto.
Qed.

Lemma strat_balanced k i j (l : list (point T)) c : (i < k)%nat -> (j < k)%nat ->
  (label_count c (pick k i 0 (isort label_le l)) <= label_count c (pick k j 0 (isort label_le l)) + 1)%Z.
Proof.
  intros Hi Hj. rewrite !label_count_filter.
  destruct (pick_class_count k i 0 l c) as (a & m & _ & F). rewrite !F.
  pose proof (pick_balanced k i j (0 + length a) m Hi Hj). lia.
Qed.

(** ** the filling loops *)
Lemma fill_parts_spec n k keep cls (objs : list (point T)) : (0 < k)%nat ->
  forall c fr parts,
  length parts = k -> (forall P, In P parts -> built n P) -> (forall p, In p objs -> length (p_x p) = n) ->
  (forall P, In P parts -> (Z.of_nat (length (d_points P) + length objs) < 2 ^ 63)%Z) ->
  exists parts', fill_parts k keep (combine (map string_of_Z cls) (seq 0 (length cls))) objs (c :: fr) parts = Ok parts' /\
    length parts' = k /\
    forall i P, nth_error parts i = Some P -> exists P', nth_error parts' i = Some P' /\ built n P' /\
       d_points P' = d_points P ++ renum_all keep (length (d_points P)) (pick k i c objs).
Proof.
  intro Hk. induction objs as [|p objs IH]; intros c fr parts Hl Hb Hd Hc; simpl.
  - exists parts. repeat split; auto. intros i P HP. exists P. rewrite app_nil_r. repeat split; auto; apply Hb; eapply nth_error_In; eauto.
  - rewrite map_lookup_label. cbn [vget nth_error obind].
    assert (c mod k < k)%nat as Hm by (apply Nat.mod_upper_bound; lia).
    set (m := (c mod k)%nat) in *.
    cbn [vupd upd]. 
    destruct (vget_lt parts m) as (P & HP & HP'); [lia|]. rewrite HP'. cbn [obind].
    assert (In P parts) as IP by (eapply nth_error_In; eauto).
    destruct (built_step n P p keep (Hb _ IP)) as (P1 & E1 & B1 & Q1); [apply Hd; left; auto|specialize (Hc _ IP); simpl in Hc; lia|].
    rewrite E1. cbn [obind fst].
    destruct (vupd_lt m (fun _ => P1) parts) as (parts1 & Hu & Hu'); [lia|]. rewrite Hu'. cbn [obind].
    assert (forall X, In X parts1 -> X = P1 \/ In X parts) as Hx.
    { intros X HX. destruct (upd_split _ _ _ _ Hu) as (a & y & b & -> & -> & _). apply in_app_or in HX.
      destruct HX as [?|[<-|?]]; auto; right; apply in_or_app; simpl; auto. }
    destruct (IH (S c) fr parts1) as (parts2 & E2 & L2 & F2).
    + apply upd_length in Hu. lia.
    + intros X HX. destruct (Hx _ HX) as [->|?]; auto.
    + intros; apply Hd; right; auto.
    + intros X HX. destruct (Hx _ HX) as [->|IX]; [rewrite Q1, app_length; specialize (Hc _ IP); simpl in *; lia|specialize (Hc _ IX); simpl in Hc; lia].
    + exists parts2. split; auto. split; auto. intros i P0 H0.
      destruct (Nat.eqb_spec m i) as [<-|N].
      * assert (P0 = P) as -> by congruence.
        destruct (F2 m P1) as (P' & H1 & H2 & H3).
        { rewrite (upd_nth_same _ _ _ _ Hu), HP. auto. }
        exists P'. split; auto. split; auto. rewrite H3, Q1, <- app_assoc, app_length, Nat.add_1_r. auto.
      * destruct (F2 i P0) as (P' & H1 & H2 & H3).
        { rewrite (upd_nth_other _ i _ _ _ Hu); auto. }
        exists P'. auto.
Qed.

(** positions selected by the job list *)
Definition pickj (jobs : list nat) (i : nat) (pts : list (point T)) : list (point T) :=
  map snd (filter (fun jp => Nat.eqb (fst jp) i) (combine jobs pts)).

Lemma fill_plain_spec n k keep jobs : forall pts pre parts,
  length parts = k -> (forall i, In i jobs -> (i < k)%nat) -> (length jobs <= length pts)%nat ->
  (forall P, In P parts -> built n P) -> (forall p, In p pts -> length (p_x p) = n) ->
  (forall P, In P parts -> (Z.of_nat (length (d_points P) + length pts) < 2 ^ 63)%Z) ->
  exists parts', fill_plain jobs keep (pre ++ pts) (length (pre ++ pts)) (length pre) parts = Ok parts' /\
    length parts' = k /\
    forall i P, nth_error parts i = Some P -> exists P', nth_error parts' i = Some P' /\ built n P' /\
       d_points P' = d_points P ++ renum_all keep (length (d_points P)) (pickj jobs i pts).
Proof.
  induction jobs as [|m jobs IH]; intros pts pre parts Hl Hj Hle Hb Hd Hc; simpl.
  - exists parts. repeat split; auto. intros i P HP. exists P. unfold pickj. simpl. rewrite app_nil_r.
    repeat split; auto; apply Hb; eapply nth_error_In; eauto.
  - destruct pts as [|p pts]; [simpl in Hle; lia|].
    assert (vget (pre ++ p :: pts) (length pre) = Ok p) as ->.
    { apply vget_Ok. rewrite nth_error_app2, Nat.sub_diag by lia. auto. }
    cbn [obind]. assert (m < k)%nat as Hm by (apply Hj; left; auto).
    destruct (vget_lt parts m) as (P & HP & HP'); [lia|]. rewrite HP'. cbn [obind].
    assert (In P parts) as IP by (eapply nth_error_In; eauto).
    destruct (built_step n P p keep (Hb _ IP)) as (P1 & E1 & B1 & Q1); [apply Hd; left; auto|specialize (Hc _ IP); simpl in Hc; lia|].
    rewrite E1. cbn [obind fst].
    destruct (vupd_lt m (fun _ => P1) parts) as (parts1 & Hu & Hu'); [lia|]. rewrite Hu'. cbn [obind].
    assert (forall X, In X parts1 -> X = P1 \/ In X parts) as Hx.
    { intros X HX. destruct (upd_split _ _ _ _ Hu) as (a & y & b & -> & -> & _). apply in_app_or in HX.
      destruct HX as [?|[<-|?]]; auto; right; apply in_or_app; simpl; auto. }
    destruct (IH pts (pre ++ [p]) parts1) as (parts2 & E2 & L2 & F2).
    + apply upd_length in Hu. lia.
    + intros; apply Hj; right; auto.
    + simpl in Hle. lia.
    + intros X HX. destruct (Hx _ HX) as [->|?]; auto.
    + intros; apply Hd; right; auto.
    + intros X HX. destruct (Hx _ HX) as [->|IX]; [rewrite Q1, app_length; specialize (Hc _ IP); simpl in *; lia|specialize (Hc _ IX); simpl in Hc; lia].
    + assert (exists parts', (if Nat.eqb (S (length pre)) (length (pre ++ p :: pts)) then Ok parts1
               else fill_plain jobs keep (pre ++ p :: pts) (length (pre ++ p :: pts)) (S (length pre)) parts1) = Ok parts' /\ parts' = parts2) as (parts' & E3 & ->).
      { destruct (Nat.eqb_spec (S (length pre)) (length (pre ++ p :: pts))) as [e|ne].
        - assert (pts = []) as -> by (rewrite app_length in e; simpl in e; destruct pts; auto; simpl in e; lia).
          destruct jobs; [|simpl in Hle; lia]. simpl in E2. eauto.
        - assert (length (pre ++ [p]) = S (length pre)) as LL by (rewrite app_length; simpl; lia).
          rewrite <- app_assoc, LL in E2. cbn [app] in E2. eauto. }
      exists parts2. split; auto. split; auto. intros i P0 H0. unfold pickj. simpl.
      destruct (Nat.eqb_spec m i) as [<-|N].
      * assert (P0 = P) as -> by congruence.
        destruct (F2 m P1) as (P' & H1 & H2 & H3).
        { rewrite (upd_nth_same _ _ _ _ Hu), HP. auto. }
        exists P'. split; auto. split; auto. rewrite H3, Q1, <- app_assoc, app_length, Nat.add_1_r. auto.
      * destruct (F2 i P0) as (P' & H1 & H2 & H3).
        { rewrite (upd_nth_other _ i _ _ _ Hu); auto. }
        exists P'. auto.
Qed.

Lemma combine_repeat_pick i j ns (pts : list (point T)) :
  map snd (filter (fun jp => Nat.eqb (fst jp) i) (combine (repeat j ns) pts)) = if Nat.eqb j i then firstn ns pts else [].
Proof.
  revert pts. induction ns as [|ns IH]; intros [|p pts]; simpl; try (destruct (Nat.eqb j i); reflexivity).
  destruct (Nat.eqb_spec j i) as [->|N]; simpl; rewrite IH; auto.
Qed.

Lemma combine_app_l {A B} (l1 l2 : list A) (r : list B) : combine (l1 ++ l2) r = combine l1 r ++ combine l2 (skipn (length l1) r).
Proof.
  revert r. induction l1 as [|x l1 IH]; intros [|y r]; simpl; auto.
  - destruct l2; reflexivity.
  - rewrite IH. reflexivity.
Qed.

Lemma pickj_blocks ns m : forall s i (pts : list (point T)), (s <= i < s + m)%nat ->
  pickj (flat_map (fun i => repeat i ns) (seq s m)) i pts = firstn ns (skipn ((i - s) * ns) pts).
Proof.
  induction m as [|m IH]; intros s i pts H; [lia|]. simpl. unfold pickj.
  rewrite combine_app_l, filter_app, map_app, combine_repeat_pick, repeat_length.
  fold (pickj (flat_map (fun i => repeat i ns) (seq (S s) m)) i (skipn ns pts)).
  destruct (Nat.eqb_spec s i) as [<-|N].
  - rewrite Nat.sub_diag. simpl.
    assert (pickj (flat_map (fun i => repeat i ns) (seq (S s) m)) s (skipn ns pts) = []) as ->; [|rewrite app_nil_r; auto].
    unfold pickj. rewrite filter_none; auto. intros [a b] Hx. apply in_combine_l in Hx. apply in_flat_map in Hx.
    destruct Hx as (z & Hz & Hy). apply in_seq in Hz. apply repeat_spec in Hy. simpl. subst. apply Nat.eqb_neq. lia.
  - rewrite IH by lia. simpl. replace (i - s)%nat with (S (i - S s)) by lia. simpl.
    rewrite skipn_skipn'. auto.
Qed.

Lemma flat_map_repeat_length ns s m : length (flat_map (fun i => repeat i ns) (seq s m)) = (m * ns)%nat.
Proof. revert s. induction m as [|m IH]; intro s; simpl; auto. rewrite app_length, repeat_length, IH. auto. Qed.

Lemma firstn_blocks (pts : list (point T)) ns m : forall s,
  flat_map (fun i => firstn ns (skipn (i * ns) pts)) (seq s m) = firstn (m * ns) (skipn (s * ns) pts).
Proof.
  induction m as [|m IH]; intro s; simpl; auto. rewrite IH.
  rewrite <- (firstn_skipn ns (firstn (ns + m * ns) (skipn (s * ns) pts))).
  rewrite firstn_firstn, Nat.min_l by lia. f_equal.
  rewrite skipn_firstn_comm, skipn_skipn'. simpl. f_equal; [lia|f_equal; lia].
Qed.

(** parts listed by index *)
Lemma nth_error_seq_map {A B} (l : list A) (g : A -> list B) (f : nat -> list B) :
  (forall i P, nth_error l i = Some P -> g P = f i) -> flat_map g l = flat_map f (seq 0 (length l)).
Proof.
  revert f. induction l as [|x l IH]; intros f H; simpl; auto.
  rewrite (H 0%nat x) by auto. f_equal. rewrite <- seq_shift.
  rewrite IH with (f := fun i => f (S i)).
  - generalize (seq 0 (length l)). induction l0 as [|i r IHr]; simpl; auto. rewrite IHr. auto.
  - intros i P HP. apply (H (S i)). auto.
Qed.

Lemma copy_points d : d_points (copy d) = d_points d.
Proof. unfold copy. simpl. rewrite <- (map_id (d_points d)) at 2. apply map_ext. intros [x y i a]. auto. Qed.

Lemma splitSample_strat d k perm keep :
  data_ok d -> (0 < k)%nat -> Permutation perm (seq 0 (length (d_points d))) ->
  exists parts dd, splitSample perm d k true keep = Ok parts /\ length parts = k /\
    Permutation dd (d_points d) /\
    forall i P, nth_error parts i = Some P -> built (d_dim d) P /\
      d_points P = renum_all keep 0 (pick k i 0 (isort label_le dd)).
Proof.
  intros Hd Hk Hp. pose proof Hd as [As Acl An Ai Adm Af Aso Afp Ae Ac].
  unfold splitSample. destruct (Nat.eqb_spec k 0); [lia|].
  destruct (shuffle_spec (copy d) perm) as (dd & E & P & _ & F1 & F2 & F3 & F4 & _).
  - simpl. unfold size. auto.
  - rewrite copy_points. auto.
  - rewrite E. cbn [obind]. rewrite copy_points in P. rewrite (co_class _ Acl). cbn [andb].
    destruct k as [|k']; [lia|]. cbn [repeat].
    change (fun p q : point T => String.leb (string_of_label (p_y p)) (string_of_label (p_y q))) with label_le.
    destruct (fill_parts_spec (d_dim d) (S k') keep (d_classes dd) (isort label_le (d_points dd)) Hk 0 (repeat 0%nat k')
                (data_empty :: repeat data_empty k')) as (parts & E1 & L1 & H1).
    + simpl. rewrite repeat_length. auto.
    + intros X HX. assert (X = data_empty) as -> by (destruct HX as [<-|HX]; auto; apply repeat_spec in HX; auto). apply built_empty.
    + intros p Ip. apply isort_In in Ip. apply Adm. eapply Permutation_in; eauto.
    + intros X HX. assert (X = data_empty) as -> by (destruct HX as [<-|HX]; auto; apply repeat_spec in HX; auto).
      simpl. rewrite isort_length, (Permutation_length P). auto.
    + exists parts, (d_points dd). rewrite E1. split; auto. split; auto. split; auto.
      intros i P0 H. destruct (H1 i data_empty) as (P' & X1 & X2 & X3); [|rewrite X1 in H; injection H as <-; auto].
      assert (i < S k')%nat by (rewrite <- L1; apply nth_error_Some; congruence).
      change (data_empty :: repeat data_empty k') with (repeat (@data_empty T) (S k')). apply nth_error_repeat. auto.
Qed.

Lemma splitSample_plain d k perm keep strat :
  data_ok d -> (0 < k)%nat -> Permutation perm (seq 0 (length (d_points d))) -> strat = false ->
  exists parts dd, splitSample perm d k strat keep = Ok parts /\ length parts = k /\
    Permutation dd (d_points d) /\
    forall i P, nth_error parts i = Some P -> built (d_dim d) P /\
      d_points P = renum_all keep 0 (firstn (length (d_points d) / k) (skipn (i * (length (d_points d) / k)) dd)).
Proof.
  intros Hd Hk Hp ->. pose proof Hd as [As Acl An Ai Adm Af Aso Afp Ae Ac].
  unfold splitSample. destruct (Nat.eqb_spec k 0); [lia|].
  destruct (shuffle_spec (copy d) perm) as (dd & E & P & _ & F1 & F2 & F3 & F4 & _).
  - simpl. unfold size. auto.
  - rewrite copy_points. auto.
  - rewrite E. cbn [obind]. rewrite copy_points in P. rewrite andb_false_r.
    unfold size. set (ns := (length (d_points d) / k)%nat).
    pose proof (Permutation_length P) as LP.
    destruct (fill_plain_spec (d_dim d) k keep (flat_map (fun i => repeat i ns) (seq 0 k)) (d_points dd) [] (repeat data_empty k)) as (parts & E1 & L1 & H1).
    + apply repeat_length.
    + intros i Hi. apply in_flat_map in Hi. destruct Hi as (z & Hz & Hy). apply in_seq in Hz. apply repeat_spec in Hy. lia.
    + rewrite flat_map_repeat_length, LP. unfold ns. pose proof (Nat.mul_div_le (length (d_points d)) k). lia.
    + intros X HX. apply repeat_spec in HX. subst. apply built_empty.
    + intros p Ip. apply Adm. eapply Permutation_in; eauto.
    + intros X HX. apply repeat_spec in HX. subst. simpl. rewrite LP. auto.
    + simpl in E1. rewrite LP in E1. exists parts, (d_points dd). split; auto. split; auto. split; auto.
      intros i P0 H. assert (i < k)%nat as Hik by (rewrite <- L1; apply nth_error_Some; congruence).
      destruct (H1 i data_empty) as (P' & X1 & X2 & X3); [apply nth_error_repeat; auto|rewrite X1 in H; injection H as <-; auto].
      split; auto. rewrite X3. cbn [data_empty d_points app length]. rewrite pickj_blocks by lia. rewrite Nat.sub_0_r. auto.
Qed.

(** ** splitByClasses *)
Lemma sbc_loop_spec n keep classes : forall pts parts,
  length parts = length classes -> (forall p, In p pts -> In (p_y p) classes) ->
  (forall P, In P parts -> built n P) -> (forall p, In p pts -> length (p_x p) = n) ->
  (forall P, In P parts -> (Z.of_nat (length (d_points P) + length pts) < 2 ^ 63)%Z) ->
  exists parts', sbc_loop keep classes pts parts = Ok parts' /\ length parts' = length classes /\
    forall i P, nth_error parts i = Some P -> exists P', nth_error parts' i = Some P' /\ built n P' /\
       d_points P' = d_points P ++ renum_all keep (length (d_points P)) (filter (fun p => Nat.eqb (find_pos (p_y p) classes) i) pts).
Proof.
  induction pts as [|p pts IH]; intros parts Hl Hin Hb Hd Hc; simpl.
  - exists parts. repeat split; auto. intros i P HP. exists P. rewrite app_nil_r. repeat split; auto; apply Hb; eapply nth_error_In; eauto.
  - set (m := find_pos (p_y p) classes).
    assert (m < length classes)%nat as Hm by (apply find_pos_In, Hin; left; auto).
    destruct (vget_lt parts m) as (P & HP & HP'); [lia|]. rewrite HP'. cbn [obind].
    assert (In P parts) as IP by (eapply nth_error_In; eauto).
    destruct (built_step n P p keep (Hb _ IP)) as (P1 & E1 & B1 & Q1); [apply Hd; left; auto|specialize (Hc _ IP); simpl in Hc; lia|].
    rewrite E1. cbn [obind fst].
    destruct (vupd_lt m (fun _ => P1) parts) as (parts1 & Hu & Hu'); [lia|]. rewrite Hu'. cbn [obind].
    assert (forall X, In X parts1 -> X = P1 \/ In X parts) as Hx.
    { intros X HX. destruct (upd_split _ _ _ _ Hu) as (a & y & b & -> & -> & _). apply in_app_or in HX.
      destruct HX as [?|[<-|?]]; auto; right; apply in_or_app; simpl; auto. }
    destruct (IH parts1) as (parts2 & E2 & L2 & F2).
    + apply upd_length in Hu. lia.
    + intros; apply Hin; right; auto.
    + intros X HX. destruct (Hx _ HX) as [->|?]; auto.
    + intros; apply Hd; right; auto.
    + intros X HX. destruct (Hx _ HX) as [->|IX]; [rewrite Q1, app_length; specialize (Hc _ IP); simpl in *; lia|specialize (Hc _ IX); simpl in Hc; lia].
    + exists parts2. split; auto. split; auto. intros i P0 H0.
      destruct (Nat.eqb_spec m i) as [<-|N].
      * assert (P0 = P) as -> by congruence.
        destruct (F2 m P1) as (P' & H1 & H2 & H3).
        { rewrite (upd_nth_same _ _ _ _ Hu), HP. auto. }
        exists P'. split; auto. split; auto. rewrite H3, Q1, <- app_assoc, app_length, Nat.add_1_r. auto.
      * destruct (F2 i P0) as (P' & H1 & H2 & H3).
        { rewrite (upd_nth_other _ i _ _ _ Hu); auto. }
        exists P'. auto.
Qed.

Lemma built_compute n (P : data T) : built n P -> (Z.of_nat (length (d_points P)) < 2 ^ 63)%Z ->
  exists P', computeClassesDistribution P = Ok P' /\ d_points P' = d_points P /\ built n P'.
Proof.
  intros [Bs Bc Bn Bi Bd B0 B1 Bf Bcd Bo] Hc.
  unfold computeClassesDistribution. rewrite Bcd.
  destruct (tally_zero (d_classes P) (d_points P)) as (dist & H & CO); try apply Bc; auto.
  rewrite H. cbn [obind]. eexists. split; [reflexivity|]. cbn. split; auto. constructor; cbn; auto.
  apply class_ok_iff. cbn. split; auto. apply Bc.
Qed.

Lemma splitByClasses_spec d keep : data_ok d ->
  exists parts, splitByClasses d keep = Ok parts /\ length parts = length (d_classes d) /\
    forall i c, nth_error (d_classes d) i = Some c -> exists P, nth_error parts i = Some P /\ built (d_dim d) P /\
      d_points P = renum_all keep 0 (filter (fun p => Z.eqb (p_y p) c) (d_points d)).
Proof.
  intros Hd. pose proof Hd as [As Acl An Ai Adm Af Aso Afp Ae Ac].
  unfold splitByClasses. rewrite copy_points. simpl d_classes.
  destruct (sbc_loop_spec (d_dim d) keep (d_classes d) (d_points d) (repeat data_empty (length (d_classes d)))) as (parts & E & L & F).
  - apply repeat_length.
  - apply Acl.
  - intros X HX. apply repeat_spec in HX. subst. apply built_empty.
  - auto.
  - intros X HX. apply repeat_spec in HX. subst. simpl. auto.
  - rewrite E. cbn [obind].
    assert (forall l : list (data T), (forall P, In P l -> built (d_dim d) P /\ (Z.of_nat (length (d_points P)) < 2 ^ 63)%Z) ->
       exists l', map_outcome computeClassesDistribution l = Ok l' /\ length l' = length l /\
         forall i P, nth_error l i = Some P -> exists P', nth_error l' i = Some P' /\ d_points P' = d_points P /\ built (d_dim d) P') as G.
    { induction l as [|P l IH]; intro H; simpl; [exists []; repeat split; auto; intros [|i] P; discriminate|].
      destruct (built_compute (d_dim d) P) as (P1 & C1 & C2 & C3); try (apply H; left; auto).
      rewrite C1. cbn [obind]. destruct IH as (l' & D1 & D2 & D3); [intros; apply H; right; auto|].
      rewrite D1. cbn [obind]. exists (P1 :: l'). split; auto. split; [simpl; auto|].
      intros [|i] P0 H0; simpl in *; [injection H0 as <-; eauto|eauto]. }
    assert (forall i P, nth_error parts i = Some P -> built (d_dim d) P /\ exists c, nth_error (d_classes d) i = Some c /\
         d_points P = renum_all keep 0 (filter (fun p => Z.eqb (p_y p) c) (d_points d))) as K.
    { intros i P HP. assert (i < length (d_classes d))%nat as Hi by (rewrite <- L; apply nth_error_Some; congruence).
      destruct (F i data_empty) as (P' & H1 & H2 & H3); [apply nth_error_repeat; auto|].
      assert (P' = P) as -> by congruence. split; auto.
      destruct (nth_error (d_classes d) i) as [c|] eqn:Ec; [|apply nth_error_None in Ec; lia].
      exists c. split; auto. rewrite H3. simpl. f_equal. apply filter_ext_in. intros p Ip.
      destruct (Z.eqb_spec (p_y p) c) as [->|N].
      - apply Nat.eqb_eq. apply find_pos_unique; auto. apply Acl.
      - apply Nat.eqb_neq. intro X. apply N. assert (In (p_y p) (d_classes d)) as Iy by (apply Acl; auto).
        apply find_pos_nth in Iy. rewrite X in Iy. congruence. }
    destruct (G parts) as (l' & G1 & G2 & G3).
    { intros P HP. apply In_nth_error in HP. destruct HP as (i & HP). destruct (K _ _ HP) as (K1 & c & _ & K2). split; auto.
      rewrite K2, renum_all_length. pose proof (filter_length_le' (fun p => Z.eqb (p_y p) c) (d_points d)). lia. }
    rewrite G1. exists l'. split; auto. split; [congruence|].
    intros i c Hi. assert (i < length parts)%nat as Hi' by (rewrite L; apply nth_error_Some; congruence).
    destruct (nth_error parts i) as [P|] eqn:EP; [|apply nth_error_None in EP; lia].
    destruct (G3 _ _ EP) as (P' & Q1 & Q2 & Q3). exists P'. split; auto. split; auto.
    destruct (K _ _ EP) as (_ & c' & Hc' & HK). assert (c' = c) as -> by congruence. congruence.
Qed.
End D.
