(** Lemmas about nearest neighbours. *)
From Coq Require Import ZArith Bool List Reals Lra Lia Permutation.
From Verif Require Import Base ListLib M_Data Loop L_Vec L_Valid M_Knn S_Knn.
Import ListNotations.
Local Open Scope nat_scope.

Lemma NoDup_left {A} (a b : list A) : NoDup (a ++ b) -> NoDup a.
Proof. induction a as [|x a IH]; cbn; intro H; [constructor|]. inversion H; subst. constructor; auto. intro Q. apply H2. apply in_or_app. now left. Qed.
Definition rless (ds : list R) (i j : nat) : bool := if Rlt_dec (nth i ds 0%R) (nth j ds 0%R) then true else false.
Lemma rless_true ds i j : rless ds i j = true <-> (nth i ds 0 < nth j ds 0)%R.
Proof. unfold rless. destruct (Rlt_dec _ _); split; auto; discriminate. Qed.
Lemma rless_false ds i j : rless ds i j = false <-> (nth j ds 0 <= nth i ds 0)%R.
Proof. unfold rless. destruct (Rlt_dec _ _); split; try discriminate; intros; try lra; auto. Qed.
Lemma rless_weak ds l : strict_weak (rless ds) l.
Proof.
  split; [|split].
  - intros a _. apply rless_false. lra.
  - intros a b c _ _ _. rewrite !rless_true. lra.
  - intros a b c _ _ _. rewrite !rless_false. lra.
Qed.
Lemma nth_element_ok nth_el ds k n : nth_ok nth_el -> k <= n -> exists idx, nth_element nth_el (rless ds) k (seq 0 n) = Ok idx /\
  Permutation (seq 0 n) idx /\ k_nearest n k (fun i => nth i ds 0%R) (firstn k idx).
Proof.
  intros O K. unfold nth_element. rewrite seq_length. destruct (Nat.ltb_spec n k); [lia|].
  destruct (O (rless ds) k (seq 0 n) (rless_weak ds _)) as [P S]; [now rewrite seq_length|]. eexists. split; [reflexivity|]. split; [exact P|].
  set (idx := nth_el (rless ds) k (seq 0 n)) in *.
  assert (NoDup idx) as ND by (eapply Permutation_NoDup; [exact P|apply seq_NoDup]).
  assert (length idx = n) as L by (apply Permutation_length in P; rewrite seq_length in P; lia).
  split; [|split; [|split]].
  - rewrite <- (firstn_skipn k idx) in ND. now apply NoDup_left in ND.
  - rewrite firstn_length. lia.
  - intros a Ha. assert (In a idx) as X by (rewrite <- (firstn_skipn k idx); apply in_or_app; now left).
    apply (Permutation_in _ (Permutation_sym P)), in_seq in X. lia.
  - intros a b Ha Hb Nb. assert (In b idx) as X by (apply (Permutation_in _ P), in_seq; lia).
    rewrite <- (firstn_skipn k idx) in X. apply in_app_or in X as [X|X]; [contradiction|]. apply rless_false. now apply S.
Qed.

Lemma frequency_ok (d : data R) N c : (forall a, In a N -> a < length (d_points d)) -> frequency (d_points d) N c = Ok (votes (label_at d) N c).
Proof.
  intro H. unfold frequency. enough (forall k, ofold (fun f id => let* p := vget (d_points d) id in Ok (if Z.eqb (p_y p) c then S f else f)) N k = Ok (k + votes (label_at d) N c)) as X by apply (X 0).
  induction N as [|a N IH]; intro k; cbn [ofold votes map count_occ].
  - f_equal. unfold votes. cbn. lia.
  - specialize (H a) as Ha. destruct (nth_error (d_points d) a) as [p|] eqn:E; [|apply nth_error_None in E; specialize (Ha (or_introl eq_refl)); lia].
    unfold vget. rewrite E. cbn [obind]. rewrite IH by (intros; apply H; now right). f_equal.
    assert (label_at d a = p_y p) as La by (unfold label_at; apply nth_error_nth; now apply map_nth_error).
    unfold votes. cbn [map count_occ]. rewrite La. destruct (Z.eqb_spec (p_y p) c), (Z.eq_dec (p_y p) c); try congruence; lia.
Qed.

Lemma best_class_ok freq count all : (forall c, In c all -> freq c = Ok (count c)) -> forall classes before i bf bi,
  all = before ++ classes -> i = length before -> 
  (forall b, In b before -> count b <= bf) ->
  (match before with [] => bf = 0 /\ bi = 0 | _ => exists c b1 b2, before = b1 ++ c :: b2 /\ bi = length b1 /\ (bf = count c) /\ (forall b, In b b1 -> count b < bf) end \/ (bf = 0 /\ bi = 0)) ->
  exists f j, best_class freq classes i bf bi = Ok (f, j) /\ (forall b, In b all -> count b <= f) /\
    ((exists c b1 b2, all = b1 ++ c :: b2 /\ j = length b1 /\ f = count c /\ (forall b, In b b1 -> count b < f)) \/ (f = 0 /\ j = 0)).
Proof.
  intros H classes. induction classes as [|c r IH]; intros before i bf bi E -> Hb Hc; cbn [best_class].
  - rewrite app_nil_r in E. subst all. exists bf, bi. split; [auto|split; [auto|]]. destruct Hc as [Hc|Hc]; [|auto]. destruct before; [right; tauto|left; exact Hc].
  - rewrite H by (rewrite E; apply in_or_app; right; now left). cbn [obind].
    assert (all = (before ++ [c]) ++ r) as E' by (rewrite <- app_assoc; exact E).
    assert (S (length before) = length (before ++ [c])) as L by (rewrite app_length; cbn; lia).
    destruct (Nat.ltb_spec bf (count c)) as [Lt|Ge].
    + apply IH with (before := before ++ [c]); auto.
      * intros b Hbb. apply in_app_or in Hbb as [Hbb|[<-|[]]]; [specialize (Hb b Hbb); lia|lia].
      * left. destruct (before ++ [c]) eqn:Q; [now destruct before|]. rewrite <- Q. exists c, before, []. split; [auto|split; [auto|split; [auto|]]].
        intros b Hbb. specialize (Hb b Hbb). lia.
    + apply IH with (before := before ++ [c]); auto.
      * intros b Hbb. apply in_app_or in Hbb as [Hbb|[<-|[]]]; [auto|lia].
      * destruct Hc as [Hc|Hc]; [|auto]. destruct before as [|b0 bs]; [right; exact Hc|]. left. destruct ((b0 :: bs) ++ [c]) eqn:Q; [discriminate|]. rewrite <- Q.
        destruct Hc as (x & b1 & b2 & Eb & A & B & C). exists x, b1, (b2 ++ [c]). rewrite Eb. rewrite <- app_assoc. auto.
Qed.
Lemma vote_ok d k idx : d_classes d <> [] -> (forall a, In a (firstn k idx) -> a < length (d_points d)) ->
  exists c, vote d k idx = Ok (votes (label_at d) (firstn k idx) c, c) /\ first_plurality (d_classes d) (votes (label_at d) (firstn k idx)) c.
Proof.
  intros N H. unfold vote. set (count := votes (label_at d) (firstn k idx)).
  destruct (best_class_ok (frequency (d_points d) (firstn k idx)) count (d_classes d) (fun c _ => frequency_ok d _ c H) (d_classes d) [] 0 0 0 eq_refl eq_refl) as (f & j & E & M & C).
  - intros b [].
  - right. auto.
  - rewrite E. cbn [obind fst snd]. destruct C as [(c & b1 & b2 & Ec & -> & -> & Hb)|[-> ->]].
    + exists c. rewrite Ec. unfold vget. rewrite nth_error_app2, Nat.sub_diag by lia. cbn. split; [reflexivity|]. exists b1, b2. split; [auto|]. split; [auto|].
      intros a Ha. apply M. rewrite Ec. apply in_or_app. right. now right.
    + destruct (d_classes d) as [|c r] eqn:Q; [congruence|]. exists c. assert (count c = 0) as Z by (specialize (M c (or_introl eq_refl)); lia).
      cbn. rewrite Z. split; [reflexivity|]. exists [], r. split; [auto|split; [intros ? []|]]. intros a Ha. rewrite Z. apply M. now right.
Qed.
Lemma knn_ok dist nth_el d k q : nth_ok nth_el -> d_size d = length (d_points d) -> dim d = length q -> k <= length (d_points d) -> d_classes d <> [] ->
  exists N c, knn_evaluate dist nth_el d k q = Ok (votes (label_at d) N c, c) /\ k_nearest (length (d_points d)) k (fun i => dist q (point_at d i)) N /\
    first_plurality (d_classes d) (votes (label_at d) N) c.
Proof.
  intros O Sz Dm K C. unfold knn_evaluate. rewrite Dm, Nat.eqb_refl, Sz, Nat.eqb_refl. cbv zeta.
  set (ds := map (fun p => dist q (p_x p)) (d_points d)). fold (rless ds). change (fun i j => rless ds i j) with (rless ds).
  destruct (nth_element_ok nth_el ds k (length (d_points d)) O K) as (idx & E & P & (A1 & A2 & A3 & A4)). change (fun i j => if Rlt_dec (nth i ds 0%R) (nth j ds 0%R) then true else false) with (rless ds).
  rewrite E. cbn [obind]. destruct (vote_ok d k idx C) as (c & V & F); [auto|]. exists (firstn k idx), c. split; [exact V|]. split; [|exact F].
  assert (forall i, i < length (d_points d) -> nth i ds 0%R = dist q (point_at d i)) as D.
  { intros i Hi. unfold ds, point_at. destruct (nth_error (d_points d) i) as [p|] eqn:Q; [|apply nth_error_None in Q; lia].
    rewrite (nth_error_nth (map p_x (d_points d)) i [] (map_nth_error p_x _ _ Q)). apply nth_error_nth. now apply (map_nth_error (fun p => dist q (p_x p))). }
  split; [auto|split; [auto|split; [auto|]]]. intros a b Ha Hb Nb. rewrite <- !D by auto. auto.
Qed.
(** with a table of distances *)
Lemma knn_pre_ok m nth_el d k q qid (f : nat -> R) : nth_ok nth_el -> d_size d = length (d_points d) -> dim d = length q -> k <= length (d_points d) -> d_classes d <> [] ->
  (forall i, i < length (d_points d) -> pre_dist m d qid i = Ok (f i)) ->
  exists N c, knn_evaluate_pre m nth_el d k q qid = Ok (votes (label_at d) N c, c) /\ k_nearest (length (d_points d)) k f N /\ first_plurality (d_classes d) (votes (label_at d) N) c.
Proof.
  intros O Sz Dm K C F. unfold knn_evaluate_pre. rewrite Dm, Nat.eqb_refl, Sz.
  rewrite (map_outcome_ok _ f) by (intros i Hi; apply F; apply in_seq in Hi; lia). cbn [obind]. set (ds := map f (seq 0 (length (d_points d)))).
  destruct (nth_element_ok nth_el ds k (length (d_points d)) O K) as (idx & E & P & (A1 & A2 & A3 & A4)). change (fun i j => if Rlt_dec (nth i ds 0%R) (nth j ds 0%R) then true else false) with (rless ds).
  rewrite E. cbn [obind]. destruct (vote_ok d k idx C) as (c & V & G); [auto|]. exists (firstn k idx), c. split; [exact V|]. split; [|exact G].
  assert (forall i, i < length (d_points d) -> nth i ds 0%R = f i) as D.
  { intros i Hi. unfold ds. apply nth_error_nth. apply map_nth_error. rewrite <- (Nat.add_0_l i) at 2. rewrite nth_error_nth' with (d := 0) by now rewrite seq_length. now rewrite seq_nth. }
  split; [auto|split; [auto|split; [auto|]]]. intros a b Ha Hb Nb. rewrite <- !D by auto. auto.
Qed.

(** *** distance matrix *)
Lemma vupd_mid A (pre : list A) a f rest : vupd (length pre) f (pre ++ a :: rest) = Ok (pre ++ f a :: rest).
Proof. unfold vupd. induction pre as [|x pre IH]; cbn; [reflexivity|]. destruct (upd _ _ _); [|discriminate]. now injection IH as ->. Qed.
Lemma split_at A (l : list A) i : i < length l -> exists pre a post, l = pre ++ a :: post /\ length pre = i.
Proof. intro H. destruct (nth_error l i) as [a|] eqn:E; [|apply nth_error_None in E; lia]. apply nth_error_split in E as (l1 & l2 & -> & L). eauto. Qed.
Lemma vupd_nth A (l : list A) i f dflt : i < length l -> exists l', vupd i f l = Ok l' /\ length l' = length l /\ nth i l' dflt = f (nth i l dflt) /\ forall j, j <> i -> nth j l' dflt = nth j l dflt.
Proof.
  intro H. destruct (split_at _ l i H) as (pre & a & post & -> & <-). rewrite vupd_mid. eexists. split; [reflexivity|]. rewrite !app_length. cbn [length].
  split; [lia|]. split; [now rewrite !app_nth2, !Nat.sub_diag by lia|]. intros j N. destruct (Nat.lt_ge_cases j (length pre)).
  - now rewrite !app_nth1 by auto.
  - rewrite !app_nth2 by auto. destruct (j - length pre) eqn:Q; [lia|reflexivity].
Qed.
Lemma pset_mid pre r post j v : j < length r -> exists r', pset (pre ++ r :: post) (length pre) j v = Ok (pre ++ r' :: post) /\ length r' = length r /\
  nth j r' 0%R = v /\ forall i, i <> j -> nth i r' 0%R = nth i r 0%R.
Proof.
  intro H. unfold pset, pget, pat. rewrite nth_error_app2, Nat.sub_diag by lia. cbn [nth_error obind].
  destruct (nth_error r j) eqn:E; [|apply nth_error_None in E; lia]. cbn [obind]. unfold mset, vget. rewrite nth_error_app2, Nat.sub_diag by lia. cbn [nth_error obind].
  destruct (vupd_nth _ r j (fun _ => v) 0%R H) as (r' & E' & L & A & B). rewrite E'. cbn [obind]. rewrite vupd_mid. eauto 10.
Qed.
Lemma row_fill (f : nat -> R) pre post L : forall r, (forall j, In j L -> j < length r) ->
  exists r', ofold (fun m j => pset m (length pre) j (f j)) L (pre ++ r :: post) = Ok (pre ++ r' :: post) /\ length r' = length r /\
    forall j, j < length r -> nth j r' 0%R = if in_dec Nat.eq_dec j L then f j else nth j r 0%R.
Proof.
  induction L as [|j L IH]; intros r H; cbn [ofold].
  - exists r. split; [auto|split; [auto|]]. intros j _. destruct (in_dec _ _ _) as [[]|]; auto.
  - destruct (pset_mid pre r post j (f j)) as (r1 & -> & L1 & A & B); [apply H; now left|]. cbn [obind].
    destruct (IH r1) as (r2 & E & L2 & C); [intros i Hi; rewrite L1; apply H; now right|]. exists r2. split; [exact E|]. split; [congruence|].
    intros i Hi. rewrite C by lia. destruct (in_dec Nat.eq_dec i (j :: L)) as [I|I], (in_dec Nat.eq_dec i L) as [I'|I']; auto.
    + destruct I as [->|]; [auto|contradiction].
    + elim I. now right.
    + apply B. intro Q. subst. apply I. now left.
Qed.
Definition row_len (diagonal : bool) (n i : nat) := if diagonal then S i else n.
(** The row of point [i]: distances to the other points covered by the layout, 0 to itself. *)
Definition row_of (diagonal : bool) (n : nat) (f : nat -> nat -> R) (i : nat) : list R :=
  map (fun j => if Nat.eq_dec i j then 0%R else f i j) (seq 0 (row_len diagonal n i)).
Lemma nth_map_seq A (f : nat -> A) n i d : i < n -> nth i (map f (seq 0 n)) d = f i.
Proof. intro H. rewrite (nth_indep _ d (f 0)) by now rewrite map_length, seq_length. rewrite map_nth, seq_nth by auto. reflexivity. Qed.
Lemma ofold_ext' {S A} (f g : S -> A -> outcome S) l : (forall s a, In a l -> f s a = g s a) -> forall s, ofold f l s = ofold g l s.
Proof. intro H. induction l as [|a l IH]; intro s; cbn [ofold]; [auto|]. rewrite H by now left. destruct (g s a); cbn; auto. apply IH. intros; apply H; now right. Qed.
Lemma dm_row_ok dist diagonal d m idx : d_size d = length (d_points d) -> (forall i p, nth_error (d_points d) i = Some p -> p_id p = (Z.of_nat i + 1)%Z) ->
  idx < length (d_points d) -> length m = length (d_points d) ->
  exists pre r post, m = pre ++ r :: post /\ length pre = idx /\
    dm_row dist diagonal d m idx = Ok (pre ++ row_of diagonal (length (d_points d)) (fun i j => dist (point_at d i) (point_at d j)) idx :: post).
Proof.
  intros Sz Ids Hi Lm. destruct (split_at _ m idx) as (pre & r & post & -> & Lp); [lia|]. exists pre, r, post. split; [auto|split; [auto|]].
  unfold dm_row. rewrite Sz. unfold pat at 1. rewrite nth_error_app2 by lia. rewrite Lp, Nat.sub_diag. cbn [nth_error obind].
  rewrite <- Lp, vupd_mid. cbn [obind]. rewrite Lp. set (n := length (d_points d)) in *.
  destruct (nth_error (d_points d) idx) as [p|] eqn:Ep; [|apply nth_error_None in Ep; lia]. unfold vget at 1. rewrite Ep. cbn [obind].
  set (len := if diagonal then S idx else n).
  set (L := seq 0 idx ++ (if diagonal then [] else seq (S idx) (n - S idx))).
  assert (forall j, In j L <-> j < len /\ j <> idx) as InL.
  { intro j. unfold L, len. rewrite in_app_iff, in_seq. destruct diagonal; [cbn; lia|]. rewrite in_seq. lia. }
  assert (forall i q, nth_error (d_points d) i = Some q -> point_at d i = p_x q) as PA.
  { intros i q Q. unfold point_at. apply nth_error_nth. now apply map_nth_error. }
  rewrite (ofold_ext' _ (fun m j => pset m (length pre) j (dist (point_at d idx) (point_at d j)))).
  - destruct (row_fill (fun j => dist (point_at d idx) (point_at d j)) pre post L (repeat 0%R len)) as (r' & E & Lr & A).
    { intros j Hj. apply InL in Hj. rewrite repeat_length. lia. }
    rewrite E. do 3 f_equal. rewrite repeat_length in Lr, A.
    apply (nth_ext _ _ 0%R 0%R); [unfold row_of, row_len; rewrite map_length, seq_length; exact Lr|].
    intros j Hj. rewrite A by lia. unfold row_of. rewrite nth_map_seq by (unfold row_len; fold len; lia).
    destruct (in_dec Nat.eq_dec j L) as [I|I].
    + apply InL in I. destruct (Nat.eq_dec idx j); [lia|reflexivity].
    + rewrite nth_repeat. destruct (Nat.eq_dec idx j) as [|N]; [reflexivity|]. elim I. apply InL. split; [lia|auto].
  - intros s j Hj. apply InL in Hj. assert (j < n) as Hn by (unfold len in Hj; destruct diagonal; lia).
    destruct (nth_error (d_points d) j) as [q|] eqn:Eq; [|apply nth_error_None in Eq; unfold n in *; lia]. unfold vget. rewrite Eq. cbn [obind].
    unfold idx_of. rewrite (Ids _ _ Ep), (Ids _ _ Eq). destruct (Z.ltb_spec 0 (Z.of_nat idx + 1)); [|lia]. destruct (Z.ltb_spec 0 (Z.of_nat j + 1)); [|lia]. cbn [obind].
    rewrite (PA _ _ Ep), (PA _ _ Eq). f_equal; lia.
Qed.
Lemma dm_ok dist diagonal order d : d_size d = length (d_points d) -> (forall i p, nth_error (d_points d) i = Some p -> p_id p = (Z.of_nat i + 1)%Z) ->
  Permutation order (seq 0 (length (d_points d))) ->
  distance_matrix dist diagonal order d = Ok (map (row_of diagonal (length (d_points d)) (fun i j => dist (point_at d i) (point_at d j))) (seq 0 (length (d_points d)))).
Proof.
  intros Sz Ids P. set (n := length (d_points d)) in *. set (f := fun i j => dist (point_at d i) (point_at d j)).
  assert (forall L m, (forall i, In i L -> i < n) -> length m = n -> exists m', ofold (dm_row dist diagonal d) L m = Ok m' /\ length m' = n /\
    forall i, i < n -> nth i m' [] = if in_dec Nat.eq_dec i L then row_of diagonal n f i else nth i m []) as X.
  { induction L as [|idx L IH]; intros m Hl Lm; cbn [ofold].
    - exists m. split; [auto|split; [auto|]]. intros i _. destruct (in_dec _ _ _) as [[]|]; auto.
    - destruct (dm_row_ok dist diagonal d m idx Sz Ids) as (pre & r & post & -> & Lp & E); [apply Hl; now left|exact Lm|]. rewrite E. cbn [obind]. fold n f.
      destruct (IH (pre ++ row_of diagonal n f idx :: post)) as (m' & E' & L' & A); [intros; apply Hl; now right|rewrite app_length in *; cbn in *; lia|].
      exists m'. split; [exact E'|]. split; [exact L'|]. intros i Hi. rewrite A by auto.
      destruct (in_dec Nat.eq_dec i L) as [I|I], (in_dec Nat.eq_dec i (idx :: L)) as [I'|I']; auto.
      + elim I'. now right.
      + destruct I' as [->|]; [|contradiction]. rewrite app_nth2 by lia. now rewrite Lp, Nat.sub_diag.
      + assert (i <> idx) by (intro; subst; apply I'; now left). destruct (Nat.lt_ge_cases i (length pre)); [now rewrite !app_nth1 by auto|].
        rewrite !app_nth2 by auto. destruct (i - length pre) eqn:Q; [lia|reflexivity]. }
  unfold distance_matrix. rewrite Sz. fold n. destruct (X order (repeat [] n)) as (m' & E & L & A).
  { intros i Hi. apply (Permutation_in _ P), in_seq in Hi. lia. } { apply repeat_length. }
  rewrite E. f_equal. apply (nth_ext _ _ [] []); [now rewrite map_length, seq_length|]. intros i Hi. rewrite L in Hi. rewrite A by auto. rewrite nth_map_seq by auto.
  destruct (in_dec Nat.eq_dec i order) as [|N]; [reflexivity|]. elim N. apply (Permutation_in _ (Permutation_sym P)), in_seq. lia.
Qed.

(** *** evaluation with a precomputed matrix *)
Lemma nth_element_less nth_el less far k n : nth_ok nth_el -> (forall a b, a < n -> b < n -> (less a b = true <-> (far a < far b)%R)) -> k <= n ->
  exists idx, nth_element nth_el less k (seq 0 n) = Ok idx /\ k_nearest n k far (firstn k idx).
Proof.
  intros O Ls K. unfold nth_element. rewrite seq_length. destruct (Nat.ltb_spec n k); [lia|].
  assert (forall a b, a < n -> b < n -> less a b = false -> (far b <= far a)%R) as Lf.
  { intros a b Ha Hb Q. destruct (Rle_lt_dec (far b) (far a)) as [|Z]; [auto|]. apply Ls in Z; auto. congruence. }
  assert (forall a b, a < n -> b < n -> (far b <= far a)%R -> less a b = false) as Lt.
  { intros a b Ha Hb Q. destruct (less a b) eqn:E; [|auto]. apply Ls in E; auto. lra. }
  destruct (O less k (seq 0 n)) as [P S].
  { split; [|split].
    - intros a Ha. apply in_seq in Ha. apply Lt; lia || lra.
    - intros a b c Ha Hb Hc. apply in_seq in Ha. apply in_seq in Hb. apply in_seq in Hc. rewrite !Ls by lia. lra.
    - intros a b c Ha Hb Hc. apply in_seq in Ha. apply in_seq in Hb. apply in_seq in Hc. intros A B C D.
      apply Lf in A; [|lia|lia]. apply Lf in B; [|lia|lia]. apply Lf in C; [|lia|lia]. apply Lf in D; [|lia|lia]. split; apply Lt; lia || lra. }
  { now rewrite seq_length. }
  eexists. split; [reflexivity|]. set (idx := nth_el less k (seq 0 n)) in *.
  assert (NoDup idx) as ND by (eapply Permutation_NoDup; [exact P|apply seq_NoDup]).
  assert (length idx = n) as L by (apply Permutation_length in P; rewrite seq_length in P; lia).
  assert (forall a, In a idx -> a < n) as B. { intros a Ha. apply (Permutation_in _ (Permutation_sym P)), in_seq in Ha. lia. }
  assert (forall a, In a (firstn k idx) -> a < n) as B1. { intros a Ha. apply B. rewrite <- (firstn_skipn k idx). apply in_or_app. now left. }
  split; [|split; [|split]].
  - rewrite <- (firstn_skipn k idx) in ND. now apply NoDup_left in ND.
  - rewrite firstn_length. lia.
  - exact B1.
  - intros a b Ha Hb Nb. apply Lf; [auto|auto|]. apply S; [auto|].
    assert (In b idx) as X by (apply (Permutation_in _ P), in_seq; lia). rewrite <- (firstn_skipn k idx) in X. apply in_app_or in X as [X|X]; [contradiction|auto].
Qed.
Lemma pget_rows diagonal n f a b : a < n -> b < row_len diagonal n a -> pget (map (row_of diagonal n f) (seq 0 n)) a b = Ok (if Nat.eq_dec a b then 0%R else f a b).
Proof.
  intros Ha Hb. unfold pget, pat. rewrite (nth_error_nth' _ []) by now rewrite map_length, seq_length. cbn [obind]. rewrite nth_map_seq by auto.
  unfold row_of. rewrite (nth_error_nth' _ 0%R) by now rewrite map_length, seq_length. now rewrite nth_map_seq.
Qed.
Lemma ids_pos D p : ids_from_one D -> In p (d_points D) -> exists a, a < length (d_points D) /\ idx_of (p_id p) = Ok a /\ point_at D a = p_x p /\ nth_error (d_points D) a = Some p.
Proof.
  intros I H. apply In_nth_error in H as (a & E). exists a. assert (a < length (d_points D)) by (apply nth_error_Some; congruence). split; [auto|].
  split; [|split; [|exact E]].
  - unfold idx_of. rewrite (I _ _ E). destruct (Z.ltb_spec 0 (Z.of_nat a + 1)); [|lia]. f_equal. lia.
  - unfold point_at. apply nth_error_nth. now apply map_nth_error.
Qed.
Lemma point_at_of d i p : nth_error (d_points d) i = Some p -> point_at d i = p_x p.
Proof. intro E. unfold point_at. apply nth_error_nth. now apply map_nth_error. Qed.
Lemma knn_matrix dist order (D d : data R) m nth_el k qp : nth_ok nth_el -> (forall x, dist x x = 0%R) ->
  d_size D = length (d_points D) -> ids_from_one D -> Permutation order (seq 0 (length (d_points D))) -> distance_matrix dist false order D = Ok m ->
  d_size d = length (d_points d) -> incl (d_points d) (d_points D) -> In qp (d_points D) -> dim d = length (p_x qp) -> k <= length (d_points d) -> d_classes d <> [] ->
  exists N c, knn_evaluate_pre m nth_el d k (p_x qp) (p_id qp) = Ok (votes (label_at d) N c, c) /\
    k_nearest (length (d_points d)) k (fun i => dist (p_x qp) (point_at d i)) N /\ first_plurality (d_classes d) (votes (label_at d) N) c.
Proof.
  intros O Z SD ID P E Sd I Q Dm K C. rewrite (dm_ok dist false order D SD ID P) in E. injection E as <-.
  apply knn_pre_ok; auto. intros i Hi. unfold pre_dist. destruct (nth_error (d_points d) i) as [p|] eqn:Ep; [|apply nth_error_None in Ep; lia].
  unfold vget. rewrite Ep. cbn [obind]. destruct (ids_pos D qp ID Q) as (a & La & -> & Pa & Ea). cbn [obind].
  destruct (ids_pos D p ID) as (b & Lb & -> & Pb & Eb); [apply I; eapply nth_error_In; eauto|]. cbn [obind].
  rewrite pget_rows by (auto; exact Lb). f_equal. rewrite (point_at_of d i p Ep), Pa, Pb. destruct (Nat.eq_dec a b) as [<-|]; [|reflexivity].
  rewrite Pa in Pb. now rewrite <- Pb, Z.
Qed.
Lemma knn_diag dist order (D d : data R) m nth_el k qp : nth_ok nth_el -> (forall x y, dist x y = dist y x) ->
  d_size D = length (d_points D) -> ids_from_one D -> Permutation order (seq 0 (length (d_points D))) -> distance_matrix dist true order D = Ok m ->
  d_size d = length (d_points d) -> incl (d_points d) (d_points D) -> In qp (d_points D) -> ~ In (p_id qp) (map p_id (d_points d)) -> dim d = length (p_x qp) -> k <= length (d_points d) -> d_classes d <> [] ->
  exists N c, knn_evaluate_diag m nth_el d k (p_x qp) (p_id qp) = Ok (votes (label_at d) N c, c) /\
    k_nearest (length (d_points d)) k (fun i => dist (p_x qp) (point_at d i)) N /\ first_plurality (d_classes d) (votes (label_at d) N) c.
Proof.
  intros O Sy SD ID P E Sd I Q NQ Dm K C. rewrite (dm_ok dist true order D SD ID P) in E. injection E as <-.
  destruct (ids_pos D qp ID Q) as (idp & Lq & Eq & Pq & Nq). unfold knn_evaluate_diag. rewrite Dm, Nat.eqb_refl, Eq. cbn [obind]. rewrite Sd.
  set (n := length (d_points d)) in *. set (nD := length (d_points D)) in *.
  assert (forall i, i < n -> exists p b, nth_error (d_points d) i = Some p /\ b < nD /\ idx_of (p_id p) = Ok b /\ point_at D b = point_at d i /\ b <> idp) as G.
  { intros i Hi. destruct (nth_error (d_points d) i) as [p|] eqn:Ep; [|apply nth_error_None in Ep; unfold n in *; lia].
    destruct (ids_pos D p ID) as (b & Lb & Eb & Pb & Nb); [apply I; eapply nth_error_In; eauto|]. exists p, b. split; [auto|]. split; [auto|]. split; [auto|].
    split; [now rewrite (point_at_of d i p Ep)|]. intro X. subst b. rewrite Nb in Nq. injection Nq as ->. apply NQ. apply in_map. eapply nth_error_In; eauto. }
  set (ids := fun i => match nth_error (d_points d) i with Some p => match idx_of (p_id p) with Ok b => b | _ => 0 end | None => 0 end).
  rewrite (map_outcome_ok _ ids).
  2:{ intros i Hi. apply in_seq in Hi. destruct (G i) as (p & b & Ep & Lb & Eb & Pb & Nb); [lia|]. unfold vget, ids. now rewrite Ep, Eb. }
  cbn [obind].
  assert (forall a b, a < nD -> b < nD -> a <> b -> pget (map (row_of true nD (fun i j => dist (point_at D i) (point_at D j))) (seq 0 nD)) (Nat.max a b) (Nat.min a b) = Ok (dist (point_at D a) (point_at D b))) as Pg.
  { intros a b Ha Hb N. rewrite pget_rows; [|lia|unfold row_len; lia]. f_equal. destruct (Nat.eq_dec _ _); [lia|]. destruct (Nat.max_spec a b) as [[? ->]|[? ->]], (Nat.min_spec a b) as [[? ->]|[? ->]]; try lia; auto. }
  set (m := map (row_of true nD _) (seq 0 nD)) in *.
  rewrite (map_outcome_ok _ (fun id => if Nat.eqb idp id then 0%R else dist (point_at D idp) (point_at D id))).
  2:{ intros id Hid. apply in_map_iff in Hid as (i & <- & Hi). apply in_seq in Hi. destruct (G i) as (p & b & Ep & Lb & Eb & Pb & Nb); [lia|]. unfold ids. rewrite Ep, Eb.
      destruct (Nat.eqb_spec idp b); [congruence|]. apply Pg; auto. }
  cbn [obind].
  destruct (nth_element_less nth_el (diag_less (fun a b => nth b (nth a m []) 0%R) (fun i => nth i (map ids (seq 0 n)) 0) idp) (fun i => dist (p_x qp) (point_at d i)) k n O) as (idx & E & KN).
  - intros i j Hi Hj. unfold diag_less. rewrite !nth_map_seq by auto.
    destruct (G i Hi) as (p & b & Ep & Lb & Eb & Pb & Nb). destruct (G j Hj) as (p' & b' & Ep' & Lb' & Eb' & Pb' & Nb').
    assert (ids i = b) as -> by (unfold ids; now rewrite Ep, Eb). assert (ids j = b') as -> by (unfold ids; now rewrite Ep', Eb').
    destruct (Nat.eqb_spec idp b); [congruence|]. destruct (Nat.eqb_spec idp b'); [congruence|]. cbn [orb].
    assert (forall a b v, pget m a b = Ok v -> nth b (nth a m []) 0%R = v) as Rd.
    { clear. intros a b v H. unfold pget, pat in H. destruct (nth_error m a) as [r|] eqn:E; [|discriminate]. cbn [obind] in H. rewrite (nth_error_nth _ _ _ E).
      destruct (nth_error r b) eqn:E'; [|discriminate]. injection H as <-. now apply nth_error_nth. }
    rewrite (Rd _ _ _ (Pg idp b Lq Lb ltac:(congruence))), (Rd _ _ _ (Pg idp b' Lq Lb' ltac:(congruence))).
    rewrite Pq, Pb, Pb'. destruct (Rlt_dec _ _); split; auto; discriminate || contradiction.
  - exact K.
  - rewrite E. cbn [obind]. destruct (vote_ok d k idx C) as (c & V & F); [apply KN|]. exists (firstn k idx), c. auto.
Qed.
