(** Property lemmas for nearest neighbours and the distance matrix: C32, C37, C79, C80. *)
From Coq Require Import ZArith Bool List Reals Lra Lia Permutation Sorted.
From Verif Require Import Base ListLib M_Data Loop L_Vec L_Valid M_Knn S_Knn L_Knn.
Import ListNotations.
Local Open Scope nat_scope.

(** A partial sort that meets the standard's guarantee: sorting everything. *)
Definition nth_sort : nth_oracle := fun less _ l => isort (fun a b => negb (less b a)) l.
Lemma insert_sorted_in leb (l0 : list nat) x l : (forall a b, In a l0 -> In b l0 -> leb a b = false -> leb b a = true) ->
  (forall a b c, In a l0 -> In b l0 -> In c l0 -> leb a b = true -> leb b c = true -> leb a c = true) ->
  In x l0 -> incl l l0 -> StronglySorted (fun a b => leb a b = true) l -> StronglySorted (fun a b => leb a b = true) (insert_sorted leb x l).
Proof.
  intros Tt Tr Hx. induction l as [|y l IH]; intros I S; cbn [insert_sorted]; [constructor; constructor|].
  inversion S; subst. assert (In y l0) by (apply I; now left). assert (incl l l0) by (intros z Hz; apply I; now right). destruct (leb x y) eqn:E.
  - constructor; [auto|]. constructor; [auto|]. apply Forall_forall. intros z Hz. rewrite Forall_forall in H2. eapply Tr; [| | |exact E|]; auto.
  - constructor; [auto|]. apply Forall_forall. intros z Hz. apply (Permutation_in _ (insert_sorted_perm leb x l)) in Hz as [<-|Hz]; [auto|]. rewrite Forall_forall in H2. auto.
Qed.
Lemma nth_sort_ok : nth_ok nth_sort.
Proof.
  intros less k l (Irr & Tr & Eq) _. unfold nth_sort. set (leb := fun a b => negb (less b a)). split; [symmetry; apply isort_perm|].
  assert (StronglySorted (fun a b => leb a b = true) (isort leb l)) as S.
  { assert (forall l', incl l' l -> StronglySorted (fun a b => leb a b = true) (isort leb l')) as G; [|apply G, incl_refl].
    induction l' as [|x l' IH]; intro I; cbn [isort]; [constructor|]. apply (insert_sorted_in leb l).
    - unfold leb. intros a b Ha Hb Q. destruct (less a b) eqn:E; [|auto]. destruct (less b a) eqn:E'; [|discriminate]. specialize (Irr a Ha). rewrite (Tr a b a) in Irr by auto. discriminate.
    - unfold leb. intros a b c Ha Hb Hc Q1 Q2. apply negb_true_iff in Q1. apply negb_true_iff in Q2. apply negb_true_iff. destruct (less c a) eqn:E; [|auto].
      destruct (less a b) eqn:E1; [rewrite (Tr c a b) in Q2 by auto; discriminate|]. destruct (less b c) eqn:E2; [rewrite (Tr b c a) in Q1 by auto; discriminate|].
      destruct (Eq a b c) as [_ Q]; auto; congruence.
    - apply I. now left.
    - intros z Hz. apply isort_In in Hz. apply I. now right.
    - apply IH. intros z Hz. apply I. now right. }
  intros a b Ha Hb. rewrite <- (firstn_skipn k (isort leb l)) in S. revert S Ha Hb. generalize (firstn k (isort leb l)) (skipn k (isort leb l)). intros u v.
  induction u as [|x u IH]; intros S Ha Hb; [destruct Ha|]. cbn in S. inversion S; subst. destruct Ha as [->|Ha]; [|auto].
  rewrite Forall_forall in H2. specialize (H2 b (in_or_app u v b (or_intror Hb))). unfold leb in H2. now apply negb_true_iff in H2.
Qed.

(** Three points on a line. *)
Definition line_dist (x y : list R) : R := Rabs (nth 0 x 0%R - nth 0 y 0%R).
Definition knn3 : data R := mkData [mkPoint [0%R] 1%Z 1%Z 0%R; mkPoint [1%R] (-1)%Z 2%Z 0%R; mkPoint [5%R] 1%Z 3%Z 0%R] [1]%Z [0; 1; 2]%Z [] [1; -1]%Z [2; 1]%Z 3 1 false false false true.
(** The first two of them. *)
Definition knn2 : data R := mkData [mkPoint [0%R] 1%Z 1%Z 0%R; mkPoint [1%R] (-1)%Z 2%Z 0%R] [1]%Z [0; 1]%Z [] [1; -1]%Z [1; 1]%Z 2 1 false false false true.
Lemma ids3 : ids_from_one knn3.
Proof. intros [|[|[|i]]] p E; cbn in E; try (injection E as <-; reflexivity). destruct i; discriminate. Qed.
Lemma ids2 : ids_from_one knn2.
Proof. intros [|[|i]] p E; cbn in E; try (injection E as <-; reflexivity). destruct i; discriminate. Qed.
Lemma line_zero x : line_dist x x = 0%R.
Proof. unfold line_dist. rewrite Rminus_diag_eq by reflexivity. apply Rabs_R0. Qed.
Lemma line_sym x y : line_dist x y = line_dist y x.
Proof. apply Rabs_minus_sym. Qed.

(** C32: with identifiers 1..n, whatever the order in which the workers handle the rows, the full matrix has n rows of n entries and at the position of two
    identifiers holds the distance of the points (0 for a point and itself). *)
Lemma c32_full : forall dist order d, d_size d = length (d_points d) -> ids_from_one d -> Permutation order (seq 0 (length (d_points d))) ->
  exists m, distance_matrix dist false order d = Ok m /\ length m = length (d_points d) /\ (forall r, In r m -> length r = length (d_points d)) /\
    forall p q, In p (d_points d) -> In q (d_points d) -> entry m (p_id p) (p_id q) = Some (if Z.eqb (p_id p) (p_id q) then 0%R else dist (p_x p) (p_x q)).
Proof.
  intros dist order d Sz I P. rewrite (dm_ok dist false order d Sz I P). eexists. split; [reflexivity|]. rewrite map_length, seq_length. split; [auto|]. split.
  - intros r Hr. apply in_map_iff in Hr as (i & <- & _). unfold row_of. now rewrite map_length, seq_length.
  - intros p q Hp Hq. apply In_nth_error in Hp as (a & Ea). apply In_nth_error in Hq as (b & Eb).
    assert (a < length (d_points d)) as La by (apply nth_error_Some; congruence). assert (b < length (d_points d)) as Lb by (apply nth_error_Some; congruence).
    rewrite (I _ _ Ea), (I _ _ Eb). unfold entry. replace (Z.to_nat (Z.of_nat a + 1 - 1)) with a by lia. replace (Z.to_nat (Z.of_nat b + 1 - 1)) with b by lia.
    pose proof (pget_rows false (length (d_points d)) (fun i j => dist (point_at d i) (point_at d j)) a b La Lb) as G. unfold pget, pat in G.
    destruct (nth_error (map _ _) a) as [r|]; [|discriminate]. cbn [obind] in G. destruct (nth_error r b); [|discriminate]. injection G as ->.
    rewrite (point_at_of d a p Ea), (point_at_of d b q Eb). destruct (Nat.eq_dec a b), (Z.eqb_spec (Z.of_nat a + 1) (Z.of_nat b + 1)); (reflexivity || lia).
Qed.
Lemma c32_full_ex : d_size knn3 = length (d_points knn3) /\ ids_from_one knn3 /\ Permutation [2; 0; 1] (seq 0 (length (d_points knn3))).
Proof. split; [reflexivity|]. split; [apply ids3|]. exact (Permutation_middle [0; 1] [] 2). Qed.
(** C32: the triangular layout: row i (from 1) has i entries, so that each pair of points is stored once, at (larger id, smaller id), with the distance. *)
Lemma c32_triangular : forall dist order d, d_size d = length (d_points d) -> ids_from_one d -> Permutation order (seq 0 (length (d_points d))) ->
  exists m, distance_matrix dist true order d = Ok m /\ length m = length (d_points d) /\
    forall p q, In p (d_points d) -> In q (d_points d) ->
      entry m (p_id p) (p_id q) = if Z.ltb (p_id q) (p_id p) then Some (dist (p_x p) (p_x q)) else if Z.eqb (p_id p) (p_id q) then Some 0%R else None.
Proof.
  intros dist order d Sz I P. rewrite (dm_ok dist true order d Sz I P). eexists. split; [reflexivity|]. rewrite map_length, seq_length. split; [auto|].
  intros p q Hp Hq. apply In_nth_error in Hp as (a & Ea). apply In_nth_error in Hq as (b & Eb).
  assert (a < length (d_points d)) as La by (apply nth_error_Some; congruence). assert (b < length (d_points d)) as Lb by (apply nth_error_Some; congruence).
  rewrite (I _ _ Ea), (I _ _ Eb). unfold entry. replace (Z.to_nat (Z.of_nat a + 1 - 1)) with a by lia. replace (Z.to_nat (Z.of_nat b + 1 - 1)) with b by lia.
  destruct (Nat.le_gt_cases b a) as [L|L].
  - pose proof (pget_rows true (length (d_points d)) (fun i j => dist (point_at d i) (point_at d j)) a b La ltac:(cbn [row_len]; lia)) as G. unfold pget, pat in G.
    destruct (nth_error (map _ _) a) as [r|]; [|discriminate]. cbn [obind] in G. destruct (nth_error r b); [|discriminate]. injection G as ->.
    rewrite (point_at_of d a p Ea), (point_at_of d b q Eb). destruct (Nat.eq_dec a b), (Z.ltb_spec (Z.of_nat b + 1) (Z.of_nat a + 1)), (Z.eqb_spec (Z.of_nat a + 1) (Z.of_nat b + 1)); (reflexivity || lia).
  - rewrite (nth_error_nth' _ []) by now rewrite map_length, seq_length. rewrite nth_map_seq by auto.
    destruct (Z.ltb_spec (Z.of_nat b + 1) (Z.of_nat a + 1)), (Z.eqb_spec (Z.of_nat a + 1) (Z.of_nat b + 1)); try lia. apply nth_error_None. unfold row_of. rewrite map_length, seq_length. cbn [row_len]. lia.
Qed.
Lemma c32_triangular_ex : d_size knn3 = length (d_points knn3) /\ ids_from_one knn3 /\ Permutation [2; 0; 1] (seq 0 (length (d_points knn3))) /\
  map p_id (d_points knn3) = [1; 2; 3]%Z.
Proof. destruct c32_full_ex as (A & B & C). auto. Qed.
(** The identifiers must be in order: with the identifiers 2, 1 the construction fails an assertion whatever the order of the rows. *)
Definition knn_swapped : data R := mkData [mkPoint [1%R] (-1)%Z 2%Z 0%R; mkPoint [0%R] 1%Z 1%Z 0%R] [1]%Z [0; 1]%Z [] [-1; 1]%Z [1; 1]%Z 2 1 false false false true.
Lemma c32_ids_refuted : Permutation (map p_id (d_points knn_swapped)) [1; 2]%Z /\ d_size knn_swapped = length (d_points knn_swapped) /\
  forall dist order, Permutation order [0; 1] -> distance_matrix dist false order knn_swapped = Abort.
Proof.
  split; [apply perm_swap|]. split; [reflexivity|]. intros dist order P. apply Permutation_sym, Permutation_length_2_inv in P as [->| ->]; reflexivity.
Qed.

(** C37: for every admissible outcome of the partial sort, the answer is the first class of largest count among some k nearest training points. *)
Lemma c37_plurality : forall dist nth_el d k q qid, nth_ok nth_el -> d_size d = length (d_points d) -> dim d = length q -> k <= length (d_points d) -> d_classes d <> [] ->
  exists N c, knn_eval dist nth_el (knn_make d k) q qid = Ok (votes (label_at d) N c, c) /\ k_nearest (length (d_points d)) k (fun i => dist q (point_at d i)) N /\
    first_plurality (d_classes d) (votes (label_at d) N) c.
Proof. intros. now apply knn_ok. Qed.
Lemma c37_plurality_ex : nth_ok nth_sort /\ d_size knn3 = length (d_points knn3) /\ dim knn3 = length [2%R] /\ 2 <= length (d_points knn3) /\ d_classes knn3 <> [].
Proof. split; [apply nth_sort_ok|]. repeat (split; [reflexivity || (cbn; lia)|]). discriminate. Qed.
(** C37: the guard on k: with fewer than k training points the evaluation is undefined. *)
Lemma c37_few_points_refuted : forall dist nth_el d k q qid, d_size d = length (d_points d) -> dim d = length q -> length (d_points d) < k ->
  knn_eval dist nth_el (knn_make d k) q qid = UB.
Proof.
  intros dist nth_el d k q qid Sz Dm K. unfold knn_eval, knn_make. cbn [kn_pre kn_data kn_k]. unfold knn_evaluate. rewrite Dm, Nat.eqb_refl, Sz, Nat.eqb_refl.
  cbv zeta. unfold nth_element. rewrite seq_length. apply Nat.ltb_lt in K. now rewrite K.
Qed.
Lemma c37_few_points_refuted_ex : d_size knn2 = length (d_points knn2) /\ dim knn2 = length [2%R] /\ length (d_points knn2) < 3.
Proof. repeat split. cbn. lia. Qed.

(** C80: with the full distance matrix of a dataset [D] handed over, training points and query among the points of [D], the answer is again the first class of
    largest count among some k nearest training points. *)
Lemma c80_matrix : forall dist order (D d : data R) m nth_el k qp, nth_ok nth_el -> (forall x, dist x x = 0%R) ->
  d_size D = length (d_points D) -> ids_from_one D -> Permutation order (seq 0 (length (d_points D))) -> distance_matrix dist false order D = Ok m ->
  d_size d = length (d_points d) -> incl (d_points d) (d_points D) -> In qp (d_points D) -> dim d = length (p_x qp) -> k <= length (d_points d) -> d_classes d <> [] ->
  exists N c, knn_eval dist nth_el (set_precomputed (knn_make d k) false m) (p_x qp) (p_id qp) = Ok (votes (label_at d) N c, c) /\
    k_nearest (length (d_points d)) k (fun i => dist (p_x qp) (point_at d i)) N /\ first_plurality (d_classes d) (votes (label_at d) N) c.
Proof. intros. unfold knn_eval, set_precomputed, knn_make. cbn [kn_pre kn_diag kn_m kn_data kn_k]. apply (knn_matrix dist order D d m nth_el k qp); auto. Qed.
Lemma c80_matrix_ex : exists m, distance_matrix line_dist false [2; 0; 1] knn3 = Ok m /\ nth_ok nth_sort /\ (forall x, line_dist x x = 0%R) /\ ids_from_one knn3 /\ incl (d_points knn2) (d_points knn3) /\
  In (mkPoint [1%R] (-1)%Z 2%Z 0%R) (d_points knn3) /\ dim knn2 = 1 /\ 2 <= length (d_points knn2) /\ d_classes knn2 <> [].
Proof.
  destruct c32_full_ex as (A & B & C). destruct (c32_full line_dist _ _ A B C) as (m & E & _). exists m. split; [exact E|]. split; [apply nth_sort_ok|]. split; [apply line_zero|]. split; [exact B|].
  split; [intros x [<-|[<-|[]]]; [left|right; left]; reflexivity|]. split; [right; left; reflexivity|]. split; [reflexivity|]. split; [cbn; lia|discriminate].
Qed.
(** C80: the triangular matrix, for a query that is not a training point and a symmetric distance. For queries that are training points see c80_triangular_refuted. *)
Lemma c80_triangular : forall dist order (D d : data R) m nth_el k qp, nth_ok nth_el -> (forall x y, dist x y = dist y x) ->
  d_size D = length (d_points D) -> ids_from_one D -> Permutation order (seq 0 (length (d_points D))) -> distance_matrix dist true order D = Ok m ->
  d_size d = length (d_points d) -> incl (d_points d) (d_points D) -> In qp (d_points D) -> ~ In (p_id qp) (map p_id (d_points d)) -> dim d = length (p_x qp) -> k <= length (d_points d) -> d_classes d <> [] ->
  exists N c, knn_eval dist nth_el (set_precomputed (knn_make d k) true m) (p_x qp) (p_id qp) = Ok (votes (label_at d) N c, c) /\
    k_nearest (length (d_points d)) k (fun i => dist (p_x qp) (point_at d i)) N /\ first_plurality (d_classes d) (votes (label_at d) N) c.
Proof. intros. unfold knn_eval, set_precomputed, knn_make. cbn [kn_pre kn_diag kn_m kn_data kn_k]. apply (knn_diag dist order D d m nth_el k qp); auto. Qed.
Lemma c80_triangular_ex : exists m, distance_matrix line_dist true [2; 0; 1] knn3 = Ok m /\ nth_ok nth_sort /\ (forall x y, line_dist x y = line_dist y x) /\ ids_from_one knn3 /\ incl (d_points knn2) (d_points knn3) /\
  In (mkPoint [5%R] 1%Z 3%Z 0%R) (d_points knn3) /\ ~ In 3%Z (map p_id (d_points knn2)) /\ dim knn2 = 1 /\ 2 <= length (d_points knn2) /\ d_classes knn2 <> [].
Proof.
  destruct c32_full_ex as (A & B & C). destruct (c32_triangular line_dist _ _ A B C) as (m & E & _). exists m. split; [exact E|]. split; [apply nth_sort_ok|]. split; [apply line_sym|]. split; [exact B|].
  split; [intros x [<-|[<-|[]]]; [left|right; left]; reflexivity|]. split; [right; right; left; reflexivity|]. split; [intros [Q|[Q|[]]]; discriminate|]. split; [reflexivity|]. split; [cbn; lia|discriminate].
Qed.
(** C80: a query that is a training point: with the triangular matrix the point itself, at distance 0, loses against a point at distance 1. *)
Lemma c80_triangular_refuted : exists m, distance_matrix line_dist true [0; 1] knn2 = Ok m /\ nth_ok nth_sort /\
  knn_eval line_dist nth_sort (set_precomputed (knn_make knn2 1) true m) [1%R] 2%Z = Ok (1, 1%Z) /\
  (forall N, k_nearest 2 1 (fun i => line_dist [1%R] (point_at knn2 i)) N -> N = [1]) /\ label_at knn2 1 = (-1)%Z.
Proof.
  eexists. split; [reflexivity|]. split; [apply nth_sort_ok|]. split; [reflexivity|]. split; [|reflexivity].
  intros N (ND & L & B & C). destruct N as [|a [|b N]]; try discriminate. specialize (B a (or_introl eq_refl)). destruct a as [|[|a]]; [|reflexivity|lia].
  specialize (C 0 1 (or_introl eq_refl) ltac:(lia)). exfalso. cbn [point_at knn2 d_points map p_x nth line_dist] in C. unfold point_at, line_dist in C. cbn [knn2 d_points map p_x nth] in C.
  rewrite Rminus_0_r, Rabs_R1, Rminus_diag_eq, Rabs_R0 in C by reflexivity. assert (1 <= 0)%R; [|lra]. apply C. intros [Q|[]]. discriminate.
Qed.
(** C80: precomputeDistances raises the flag without storing the matrix: every later evaluation reads the empty matrix, whose access is an assertion failure. *)
Lemma c80_precompute_refuted : forall dist diagonal order (D d : data R) k nth_el q qid o m, precompute_distances dist diagonal order (knn_make d k) D = Ok (o, m) ->
  d_size d = length (d_points d) -> 0 < length (d_points d) -> dim d = length q ->
  knn_eval dist nth_el o q qid = Abort.
Proof.
  intros dist diagonal order D d k nth_el q qid o m E Sz Ne Dm. unfold precompute_distances in E. destruct (distance_matrix _ _ _ _); try discriminate. cbn [obind] in E. injection E as <- _.
  unfold knn_eval, knn_make. cbn [kn_pre kn_diag kn_m kn_data kn_k]. unfold knn_evaluate_pre. rewrite Dm, Nat.eqb_refl, Sz. destruct (d_points d) as [|p ps] eqn:EP; [cbn in Ne; lia|].
  cbn [length seq map_outcome]. unfold pre_dist at 1. unfold vget. rewrite EP. cbn [nth_error obind]. unfold idx_of, pget, pat. destruct (Z.ltb 0 qid); cbn [obind]; [|reflexivity]. destruct (Z.ltb 0 (p_id p)); cbn [obind]; [|reflexivity]. destruct (Z.to_nat (qid - 1)); reflexivity.
Qed.
Lemma c80_precompute_refuted_ex : exists o m, precompute_distances line_dist false [2; 0; 1] (knn_make knn2 2) knn3 = Ok (o, m) /\ d_size knn2 = length (d_points knn2) /\ dim knn2 = length [1%R].
Proof.
  destruct c32_full_ex as (A & B & C). destruct (c32_full line_dist _ _ A B C) as (m & E & _). exists (mkKnn 2 knn2 true false []), m. unfold precompute_distances. rewrite E. auto.
Qed.

(** C79: the probability reported after an evaluation. With two or more classes and at most 999 neighbours per further class it is 1 whatever the vote was. *)
Lemma c79_always_one : forall k nclasses freq, 1 < nclasses -> k <= 999 * (nclasses - 1) -> freq <= k -> pred_prob (1 / 10000) (1 / 10000000) k nclasses freq = 1%R.
Proof.
  intros k n f N K F. unfold pred_prob. cbv zeta. destruct (Nat.eqb f 0) eqn:E0.
  - destruct (Rlt_dec _ _); [reflexivity|lra].
  - apply Nat.eqb_neq in E0. destruct (Rlt_dec _ _) as [|Q]; [reflexivity|]. exfalso. apply Q. clear Q.
    assert (INR f <= INR k)%R as Hf by now apply le_INR. assert (1 <= INR f)%R as H1 by (change 1%R with (INR 1); apply le_INR; lia).
    assert (INR n = 1 + INR (n - 1))%R as Hn by (rewrite minus_INR by lia; cbn; lra). assert (1 <= INR (n - 1))%R as Hn1 by (change 1%R with (INR 1); apply le_INR; lia).
    assert (INR k <= 999 * INR (n - 1))%R as Hk by (replace 999%R with (INR 999) by (cbn; lra); rewrite <- mult_INR; now apply le_INR).
    set (D := (INR k + INR n * (1 / 10000))%R). assert (0 < D)%R by (unfold D; lra).
    assert ((INR f + 1 / 10000) / D < 1 - 1 / 10000000)%R; [|lra]. apply (Rmult_lt_reg_r D); [auto|]. unfold Rdiv at 1. rewrite Rmult_assoc, Rinv_l by lra. unfold D. rewrite Hn. lra.
Qed.
Lemma c79_always_one_ex : 1 < 2 /\ 3 <= 999 * (2 - 1) /\ 2 <= 3.
Proof. lia. Qed.
(** C79: in particular with two of three votes of two classes it is not the smoothed share of the winning class. *)
Lemma c79_probability_refuted : (pred_prob (1 / 10000) (1 / 10000000) 3 2 2 <> (2 + 1 / 10000) / (3 + 2 * (1 / 10000)))%R.
Proof. rewrite c79_always_one by lia. intro Q. assert (3 + 2 * (1 / 10000) = 2 + 1 / 10000)%R; [|lra]. apply (Rmult_eq_reg_r (/ (3 + 2 * (1 / 10000)))); [|apply Rinv_neq_0_compat; lra]. rewrite Rinv_r by lra. exact Q. Qed.
