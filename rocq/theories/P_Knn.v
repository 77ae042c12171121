(** Property theorems: Property lemmas for nearest neighbours and the distance matrix: C32, C37, C79, C80.
    Each is closed by the lemma of the same (lower-case) name in T_Knn.v. *)
From Coq Require Import ZArith Bool List Reals Lra Lia Permutation Sorted.
From Verif Require Import Base ListLib M_Data Loop L_Vec L_Valid M_Knn S_Knn L_Knn.
From Verif Require Import T_Knn.
Import ListNotations.
Local Open Scope nat_scope.

(** C32: with identifiers 1..n, whatever the order in which the workers handle the rows, the full matrix has n rows of n entries and at the position of two
    identifiers holds the distance of the points (0 for a point and itself). *)
Theorem C32_full : forall dist order d, d_size d = length (d_points d) -> ids_from_one d -> Permutation order (seq 0 (length (d_points d))) ->
  exists m, distance_matrix dist false order d = Ok m /\ length m = length (d_points d) /\ (forall r, In r m -> length r = length (d_points d)) /\
    forall p q, In p (d_points d) -> In q (d_points d) -> entry m (p_id p) (p_id q) = Some (if Z.eqb (p_id p) (p_id q) then 0%R else dist (p_x p) (p_x q)).
Proof. exact c32_full. Qed.
Print Assumptions C32_full.

Example C32_full_ex : d_size knn3 = length (d_points knn3) /\ ids_from_one knn3 /\ Permutation [2; 0; 1] (seq 0 (length (d_points knn3))).
Proof. exact c32_full_ex. Qed.

(** C32: the triangular layout: row i (from 1) has i entries, so that each pair of points is stored once, at (larger id, smaller id), with the distance. *)
Theorem C32_triangular : forall dist order d, d_size d = length (d_points d) -> ids_from_one d -> Permutation order (seq 0 (length (d_points d))) ->
  exists m, distance_matrix dist true order d = Ok m /\ length m = length (d_points d) /\
    forall p q, In p (d_points d) -> In q (d_points d) ->
      entry m (p_id p) (p_id q) = if Z.ltb (p_id q) (p_id p) then Some (dist (p_x p) (p_x q)) else if Z.eqb (p_id p) (p_id q) then Some 0%R else None.
Proof. exact c32_triangular. Qed.
Print Assumptions C32_triangular.

Example C32_triangular_ex : d_size knn3 = length (d_points knn3) /\ ids_from_one knn3 /\ Permutation [2; 0; 1] (seq 0 (length (d_points knn3))) /\
  map p_id (d_points knn3) = [1; 2; 3]%Z.
Proof. exact c32_triangular_ex. Qed.

Theorem C32_ids_refuted : Permutation (map p_id (d_points knn_swapped)) [1; 2]%Z /\ d_size knn_swapped = length (d_points knn_swapped) /\
  forall dist order, Permutation order [0; 1] -> distance_matrix dist false order knn_swapped = Abort.
Proof. exact c32_ids_refuted. Qed.
Print Assumptions C32_ids_refuted.

(** C37: for every admissible outcome of the partial sort, the answer is the first class of largest count among some k nearest training points. *)
Theorem C37_plurality : forall dist nth_el d k q qid, nth_ok nth_el -> d_size d = length (d_points d) -> dim d = length q -> k <= length (d_points d) -> d_classes d <> [] ->
  exists N c, knn_eval dist nth_el (knn_make d k) q qid = Ok (votes (label_at d) N c, c) /\ k_nearest (length (d_points d)) k (fun i => dist q (point_at d i)) N /\
    first_plurality (d_classes d) (votes (label_at d) N) c.
Proof. exact c37_plurality. Qed.
Print Assumptions C37_plurality.

Example C37_plurality_ex : nth_ok nth_sort /\ d_size knn3 = length (d_points knn3) /\ dim knn3 = length [2%R] /\ 2 <= length (d_points knn3) /\ d_classes knn3 <> [].
Proof. exact c37_plurality_ex. Qed.

(** C37: the guard on k: with fewer than k training points the evaluation is undefined. *)
Theorem C37_few_points_refuted : forall dist nth_el d k q qid, d_size d = length (d_points d) -> dim d = length q -> length (d_points d) < k ->
  knn_eval dist nth_el (knn_make d k) q qid = UB.
Proof. exact c37_few_points_refuted. Qed.
Print Assumptions C37_few_points_refuted.

Example C37_few_points_refuted_ex : d_size knn2 = length (d_points knn2) /\ dim knn2 = length [2%R] /\ length (d_points knn2) < 3.
Proof. exact c37_few_points_refuted_ex. Qed.

(** C80: with the full distance matrix of a dataset [D] handed over, training points and query among the points of [D], the answer is again the first class of
    largest count among some k nearest training points. *)
Theorem C80_matrix : forall dist order (D d : data R) m nth_el k qp, nth_ok nth_el -> (forall x, dist x x = 0%R) ->
  d_size D = length (d_points D) -> ids_from_one D -> Permutation order (seq 0 (length (d_points D))) -> distance_matrix dist false order D = Ok m ->
  d_size d = length (d_points d) -> incl (d_points d) (d_points D) -> In qp (d_points D) -> dim d = length (p_x qp) -> k <= length (d_points d) -> d_classes d <> [] ->
  exists N c, knn_eval dist nth_el (set_precomputed (knn_make d k) false m) (p_x qp) (p_id qp) = Ok (votes (label_at d) N c, c) /\
    k_nearest (length (d_points d)) k (fun i => dist (p_x qp) (point_at d i)) N /\ first_plurality (d_classes d) (votes (label_at d) N) c.
Proof. exact c80_matrix. Qed.
Print Assumptions C80_matrix.

Example C80_matrix_ex : exists m, distance_matrix line_dist false [2; 0; 1] knn3 = Ok m /\ nth_ok nth_sort /\ (forall x, line_dist x x = 0%R) /\ ids_from_one knn3 /\ incl (d_points knn2) (d_points knn3) /\
  In (mkPoint [1%R] (-1)%Z 2%Z 0%R) (d_points knn3) /\ dim knn2 = 1 /\ 2 <= length (d_points knn2) /\ d_classes knn2 <> [].
Proof. exact c80_matrix_ex. Qed.

(** C80: the triangular matrix, for a query that is not a training point and a symmetric distance. For queries that are training points see c80_triangular_refuted. *)
Theorem C80_triangular : forall dist order (D d : data R) m nth_el k qp, nth_ok nth_el -> (forall x y, dist x y = dist y x) ->
  d_size D = length (d_points D) -> ids_from_one D -> Permutation order (seq 0 (length (d_points D))) -> distance_matrix dist true order D = Ok m ->
  d_size d = length (d_points d) -> incl (d_points d) (d_points D) -> In qp (d_points D) -> ~ In (p_id qp) (map p_id (d_points d)) -> dim d = length (p_x qp) -> k <= length (d_points d) -> d_classes d <> [] ->
  exists N c, knn_eval dist nth_el (set_precomputed (knn_make d k) true m) (p_x qp) (p_id qp) = Ok (votes (label_at d) N c, c) /\
    k_nearest (length (d_points d)) k (fun i => dist (p_x qp) (point_at d i)) N /\ first_plurality (d_classes d) (votes (label_at d) N) c.
Proof. exact c80_triangular. Qed.
Print Assumptions C80_triangular.

Example C80_triangular_ex : exists m, distance_matrix line_dist true [2; 0; 1] knn3 = Ok m /\ nth_ok nth_sort /\ (forall x y, line_dist x y = line_dist y x) /\ ids_from_one knn3 /\ incl (d_points knn2) (d_points knn3) /\
  In (mkPoint [5%R] 1%Z 3%Z 0%R) (d_points knn3) /\ ~ In 3%Z (map p_id (d_points knn2)) /\ dim knn2 = 1 /\ 2 <= length (d_points knn2) /\ d_classes knn2 <> [].
Proof. exact c80_triangular_ex. Qed.

(** C80: a query that is a training point: with the triangular matrix the point itself, at distance 0, loses against a point at distance 1. *)
Theorem C80_triangular_refuted : exists m, distance_matrix line_dist true [0; 1] knn2 = Ok m /\ nth_ok nth_sort /\
  knn_eval line_dist nth_sort (set_precomputed (knn_make knn2 1) true m) [1%R] 2%Z = Ok (1, 1%Z) /\
  (forall N, k_nearest 2 1 (fun i => line_dist [1%R] (point_at knn2 i)) N -> N = [1]) /\ label_at knn2 1 = (-1)%Z.
Proof. exact c80_triangular_refuted. Qed.
Print Assumptions C80_triangular_refuted.

(** C80: precomputeDistances raises the flag without storing the matrix: every later evaluation reads the empty matrix, whose access is an assertion failure. *)
Theorem C80_precompute_refuted : forall dist diagonal order (D d : data R) k nth_el q qid o m, precompute_distances dist diagonal order (knn_make d k) D = Ok (o, m) ->
  d_size d = length (d_points d) -> 0 < length (d_points d) -> dim d = length q ->
  knn_eval dist nth_el o q qid = Abort.
Proof. exact c80_precompute_refuted. Qed.
Print Assumptions C80_precompute_refuted.

Example C80_precompute_refuted_ex : exists o m, precompute_distances line_dist false [2; 0; 1] (knn_make knn2 2) knn3 = Ok (o, m) /\ d_size knn2 = length (d_points knn2) /\ dim knn2 = length [1%R].
Proof. exact c80_precompute_refuted_ex. Qed.

(** C79: the probability reported after an evaluation. With two or more classes and at most 999 neighbours per further class it is 1 whatever the vote was. *)
Theorem C79_always_one : forall k nclasses freq, 1 < nclasses -> k <= 999 * (nclasses - 1) -> freq <= k -> pred_prob (1 / 10000) (1 / 10000000) k nclasses freq = 1%R.
Proof. exact c79_always_one. Qed.
Print Assumptions C79_always_one.

Example C79_always_one_ex : 1 < 2 /\ 3 <= 999 * (2 - 1) /\ 2 <= 3.
Proof. exact c79_always_one_ex. Qed.

(** C79: in particular with two of three votes of two classes it is not the smoothed share of the winning class. *)
Theorem C79_probability_refuted : (pred_prob (1 / 10000) (1 / 10000000) 3 2 2 <> (2 + 1 / 10000) / (3 + 2 * (1 / 10000)))%R.
Proof. exact c79_probability_refuted. Qed.
Print Assumptions C79_probability_refuted.

