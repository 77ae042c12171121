(** Property theorems: Distances (C27, C28).
    Each is closed by the lemma of the same (lower-case) name in T_Metric.v. *)
From Coq Require Import ZArith Bool List Reals Lra Lia Psatz.
From Verif Require Import Base ListLib M_Data M_Point S_Point L_Vec L_Point.
From Verif Require Import T_Metric.
Import ListNotations.
Local Open Scope R_scope.

(** C27: the four metric axioms of the Euclidean distance. *)
Theorem C27_euclidean : forall (tiny : R) (p q r : vec), length p = length q -> length q = length r ->
  exists pq qp qr pr,
    distance tiny Euclidean p q = Ok (Some pq) /\ distance tiny Euclidean q p = Ok (Some qp) /\
    distance tiny Euclidean q r = Ok (Some qr) /\ distance tiny Euclidean p r = Ok (Some pr) /\
    0 <= pq /\ (pq = 0 <-> p = q) /\ pq = qp /\ pr <= pq + qr.
Proof. exact c27_euclidean. Qed.
Print Assumptions C27_euclidean.

(** C27: the four metric axioms of the Manhattan distance. *)
Theorem C27_manhattan : forall (tiny : R) (p q r : vec), length p = length q -> length q = length r ->
  exists pq qp qr pr,
    distance tiny Manhattan p q = Ok (Some pq) /\ distance tiny Manhattan q p = Ok (Some qp) /\
    distance tiny Manhattan q r = Ok (Some qr) /\ distance tiny Manhattan p r = Ok (Some pr) /\
    0 <= pq /\ (pq = 0 <-> p = q) /\ pq = qp /\ pr <= pq + qr.
Proof. exact c27_manhattan. Qed.
Print Assumptions C27_manhattan.

Example C27_metric_ex : length [1; 2]%R = length [3; 4]%R /\ length [3; 4]%R = length [5; 6]%R.
Proof. exact c27_metric_ex. Qed.

(** C27: the Chebyshev distance is the largest coordinate difference whenever some difference reaches
    [tiny] (the smallest positive double). *)
Theorem C27_chebyshev : forall (tiny : R) (p q : vec), length p = length q ->
  (exists i, (i < length p)%nat /\ tiny <= Rabs (nz p i - nz q i)) ->
  exists m, distance tiny Chebyshev p q = Ok (Some m) /\ (exists i, (i < length p)%nat /\ m = Rabs (nz p i - nz q i)) /\
    forall i, (i < length p)%nat -> Rabs (nz p i - nz q i) <= m.
Proof. exact c27_chebyshev. Qed.
Print Assumptions C27_chebyshev.

(** C27: the Chebyshev distance from a point to itself is not zero. *)
Theorem C27_chebyshev_refuted : forall (tiny : R) (p : vec), 0 < tiny -> distance tiny Chebyshev p p = Ok (Some tiny).
Proof. exact c27_chebyshev_refuted. Qed.
Print Assumptions C27_chebyshev_refuted.

(** C28: on points of the same non-zero dimension with positive coordinates these 23 functors
    are defined, symmetric, non-negative, and zero exactly on equal points. *)
Theorem C28_dissimilarities : forall (tiny : R) (f : functor) (p q : vec),
  In f good_functors -> length p = length q -> p <> [] -> Forall (fun x => 0 < x) p -> Forall (fun x => 0 < x) q ->
  exists r, distance tiny f p q = Ok (Some r) /\ distance tiny f q p = Ok (Some r) /\ 0 <= r /\ (r = 0 <-> p = q).
Proof. exact c28_dissimilarities. Qed.
Print Assumptions C28_dissimilarities.

Example C28_dissimilarities_ex : In Topsoe good_functors /\ length [1; 2] = length [3; 1/2] /\ [1; 2] <> [] /\
  Forall (fun x => 0 < x) [1; 2] /\ Forall (fun x => 0 < x) [3; 1/2] /\ [1; 2] <> [3; 1/2].
Proof. exact c28_dissimilarities_ex. Qed.

(** C28: the cosine dissimilarity is defined, symmetric, non-negative and zero on equal points. *)
Theorem C28_cosine : forall (tiny : R) (p q : vec),
  length p = length q -> p <> [] -> Forall (fun x => 0 < x) p -> Forall (fun x => 0 < x) q ->
  exists r, distance tiny Cosine p q = Ok (Some r) /\ distance tiny Cosine q p = Ok (Some r) /\ 0 <= r /\ (p = q -> r = 0).
Proof. exact c28_cosine. Qed.
Print Assumptions C28_cosine.

Example C28_cosine_ex : length [1; 2] = length [2; 4] /\ [1; 2] <> [] /\ Forall (fun x => 0 < x) [1; 2] /\ Forall (fun x => 0 < x) [2; 4].
Proof. exact c28_cosine_ex. Qed.

(** C28 refuted for Neyman, Pearson and KDivergence: they are not symmetric. *)
Theorem C28_asymmetric_refuted : forall tiny : R,
  (distance tiny Neyman [1] [2] = Ok (Some 1) /\ distance tiny Neyman [2] [1] = Ok (Some (1 / 2))) /\
  (distance tiny Pearson [1] [2] = Ok (Some (1 / 2)) /\ distance tiny Pearson [2] [1] = Ok (Some 1)) /\
  (exists a b, distance tiny KDivergence [1] [2] = Ok (Some a) /\ distance tiny KDivergence [2] [1] = Ok (Some b) /\ a < 0 < b).
Proof. exact c28_asymmetric_refuted. Qed.
Print Assumptions C28_asymmetric_refuted.

(** C28 refuted for Kullback-Leibler: negative, and not symmetric. *)
Theorem C28_kl_refuted : forall tiny : R,
  exists a b, distance tiny KullbackLeibler [1] [2] = Ok (Some a) /\ distance tiny KullbackLeibler [2] [1] = Ok (Some b) /\ a < 0 < b.
Proof. exact c28_kl_refuted. Qed.
Print Assumptions C28_kl_refuted.

(** C28 refuted for Kumar-Johnson: a point is at distance [2 a a] from itself. *)
Theorem C28_kumar_refuted : forall tiny a : R, 0 < a -> distance tiny KumarJohnson [a] [a] = Ok (Some (2 * (a * a))).
Proof. exact c28_kumar_refuted. Qed.
Print Assumptions C28_kumar_refuted.

(** C28 refuted for Lorentzian: 1 - |p - q| is used where 1 + |p - q| is meant, so the value is
    negative for close points and undefined for points one or more apart. *)
Theorem C28_lorentzian_refuted : forall tiny : R,
  (exists r, distance tiny Lorentzian [1] [1 + 1 / 2] = Ok (Some r) /\ r < 0) /\ distance tiny Lorentzian [1] [2] = Ok None.
Proof. exact c28_lorentzian_refuted. Qed.
Print Assumptions C28_lorentzian_refuted.

(** C28 refuted for Bhattacharyya: never positive, and not zero on equal points. *)
Theorem C28_bhattacharyya_refuted : forall (tiny a : R), 0 < a ->
  distance tiny Bhattacharyya [a] [a] = Ok (Some (- sqrt a)) /\ - sqrt a < 0.
Proof. exact c28_bhattacharyya_refuted. Qed.
Print Assumptions C28_bhattacharyya_refuted.

(** C28 refuted for Chord: the two norms are not square-rooted, so a point is not at distance
    zero from itself, and the value is undefined near the origin. *)
Theorem C28_chord_refuted : forall tiny : R,
  distance tiny Chord [2] [2] = Ok (Some (sqrt (3 / 2))) /\ distance tiny Chord [1 / 2] [1 / 2] = Ok None.
Proof. exact c28_chord_refuted. Qed.
Print Assumptions C28_chord_refuted.

(** C28 refuted for NonIntersection, JensenDifference and Average: integer divisions 1/2 and 1/n
    make the value constantly zero (for Average from dimension two on). *)
Theorem C28_constant_refuted : forall (tiny : R) (p q : vec), length p = length q -> p <> [] -> Forall (fun x => 0 < x) p -> Forall (fun x => 0 < x) q ->
  distance tiny NonIntersection p q = Ok (Some 0) /\ distance tiny JensenDifference p q = Ok (Some 0) /\
  ((2 <= length p)%nat -> distance tiny Average p q = Ok (Some 0)).
Proof. exact c28_constant_refuted. Qed.
Print Assumptions C28_constant_refuted.

Example C28_constant_ex : length [1; 2] = length [2; 5] /\ [1; 2] <> [] /\ Forall (fun x => 0 < x) [1; 2] /\ Forall (fun x => 0 < x) [2; 5] /\ (2 <= length [1; 2])%nat.
Proof. exact c28_constant_ex. Qed.

(** C28 refuted for JensenShannon: the first half of the sum is multiplied by the integer 1/2 = 0,
    so it is KDivergence with its arguments swapped. *)
Theorem C28_jensenshannon_refuted : forall (tiny : R) (p q : vec), length p = length q -> p <> [] -> Forall (fun x => 0 < x) p -> Forall (fun x => 0 < x) q ->
  distance tiny JensenShannon p q = distance tiny KDivergence q p.
Proof. exact c28_jensenshannon_refuted. Qed.
Print Assumptions C28_jensenshannon_refuted.

Example C28_jensenshannon_ex : length [1] = length [2] /\ [1] <> [] /\ Forall (fun x => 0 < x) [1] /\ Forall (fun x => 0 < x) [2].
Proof. exact c28_jensenshannon_ex. Qed.

(** C28: MinSymmetric also takes the larger of the two sums, so it equals MaxSymmetric. *)
Theorem C28_minsymmetric_refuted : forall (tiny : R) (p q : vec), distance tiny MinSymmetric p q = distance tiny MaxSymmetric p q.
Proof. exact c28_minsymmetric_refuted. Qed.
Print Assumptions C28_minsymmetric_refuted.

(** C28 refuted for AverageL1Linf: the maximum starts from the smallest positive double. *)
Theorem C28_averagel1_refuted : forall (tiny : R) (p : vec), 0 < tiny -> distance tiny AverageL1Linf p p = Ok (Some (tiny / 2)).
Proof. exact c28_averagel1_refuted. Qed.
Print Assumptions C28_averagel1_refuted.

