(** Property theorems: Property lemmas for the statistics: C65, C88.
    Each is closed by the lemma of the same (lower-case) name in T_Stat.v. *)
From Coq Require Import ZArith Bool List Reals Lra Lia Psatz.
From Verif Require Import Base ListLib L_Vec M_Data M_Point S_Point L_Point Loop L_Smo M_Stat S_Stat.
From Verif Require Import T_Stat.
Import ListNotations.
Local Open Scope R_scope.

(** C65: mean, variance and standard deviation of a vector. *)
Theorem C65_vector : forall v, v <> [] ->
  let var := variance (length v) (nz v) in
  mean_p v = Ok (Some (avg (length v) (nz v))) /\ var_p v = Ok (Some var) /\ std_p v = Ok (Some (sqrt var)) /\ 0 <= var /\ (var = 0 <-> forall x y, In x v -> In y v -> x = y).
Proof. exact c65_vector. Qed.
Print Assumptions C65_vector.

Example C65_vector_ex : [1; 2; 4] <> [] /\ variance (length [1; 2; 4]) (nz [1; 2; 4]) = 14 / 9.
Proof. exact c65_vector_ex. Qed.

(** C65: an empty vector fails an assertion. *)
Theorem C65_empty : mean_p [] = Abort /\ var_p [] = Abort /\ std_p [] = Abort /\ covar [] [] = Abort.
Proof. exact c65_empty. Qed.
Print Assumptions C65_empty.

(** C65: covariance, with the divisor of a sample: symmetric, bounded by Cauchy-Schwarz, and on the diagonal n/(n-1) times the variance.
    The two divisors differ, so covariance(x,x) is not the variance unless x is constant (c65_diagonal_refuted). *)
Theorem C65_covar : forall p q, length p = length q -> (2 <= length p)%nat ->
  exists c cp cq, covar p q = Ok (Some c) /\ covar q p = Ok (Some c) /\ covar p p = Ok (Some cp) /\ covar q q = Ok (Some cq) /\
    c * (INR (length p) - 1) = scatter (length p) (nz p) (nz q) /\ cp * (INR (length p) - 1) = variance (length p) (nz p) * INR (length p) /\ 0 <= cp /\ c * c <= cp * cq.
Proof. exact c65_covar. Qed.
Print Assumptions C65_covar.

Example C65_covar_ex : length [1; 2; 4] = length [0; 1; -1] /\ (2 <= length [1; 2; 4])%nat.
Proof. exact c65_covar_ex. Qed.

Theorem C65_diagonal_refuted : forall p c v, (2 <= length p)%nat -> covar p p = Ok (Some c) -> var_p p = Ok (Some v) -> (c = v <-> forall x y, In x p -> In y p -> x = y).
Proof. exact c65_diagonal_refuted. Qed.
Print Assumptions C65_diagonal_refuted.

Example C65_diagonal_refuted_ex : exists c v, covar [1; 3] [1; 3] = Ok (Some c) /\ var_p [1; 3] = Ok (Some v) /\ c <> v.
Proof. exact c65_diagonal_refuted_ex. Qed.

(** C65: the covariance of vectors of one number is 0/0. *)
Theorem C65_single_refuted : forall a b, covar [a] [b] = Ok None.
Proof. exact c65_single_refuted. Qed.
Print Assumptions C65_single_refuted.

(** C65: the mean of a feature. *)
Theorem C65_mean_data : forall d n m j, rectangular d n m -> (0 < n)%nat -> (j < m)%nat -> mean_d d j = Ok (avg n (fun i => at_ d i j)).
Proof. exact c65_mean_data. Qed.
Print Assumptions C65_mean_data.

Example C65_mean_data_ex : rectangular sx 3 2 /\ avg 3 (fun i => at_ sx i 1) = 2.
Proof. exact c65_mean_data_ex. Qed.

(** C65: the standard deviation of a feature, with the divisor of a sample (std_p divides by the size). *)
Theorem C65_std_data : forall d n m j, rectangular d n m -> (2 <= n)%nat -> (j < m)%nat -> exists s, std_d d j = Ok s /\ 0 <= s /\ s * s * (INR n - 1) = scatter n (fun i => at_ d i j) (fun i => at_ d i j).
Proof. exact c65_std_data. Qed.
Print Assumptions C65_std_data.

Example C65_std_data_ex : rectangular sx 3 2 /\ scatter 3 (fun i => at_ sx i 1) (fun i => at_ sx i 1) = 24.
Proof. exact c65_std_data_ex. Qed.

(** The deviation of a single point is 0, not 0/0. *)
Theorem C65_std_single : forall d m j, rectangular d 1 m -> std_d d j = Ok 0.
Proof. exact c65_std_single. Qed.
Print Assumptions C65_std_single.

Example C65_std_single_ex : exists d : data R, rectangular d 1 2.
Proof. exact c65_std_single_ex. Qed.

(** C65: the two standard deviations of the same numbers differ unless they are constant. *)
Theorem C65_std_refuted : forall d n m j v s t, rectangular d n m -> (2 <= n)%nat -> (j < m)%nat -> v = map (fun i => at_ d i j) (seq 0 n) -> std_d d j = Ok s -> std_p v = Ok (Some t) -> (s = t <-> s = 0).
Proof. exact c65_std_refuted. Qed.
Print Assumptions C65_std_refuted.

Example C65_std_refuted_ex : exists s t, std_d sx 1 = Ok s /\ std_p (map (fun i => at_ sx i 1) (seq 0 3)) = Ok (Some t) /\ s <> t.
Proof. exact c65_std_refuted_ex. Qed.

(** C65: the "variance of a feature" of a dataset is the sum of the variances of the features that do not have the name given. *)
Theorem C65_var_data : forall d n m feat, rectangular d n m -> (0 < n)%nat -> (forall f, In f (d_fnames d) -> (0 <= f < 2 ^ 64)%Z) ->
  var_d d feat = Ok (Some (sum_over m (fun j => negb (Z.eqb (nth j (d_fnames d) 0%Z) feat)) (fun j => variance n (fun i => at_ d i j)))).
Proof. exact c65_var_data. Qed.
Print Assumptions C65_var_data.

Example C65_var_data_ex : rectangular sx 3 2 /\ forall f, In f (d_fnames sx) -> (0 <= f < 2 ^ 64)%Z.
Proof. exact c65_var_data_ex. Qed.

(** C65: so it is not the variance of that feature: here feature 1 (values 1, 3, 2) has variance 2/3 and feature 2 has variance 8. *)
Theorem C65_var_data_refuted : exists v, var_d sx 1 = Ok (Some v) /\ v = 8 /\ variance 3 (fun i => at_ sx i 0) = 2 / 3.
Proof. exact c65_var_data_refuted. Qed.
Print Assumptions C65_var_data_refuted.

(** C65: with q = 2 the radius is the largest distance of a point to the centroid, over the features not excluded. *)
Theorem C65_radius : forall d n m feat, rectangular d n m -> (0 < n)%nat -> exists r, radius d feat 2 = Ok r /\
  (forall i, (i < n)%nat -> sqrt (from_centre d n m (other d feat) i) <= r) /\ exists i, (i < n)%nat /\ r = sqrt (from_centre d n m (other d feat) i).
Proof. exact c65_radius. Qed.
Print Assumptions C65_radius.

Example C65_radius_ex : rectangular sx 3 2 /\ from_centre sx 3 2 (other sx (-1)) 2 = 16.
Proof. exact c65_radius_ex. Qed.

(** C65: with q = 1 it is the largest absolute coordinate, whatever the centroid. *)
Theorem C65_radius_one : forall d n m feat, rectangular d n m -> (0 < n)%nat -> exists r, radius d feat 1 = Ok r /\ 0 <= r /\
  (forall i j, (i < n)%nat -> (j < m)%nat -> other d feat j = true -> Rabs (at_ d i j) <= r) /\ (r = 0 \/ exists i j, (i < n)%nat /\ (j < m)%nat /\ other d feat j = true /\ r = Rabs (at_ d i j)).
Proof. exact c65_radius_one. Qed.
Print Assumptions C65_radius_one.

(** C65: for that norm the result does not bound the distance to the centroid: -3, 3, 3 have mean 1, and -3 is at distance 4. *)
Theorem C65_radius_one_refuted : exists r i, radius sx1 (-1) 1 = Ok r /\ (i < 3)%nat /\ r < Rabs (at_ sx1 i 0 - avg 3 (fun i => at_ sx1 i 0)).
Proof. exact c65_radius_one_refuted. Qed.
Print Assumptions C65_radius_one_refuted.

(** C65: for any other norm the radius is 1. *)
Theorem C65_radius_other_refuted : forall d feat q, q <> 1 -> q <> 2 -> radius d feat q = Ok 1.
Proof. exact c65_radius_other_refuted. Qed.
Print Assumptions C65_radius_other_refuted.

Example C65_radius_other_refuted_ex : -1 <> 1 /\ -1 <> 2.
Proof. exact c65_radius_other_refuted_ex. Qed.

(** C88: the distance between the centres of the points labelled 1 and of the others, without the feature named, when both kinds of points occur. *)
Theorem C88_distance : forall d n m feat, rectangular d n m -> both_labels d -> distCenters d feat = Ok (Some (sqrt (sum_over m (other d feat) (centre_gap d)))).
Proof. exact c88_distance. Qed.
Print Assumptions C88_distance.

Example C88_distance_ex : rectangular sx 3 2 /\ both_labels sx /\ sum_over 2 (other sx (-1)) (centre_gap sx) = 36.
Proof. exact c88_distance_ex. Qed.

(** C88: with one kind of points only, the distance is not a number. *)
Theorem C88_one_class_refuted : forall d n m feat, rectangular d n m -> (0 < n)%nat -> (forall p, In p (d_points d) -> p_y p = 1%Z) -> (exists j, (j < m)%nat /\ other d feat j = true) -> distCenters d feat = Ok None.
Proof. exact c88_one_class_refuted. Qed.
Print Assumptions C88_one_class_refuted.

Example C88_one_class_refuted_ex : exists d, rectangular d 1 1 /\ (forall p, In p (d_points d) -> p_y p = 1%Z) /\ exists j, (j < 1)%nat /\ other d (-1) j = true.
Proof. exact c88_one_class_refuted_ex. Qed.

(** C88: distCentersWithoutFeats, given different names, measures the features it should leave out: only those count. *)
Theorem C88_without_refuted : forall d n m feats index, rectangular d n m -> both_labels d -> NoDup feats ->
  distCentersWithoutFeats d feats index = Ok (Some (sqrt (sum_over m (fun j => existsb (Z.eqb (nth j (d_fnames d) 0%Z)) feats) (centre_gap d)))).
Proof. exact c88_without_refuted. Qed.
Print Assumptions C88_without_refuted.

Example C88_without_refuted_ex : rectangular sx 3 2 /\ both_labels sx /\ NoDup [1]%Z /\ sum_over 2 (fun j => existsb (Z.eqb (nth j (d_fnames sx) 0%Z)) [1]%Z) (centre_gap sx) = 0.
Proof. exact c88_without_refuted_ex. Qed.

