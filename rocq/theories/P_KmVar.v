(** Property theorems: C135: the variance of a clustering.
    Each is closed by the lemma of the same (lower-case) name in T_KmVar.v. *)
From Coq Require Import ZArith List Lia Reals Lra Bool Permutation.
From Verif Require Import Base M_Data L_Vec Loop M_Kmeans S_Kmeans T_Kmeans M_KmVar S_KmVar.
From Verif Require Import T_KmVar.
Import ListNotations.
Local Open Scope R_scope.

(** C135: for clusters of positions of a dataset, the result is the sum over the clusters of the squared distances of the members to the mean. *)
Theorem C135_value : forall (d : data R) (clusters : list (list Z)), dims_are d (dim d) -> named d clusters -> clusters_variance d clusters = Ok (Some (spread d clusters)).
Proof. exact c135_value. Qed.
Print Assumptions C135_value.

(** C135: no other centres cost less, so the variance is a lower bound of the k-means cost of these clusters, for whatever centres. *)
Theorem C135_least : forall (d : data R) (clusters : list (list Z)) (cs : list (list R)) (v : R), dims_are d (dim d) -> named d clusters -> length cs = length clusters ->
  clusters_variance d clusters = Ok (Some v) -> v <= rsum (map (fun q => cost_at (dim d) d (fst q) (nz (snd q))) (combine clusters cs)).
Proof. exact c135_least. Qed.
Print Assumptions C135_least.

(** C135: splitting a cluster never raises the variance. *)
Theorem C135_split : forall (d : data R) (a b : list Z) (r : list (list Z)) (v w : R), dims_are d (dim d) -> named d ((a ++ b) :: r) ->
  clusters_variance d ((a ++ b) :: r) = Ok (Some v) -> clusters_variance d (a :: b :: r) = Ok (Some w) -> w <= v.
Proof. exact c135_split. Qed.
Print Assumptions C135_split.

Theorem C135_order : forall (d : data R) (a b : list (list Z)), dims_are d (dim d) -> named d a -> Permutation a b -> clusters_variance d b = clusters_variance d a.
Proof. exact c135_order. Qed.
Print Assumptions C135_order.

Theorem C135_members : forall (d : data R) (a b : list (list Z)), dims_are d (dim d) -> named d a -> Forall2 (@Permutation Z) a b -> clusters_variance d b = clusters_variance d a.
Proof. exact c135_members. Qed.
Print Assumptions C135_members.

Theorem C135_empty : forall (d : data R) (a : list (list Z)) (k : nat), dims_are d (dim d) -> named d a -> clusters_variance d (a ++ repeat [] k) = clusters_variance d a.
Proof. exact c135_empty. Qed.
Print Assumptions C135_empty.

(** C135: it is never negative, and 0 exactly when the members of each cluster have the same coordinates. *)
Theorem C135_zero : forall (d : data R) (clusters : list (list Z)) (v : R), dims_are d (dim d) -> named d clusters -> clusters_variance d clusters = Ok (Some v) ->
  0 <= v /\ (v = 0 <-> forall cl i j t, In cl clusters -> In i cl -> In j cl -> (t < dim d)%nat -> at_pos d i t = at_pos d j t).
Proof. exact c135_zero. Qed.
Print Assumptions C135_zero.

(** C135: a position outside the dataset is read out of bounds. *)
Theorem C135_outside_refuted : forall (d : data R) (i : Z) (r : list (list Z)), (i < 0 \/ Z.of_nat (length (d_points d)) <= i)%Z -> clusters_variance d ([i] :: r) = UB.
Proof. exact c135_outside_refuted. Qed.
Print Assumptions C135_outside_refuted.

Example C135_value_ex : dims_are three (dim three) /\ named three [[0; 1]; []; [2]]%Z /\ spread three [[0; 1]; []; [2]]%Z = 1 / 2.
Proof. exact c135_value_ex. Qed.

Example C135_least_ex : dims_are three (dim three) /\ named three [[0; 1]; []; [2]]%Z /\ length [[0]; [1]; [4]] = length [[0; 1]; []; [2]]%Z.
Proof. exact c135_least_ex. Qed.

Example C135_split_ex : dims_are three (dim three) /\ named three (([0; 1] ++ [2]) :: [])%Z.
Proof. exact c135_split_ex. Qed.

Example C135_order_ex : dims_are three (dim three) /\ named three [[0; 1]; []; [2]]%Z /\ Permutation [[0; 1]; []; [2]]%Z [[]; [0; 1]; [2]]%Z.
Proof. exact c135_order_ex. Qed.

Example C135_members_ex : dims_are three (dim three) /\ named three [[0; 1]; []; [2]]%Z /\ Forall2 (@Permutation Z) [[0; 1]; []; [2]]%Z [[1; 0]; []; [2]]%Z.
Proof. exact c135_members_ex. Qed.

Example C135_empty_ex : dims_are three (dim three) /\ named three [[0; 1]; []; [2]]%Z.
Proof. exact c135_empty_ex. Qed.

Example C135_zero_ex : dims_are three (dim three) /\ named three [[0; 1]; []; [2]]%Z.
Proof. exact c135_zero_ex. Qed.

Example C135_outside_refuted_ex : (3 < 0 \/ Z.of_nat (length (d_points three)) <= 3)%Z /\ (-1 < 0 \/ Z.of_nat (length (d_points three)) <= -1)%Z.
Proof. exact c135_outside_refuted_ex. Qed.

