(** Property theorems: Property lemmas for whole runs of k-means: C51.
    Each is closed by the lemma of the same (lower-case) name in T_Kmeans2.v. *)
From Coq Require Import ZArith Bool List Reals Lra Lia Permutation.
From Verif Require Import Base ListLib L_Vec Loop M_Data L_Valid S_Knn L_Knn M_Kmeans S_Kmeans T_Kmeans.
From Verif Require Import T_Kmeans2.
Import ListNotations.
Local Open Scope R_scope.

(** C51, whole training runs: the centres returned come from the starting points by the steps described, and the run stops only when the clock says so or when the cost moves by at most EPS.
    The steps are not the mean: c51_mean_refuted. *)
Theorem C51_train : forall dist EPS late d D points draws fuel final clusters, ids_from_one d -> dims_are d D -> Permutation points (d_points d) -> draws <> [] ->
  (forall i, In i draws -> (0 <= i < Z.of_nat (length (d_points d)))%Z) -> km_train dist EPS late d points draws fuel = Ok (Km_done final clusters) ->
  exists start, Forall2 (fun i c => nth_error (map p_x (d_points d)) (Z.to_nat i) = Some c) draws start /\ km_run dist EPS late D (map p_x (d_points d)) 0 0 start final.
Proof. exact c51_train. Qed.
Print Assumptions C51_train.

Example C51_train_ex : exists final clusters, ids_from_one three /\ dims_are three 1 /\ Permutation (rev (d_points three)) (d_points three) /\
  km_train gap 2 (fun s => false) three (rev (d_points three)) [0; 2]%Z 5 = Ok (Km_done final clusters).
Proof. exact c51_train_ex. Qed.

