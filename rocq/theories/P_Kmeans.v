(** Property theorems: Property lemmas for k-means: C50, C51, C81.
    Each is closed by the lemma of the same (lower-case) name in T_Kmeans.v. *)
From Coq Require Import ZArith Bool List Reals Lra Lia Permutation.
From Verif Require Import Base ListLib L_Vec Loop M_Data L_Valid S_Knn L_Knn M_Kmeans S_Kmeans.
From Verif Require Import T_Kmeans.
Import ListNotations.
Local Open Scope R_scope.

(** C50: evaluation gives the first centre at the smallest distance. *)
Theorem C50_evaluate : forall dist centers p, centers <> [] -> first_min (length centers) (fun j => dist (nth j centers []) p) (km_evaluate dist centers p).
Proof. exact c50_evaluate. Qed.
Print Assumptions C50_evaluate.

Example C50_evaluate_ex : [[0]; [4]] <> [] /\ first_min 2 (fun j => gap (nth j [[0]; [4]] []) [3]) 1.
Proof. exact c50_evaluate_ex. Qed.

(** C50: a call of clusters() with empty clusters places every point once, in the cluster of its first nearest centre. *)
Theorem C50_clusters : forall dist d centers, ids_from_one d -> centers <> [] ->
  exists cl, km_clusters dist d centers (repeat [] (length centers)) = Ok cl /\ length cl = length centers /\
    forall j, (j < length centers)%nat -> NoDup (nth j cl []) /\
      forall i, In i (nth j cl []) <-> (0 <= i < Z.of_nat (length (d_points d)))%Z /\ first_min (length centers) (fun c => dist (point_at d (Z.to_nat i)) (nth c centers [])) j.
Proof. exact c50_clusters. Qed.
Print Assumptions C50_clusters.

Example C50_clusters_ex : ids_from_one three /\ [[0]; [4]] <> [].
Proof. exact c50_clusters_ex. Qed.

(** C50: a second call adds every point again: each cluster has each of its points twice. *)
Theorem C50_twice_refuted : forall dist d centers cl, ids_from_one d -> centers <> [] -> km_clusters dist d centers (repeat [] (length centers)) = Ok cl ->
  exists cl', km_clusters dist d centers cl = Ok cl' /\ forall j, (j < length centers)%nat -> nth j cl' [] = nth j cl [] ++ nth j cl [].
Proof. exact c50_twice_refuted. Qed.
Print Assumptions C50_twice_refuted.

Example C50_twice_refuted_ex : exists cl, ids_from_one three /\ [[0]; [4]] <> [] /\ km_clusters gap three [[0]; [4]] (repeat [] (length [[0]; [4]])) = Ok cl.
Proof. exact c50_twice_refuted_ex. Qed.

(** C51, what the update step computes: the old centre is counted as one more point, but not in the divisor.
    One expects that the old centre is not counted at all: see c51_mean_refuted. *)
Theorem C51_update : forall d D clusters centers, dims_are d D -> length centers = length clusters -> (forall c, In c centers -> length c = D) ->
  (forall cl i, In cl clusters -> In i cl -> (0 <= i < Z.of_nat (length (d_points d)))%Z) -> ~ In [] clusters ->
  exists new, compute_centers d clusters centers = Ok (Some new) /\ length new = length clusters /\
    forall i t, (i < length clusters)%nat -> (t < D)%nat ->
      nz (nth i new []) t = (nz (nth i centers []) t + coord_sum (map p_x (d_points d)) (nth i clusters []) t) / INR (length (nth i clusters [])).
Proof. exact c51_update. Qed.
Print Assumptions C51_update.

Example C51_update_ex : dims_are three 1 /\ (forall cl i, In cl [[0; 1]; [2]]%Z -> In i cl -> (0 <= i < Z.of_nat (length (d_points three)))%Z) /\ ~ In [] [[0; 1]; [2]]%Z /\ forall c, In c [[0]; [4]] -> length c = 1%nat.
Proof. exact c51_update_ex. Qed.

(** C51 itself: a new centre coordinate is the mean of the cluster exactly when the old one was 0. *)
Theorem C51_mean_refuted : forall d D clusters centers new, dims_are d D -> length centers = length clusters -> (forall c, In c centers -> length c = D) ->
  (forall cl i, In cl clusters -> In i cl -> (0 <= i < Z.of_nat (length (d_points d)))%Z) -> ~ In [] clusters -> compute_centers d clusters centers = Ok (Some new) ->
  forall i t, (i < length clusters)%nat -> (t < D)%nat ->
    (nz (nth i new []) t = coord_sum (map p_x (d_points d)) (nth i clusters []) t / INR (length (nth i clusters [])) <-> nz (nth i centers []) t = 0).
Proof. exact c51_mean_refuted. Qed.
Print Assumptions C51_mean_refuted.

Example C51_mean_refuted_ex : exists new, compute_centers three [[0; 1]; [2]]%Z [[0]; [4]] = Ok (Some new) /\ nz (nth 1 [[0]; [4]] []) 0 <> 0.
Proof. exact c51_mean_refuted_ex. Qed.

(** C51: a cluster without points makes a centre that is not a number. *)
Theorem C51_empty_refuted : forall d D clusters centers, dims_are d D -> length centers = length clusters -> (forall c, In c centers -> length c = D) ->
  (forall cl i, In cl clusters -> In i cl -> (0 <= i < Z.of_nat (length (d_points d)))%Z) -> In [] clusters -> compute_centers d clusters centers = Ok None.
Proof. exact c51_empty_refuted. Qed.
Print Assumptions C51_empty_refuted.

Example C51_empty_refuted_ex : dims_are three 1 /\ In [] [[0; 1; 2]; []]%Z /\ (forall cl i, In cl [[0; 1; 2]; []]%Z -> In i cl -> (0 <= i < Z.of_nat (length (d_points three)))%Z) /\ forall c, In c [[0]; [4]] -> length c = 1%nat.
Proof. exact c51_empty_refuted_ex. Qed.

Theorem C51_train_refuted : forall EPS late fuel, 0 <= EPS -> exists centers clusters, km_train gap EPS late one_point (d_points one_point) [0%Z] (S fuel) = Ok (Km_done centers clusters) /\ map (fun c => nz c 0) centers = [2].
Proof. exact c51_train_refuted. Qed.
Print Assumptions C51_train_refuted.

Example C51_train_refuted_ex : 0 <= / 10000000.
Proof. exact c51_train_refuted_ex. Qed.

(** C81: the starting centres are training points when every draw is below the number of points. *)
Theorem C81_start : forall d draws, (forall i, In i draws -> (0 <= i < Z.of_nat (length (d_points d)))%Z) ->
  exists centers, km_start d draws = Ok centers /\ length centers = length draws /\ forall c, In c centers -> exists p, In p (d_points d) /\ c = p_x p.
Proof. exact c81_start. Qed.
Print Assumptions C81_start.

Example C81_start_ex : forall i, In i [2; 0]%Z -> (0 <= i < Z.of_nat (length (d_points three)))%Z.
Proof. exact c81_start_ex. Qed.

(** C81: the generator includes its upper bound, which is the number of points: that draw reads past the last point. *)
Theorem C81_start_refuted : forall d, exists i, in_range 0 (Z.of_nat (length (d_points d))) i /\ forall draws, km_start d (i :: draws) = UB.
Proof. exact c81_start_refuted. Qed.
Print Assumptions C81_start_refuted.

