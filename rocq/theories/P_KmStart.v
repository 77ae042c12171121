(** Property theorems: C144: the starting centres of k-means.
    Each is closed by the lemma of the same (lower-case) name in T_KmStart.v. *)
From Coq Require Import ZArith Bool List Reals Lra Lia Permutation.
From Verif Require Import Base ListLib L_Vec Loop M_Data L_Valid S_Knn L_Knn M_Kmeans S_Kmeans T_Kmeans T_Kmeans2 M_KmStart.
From Verif Require Import T_KmStart.
Import ListNotations.
Local Open Scope R_scope.

(** C144: with "kmeanspp" the centres are the points at the positions drawn, whatever their distances; every point is as likely as any other. *)
Theorem C144_pp_refuted : forall dist points draws, (forall x y, 0 <= dist x y) -> draws <> [] -> (forall i, In i draws -> (0 <= i < Z.of_nat (length points))%Z) ->
  (forall i p, In i draws -> nth_error points (Z.to_nat i) = Some p -> exists q, In q points /\ 0 < dist (p_x p) (p_x q)) ->
  exists centers, km_start_pp dist points draws = Ok centers /\ Forall2 (fun i c => exists p, nth_error points (Z.to_nat i) = Some p /\ c = p_x p) draws centers.
Proof. exact c144_pp_refuted. Qed.
Print Assumptions C144_pp_refuted.

(** C144: so the point just chosen, whose weight is 0, can be drawn again. *)
Theorem C144_again_refuted : forall dist points i p q, (forall x y, 0 <= dist x y) -> dist (p_x p) (p_x p) = 0 -> (0 <= i)%Z -> nth_error points (Z.to_nat i) = Some p -> In q points -> 0 < dist (p_x p) (p_x q) -> km_start_pp dist points [i; i] = Ok [p_x p; p_x p].
Proof. exact c144_again_refuted. Qed.
Print Assumptions C144_again_refuted.

(** C144: when all points are at distance 0 from the first centre, the weights are not numbers. *)
Theorem C144_same_refuted : forall dist points i p j r, nth_error points (Z.to_nat i) = Some p -> (forall q, In q points -> dist (p_x p) (p_x q) = 0) -> km_start_pp dist points (i :: j :: r) = UB.
Proof. exact c144_same_refuted. Qed.
Print Assumptions C144_same_refuted.

(** C144: the upper bound of the generator is a position past the last point. *)
Theorem C144_past_refuted : forall dist points r, km_start_pp dist points (Z.of_nat (length points) :: r) = UB.
Proof. exact c144_past_refuted. Qed.
Print Assumptions C144_past_refuted.

(** C144: asked for no cluster, kmeanspp writes to a centre that does not exist, whatever the data. *)
Theorem C144_none_refuted : forall dist EPS late d points fuel, km_train_init dist EPS late d points Init_pp 0 [] fuel = UB.
Proof. exact c144_none_refuted. Qed.
Print Assumptions C144_none_refuted.

(** C144: from two equal centres the first round leaves the later one without points, so that a centre is not a number. *)
Theorem C144_twin_refuted : forall dist EPS late d D points centers a b fuel s prev, ids_from_one d -> dims_are d D -> Permutation points (d_points d) -> (forall c, In c centers -> length c = D) ->
  (a < b < length centers)%nat -> nth a centers [] = nth b centers [] -> km_loop dist EPS late d points (S fuel) s centers (repeat [] (length centers)) prev = Ok Km_nan.
Proof. exact c144_twin_refuted. Qed.
Print Assumptions C144_twin_refuted.

(** C144: any other text leaves all centres at the origin; with two clusters or more the first round then gives a centre that is not a number. *)
Theorem C144_other_refuted : forall dist EPS late d points k draws fuel, ids_from_one d -> dims_are d (dim d) -> Permutation points (d_points d) -> (2 <= k)%nat -> km_train_init dist EPS late d points Init_other k draws (S fuel) = Ok Km_nan.
Proof. exact c144_other_refuted. Qed.
Print Assumptions C144_other_refuted.

(** C144: training from a start with a repeated position, random or kmeanspp, gives a centre that is not a number. *)
Theorem C144_train_refuted : forall dist EPS late d D points init draws a b i fuel centers, ids_from_one d -> dims_are d D -> Permutation points (d_points d) -> init = Init_random \/ init = Init_pp ->
  (a < b)%nat -> nth_error draws a = Some i -> nth_error draws b = Some i -> km_centers dist d points init (length draws) draws = Ok centers ->
  km_train_init dist EPS late d points init (length draws) draws (S fuel) = Ok Km_nan.
Proof. exact c144_train_refuted. Qed.
Print Assumptions C144_train_refuted.

(** C144: with one cluster, another text makes the first round compute the true mean, since the old centre is then the origin. *)
Theorem C144_other : forall dist EPS late d points draws fuel, ids_from_one d -> dims_are d (dim d) -> Permutation points (d_points d) -> d_points d <> [] -> late 0%nat = true ->
  exists c clusters, km_train_init dist EPS late d points Init_other 1 draws (S fuel) = Ok (Km_done [c] clusters) /\ forall t, (t < dim d)%nat -> nz c t = rsum (map (fun p => nz (p_x p) t) (d_points d)) / INR (length (d_points d)).
Proof. exact c144_other. Qed.
Print Assumptions C144_other.

Example C144_pp_refuted_ex : (forall x y, 0 <= gap x y) /\ (forall i, In i [2; 0]%Z -> (0 <= i < Z.of_nat (length (d_points three)))%Z) /\ forall i p, In i [2; 0]%Z -> nth_error (d_points three) (Z.to_nat i) = Some p -> exists q, In q (d_points three) /\ 0 < gap (p_x p) (p_x q).
Proof. exact c144_pp_refuted_ex. Qed.

Example C144_twin_refuted_ex : ids_from_one three /\ dims_are three (dim three) /\ (forall c, In c [[0]; [4]; [0]] -> length c = 1%nat) /\ (0 < 2 < length [[0]; [4]; [0]])%nat /\ nth 0 [[0]; [4]; [0]] [] = nth 2 [[0]; [4]; [0]] [].
Proof. exact c144_twin_refuted_ex. Qed.

Example C144_other_ex : ids_from_one three /\ dims_are three (dim three) /\ d_points three <> [].
Proof. exact c144_other_ex. Qed.

