(** Specification of the variance of a clustering. *)
From Coq Require Import ZArith List Reals.
From Verif Require Import Base M_Data L_Vec S_Kmeans.
Import ListNotations.
Local Open Scope R_scope.

(** All positions named by the clusters are positions of the dataset. *)
Definition named (d : data R) (clusters : list (list Z)) : Prop := forall cl i, In cl clusters -> In i cl -> (0 <= i < Z.of_nat (length (d_points d)))%Z.
(** Coordinate [t] of the point at position [i]. *)
Definition at_pos (d : data R) (i : Z) (t : nat) : R := nz (nth (Z.to_nat i) (map p_x (d_points d)) []) t.
(** The squared distance, over [D] coordinates. *)
Definition sqd (D : nat) (x c : nat -> R) : R := sumn D (fun t => (x t - c t) * (x t - c t)).
(** What the members of one cluster cost with the centre [c]. *)
Definition cost_at (D : nat) (d : data R) (cl : list Z) (c : nat -> R) : R := rsum (map (fun i => sqd D (at_pos d i) c) cl).
(** The mean of a cluster. *)
Definition mean_at (d : data R) (cl : list Z) (t : nat) : R := rsum (map (fun i => at_pos d i t) cl) / INR (length cl).
(** The sum of the costs of the clusters with their means. *)
Definition spread (d : data R) (clusters : list (list Z)) : R := rsum (map (fun cl => cost_at (dim d) d cl (mean_at d cl)) clusters).
