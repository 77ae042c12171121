(** Specification of the statistics: textbook definitions. *)
From Coq Require Import ZArith Bool List Reals.
From Verif Require Import M_Data L_Vec.
Import ListNotations.
Local Open Scope R_scope.

(** Mean and variance of f 0, ..., f (n-1). *)
Definition avg (n : nat) (f : nat -> R) : R := sumn n f / INR n.
Definition scatter (n : nat) (f g : nat -> R) : R := sumn n (fun i => (f i - avg n f) * (g i - avg n g)).
Definition variance (n : nat) (f : nat -> R) : R := scatter n f f / INR n.
(** Coordinate [j] of point [i]. *)
Definition at_ (d : data R) (i j : nat) : R := nz (nth i (map p_x (d_points d)) []) j.
(** The points have [dim] coordinates and there is a name for each. *)
Definition rectangular (d : data R) (n m : nat) : Prop :=
  length (d_points d) = n /\ (forall p, In p (d_points d) -> length (p_x p) = m) /\ length (d_fnames d) = m.
(** The sum over the features chosen. *)
Definition sum_over (m : nat) (chosen : nat -> bool) (f : nat -> R) : R := sumn m (fun j => if chosen j then f j else 0).
(** Squared distance of point [i] to the centroid in the features chosen. *)
Definition from_centre (d : data R) (n m : nat) (chosen : nat -> bool) (i : nat) : R :=
  sum_over m chosen (fun j => (at_ d i j - avg n (fun i => at_ d i j)) * (at_ d i j - avg n (fun i => at_ d i j))).
(** The mean of feature [j] over the points whose label satisfies [lab]; there are [count] of them. *)
Definition members (d : data R) (lab : Z -> bool) : list (point R) := filter (fun p => lab (p_y p)) (d_points d).
Definition label_mean (d : data R) (lab : Z -> bool) (j : nat) : R :=
  sumn (length (members d lab)) (fun i => nz (nth i (map p_x (members d lab)) []) j) / INR (length (members d lab)).
Definition centre_gap (d : data R) (j : nat) : R :=
  (label_mean d (Z.eqb 1) j - label_mean d (fun y => negb (Z.eqb 1 y)) j) * (label_mean d (Z.eqb 1) j - label_mean d (fun y => negb (Z.eqb 1 y)) j).
(** Feature [j] is not called [feat], or every feature counts. *)
Definition other (d : data R) (feat : Z) (j : nat) : bool := (feat <? 0)%Z || negb (nth j (d_fnames d) 0 =? feat)%Z.
