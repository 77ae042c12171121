(** Specification vocabulary for the perceptrons. *)
From Coq Require Import ZArith List Permutation Reals.
From Verif Require Import Base M_Data M_Point L_Vec M_Kernel S_Kernel.
Import ListNotations.
Local Open Scope R_scope.

(** Labels are +1 and -1. *)
Definition binary (d : data R) : Prop := forall p, In p (d_points d) -> p_y p = 1%Z \/ p_y p = (-1)%Z.
(** The index lists every position of the dataset once. *)
Definition index_perm (d : data R) : Prop := Permutation (d_index d) (map Z.of_nat (seq 0 (size d))).
(** The index lists the positions in storage order. *)
Definition index_plain (d : data R) : Prop := d_index d = map Z.of_nat (seq 0 (size d)).

(** Signed decision value of a point for the hyperplane (w, b). *)
Definition yf (d : data R) (w : vec) (b : R) (p : point R) : R := IZR (p_y p) * (inner (dim d) w (p_x p) + b).
(** Decision value of a point for dual variables. *)
Definition dual_value (kf : point R -> point R -> R) (d : data R) (alpha : vec) (b : R) (p : point R) : R :=
  sumn (size d) (fun i => nz alpha i * IZR (p_y (pt d i)) * kf p (pt d i)) + b.
(** Euclidean norm. *)
Definition euclid (n : nat) (w : vec) : R := sqrt (inner n w w).
