(** Specification vocabulary for the fixed-margin perceptrons. *)
From Coq Require Import ZArith List Reals.
From Verif Require Import M_Data M_Point L_Vec S_Kernel S_Perc M_Fixed.
Import ListNotations.
Local Open Scope R_scope.

(** The norm of [w] that the primal trainer works with; the L1 formulation works with the largest absolute component. *)
Definition norm_of (pw : R -> R -> R) (kind : qnorm) (n : nat) (w : vec) (v : R) : Prop :=
  match kind with
  | Linf => v = sumn n (fun j => Rabs (nz w j))
  | L2 => v = euclid n w
  | Lp q => v = pw (sumn n (fun j => pw (Rabs (nz w j)) q)) (1 / q)
  | L1 => (forall j, (j < n)%nat -> Rabs (nz w j) <= v) /\ exists j, (j < n)%nat /\ Rabs (nz w j) = v
  end.
(** [w] is the combination of the points given by [al]: w_j = sum of al_i * y_i * x_ij. *)
Definition combination (d : data R) (al w : vec) : Prop :=
  forall j, (j < dim d)%nat -> nz w j = sumn (size d) (fun i => nz al i * IZR (p_y (pt d i)) * nz (p_x (pt d i)) j).
(** Value of the dual function at point [r]: sum of al_i * y_i * k_ir, plus b. *)
Definition gvalue (d : data R) (k : nat -> nat -> R) (al : vec) (b : R) (r : nat) : R :=
  sumn (size d) (fun i => nz al i * IZR (p_y (pt d i)) * k i r) + b.
(** Squared norm of the vector the dual variables stand for. *)
Definition gnorm2 (d : data R) (k : nat -> nat -> R) (al : vec) : R :=
  sumn (size d) (fun i => sumn (size d) (fun j => (nz al i * IZR (p_y (pt d i))) * (nz al j * IZR (p_y (pt d j))) * k i j)).
