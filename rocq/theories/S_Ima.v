(** Specification vocabulary for the incremental margin algorithm. *)
From Coq Require Import ZArith List Reals.
From Verif Require Import M_Data M_Point L_Vec S_Kernel S_Perc M_Fixed.
Import ListNotations.
Local Open Scope R_scope.

(** Value of the hyperplane (w, b) at a point. *)
Definition value (d : data R) (w : vec) (b : R) (p : point R) : R := inner (dim d) w (p_x p) + b.
(** Both labels occur. *)
Definition both_classes (d : data R) : Prop := (exists p, In p (d_points d) /\ p_y p = 1%Z) /\ (exists q, In q (d_points d) /\ p_y q = (-1)%Z).
(** [p] is the point of label 1 and [q] the point of label -1 whose values are the closest to 0 from above and from below. *)
Definition closest (d : data R) (w : vec) (b : R) (p q : point R) : Prop :=
  In p (d_points d) /\ p_y p = 1%Z /\ (forall r, In r (d_points d) -> p_y r = 1%Z -> value d w b p <= value d w b r) /\
  In q (d_points d) /\ p_y q = (-1)%Z /\ (forall r, In r (d_points d) -> p_y r = (-1)%Z -> value d w b r <= value d w b q).
(** Any two points are less than [c] apart, in the sum of the absolute differences. *)
Definition spread (d : data R) (c : R) : Prop :=
  forall p q, In p (d_points d) -> In q (d_points d) -> sumn (dim d) (fun j => Rabs (nz (p_x p) j - nz (p_x q) j)) < c.
(** The formulations whose norm bounds every component: all but L1, if [pw] is a power for which the Lp norm does. *)
Definition proper (pw : R -> R -> R) (kind : qnorm) : Prop :=
  match kind with
  | Linf | L2 => True
  | Lp q => forall n w, let v := pw (sumn n (fun j => pw (Rabs (nz w j)) q)) (1 / q) in 0 <= v /\ forall j, (j < n)%nat -> Rabs (nz w j) <= v
  | L1 => False
  end.
(** Strictly increasing. *)
Fixpoint increasing (l : list R) : Prop :=
  match l with a :: (b :: _) as r => a < b /\ increasing r | _ => True end.
