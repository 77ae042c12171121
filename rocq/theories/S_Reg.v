(** Specification of regression. *)
From Coq Require Import Bool List Reals Sorted.
From Verif Require Import L_Vec.
Import ListNotations.
Local Open Scope R_scope.

(** Index a comes before b: nearer, or equally near and earlier. *)
Definition before (far : nat -> R) (a b : nat) : Prop := far a < far b \/ (far a = far b /\ (a < b)%nat).
(** The k first indices below n in that order. *)
Definition first_k (n k : nat) (far : nat -> R) (N : list nat) : Prop :=
  length N = k /\ StronglySorted (before far) N /\ (forall a, In a N -> (a < n)%nat) /\ forall a b, In a N -> (b < n)%nat -> ~ In b N -> before far a b.
(** The sum of a list. *)
Fixpoint total (l : list R) : R := match l with [] => 0 | x :: r => x + total r end.

(** The error of a linear function on an example. *)
Definition residual (w : list R) (b : R) (x : list R) (y : R) : R := y - (b + sumn (length x) (fun k => nz w k * nz x k)).
(** One step of the least-mean-squares rule with rates [rw] for the weights and [rb] for the bias. *)
Definition lms_moves (rw rb : R) (x : list R) (y : R) (w : list R) (b : R) (w' : list R) (b' : R) : Prop :=
  length w' = length w /\ (forall k, (k < length w)%nat -> nz w' k = nz w k + rw * residual w b x y * nz x k) /\ b' = b + rb * residual w b x y.
(** Steps over the examples in order; [c] is the sum of the squared errors met. *)
Inductive lms_steps (rw rb : R) : list (list R * R) -> list R -> R -> list R -> R -> R -> Prop :=
| ls_nil w b : lms_steps rw rb [] w b w b 0
| ls_cons x y l w b w1 b1 w2 b2 c : lms_moves rw rb x y w b w1 b1 -> lms_steps rw rb l w1 b1 w2 b2 c ->
    lms_steps rw rb ((x, y) :: l) w b w2 b2 (residual w b x y * residual w b x y + c).
(** [costs]: passes over the data, half the sum of squared errors of each, last first. *)
Inductive lms_passes (rw rb : R) (data : list (list R * R)) : list R -> R -> list R -> R -> list R -> Prop :=
| lp_nil w b : lms_passes rw rb data w b w b []
| lp_snoc w b w1 b1 w2 b2 costs c : lms_passes rw rb data w b w1 b1 costs -> lms_steps rw rb data w1 b1 w2 b2 c ->
    lms_passes rw rb data w b w2 b2 (c / 2 :: costs).
