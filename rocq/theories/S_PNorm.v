(** Specification vocabulary for the norms of points. *)
From Coq Require Import ZArith List Reals.
Import ListNotations.
Local Open Scope R_scope.

(** Sum of the n-th powers of the absolute values. *)
Fixpoint power_sum (n : nat) (x : list R) : R := match x with [] => 0 | v :: r => Rabs v ^ n + power_sum n r end.
(** [r] is the n-norm of [x]. *)
Definition is_norm (n : nat) (x : list R) (r : R) : Prop := 0 <= r /\ r ^ n = power_sum n x.
(** Coordinate-wise sum of two points of one dimension. *)
Fixpoint plus (x y : list R) : list R := match x, y with a :: x, b :: y => (a + b) :: plus x y | _, _ => [] end.
(** The same sum of powers for integers, and the number of coordinates that are not 0. *)
Fixpoint zpower_sum (n : nat) (x : list Z) : Z := match x with [] => 0 | v :: r => Z.abs v ^ Z.of_nat n + zpower_sum n r end%Z.
Definition nonzeros (x : list Z) : nat := length (filter (fun v => negb (Z.eqb v 0)) x).
