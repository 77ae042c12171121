(** Specification of k-means. *)
From Coq Require Import ZArith Bool List Reals.
From Verif Require Import L_Vec.
Import ListNotations.
Local Open Scope R_scope.

(** [j] is the first of the indices below [k] with the smallest value. *)
Definition first_min (k : nat) (far : nat -> R) (j : nat) : Prop :=
  (j < k)%nat /\ (forall i, (i < k)%nat -> far j <= far i) /\ (forall i, (i < j)%nat -> far j < far i).
(** The sum of coordinate [t] over a list of points given by position. *)
Fixpoint coord_sum (xs : list (list R)) (cl : list Z) (t : nat) : R :=
  match cl with [] => 0 | i :: r => nz (nth (Z.to_nat i) xs []) t + coord_sum xs r t end.
(** The nearest centre to a point, the first one on a tie. *)
Definition nearest (dist : list R -> list R -> R) (centers : list (list R)) (x : list R) (j : nat) : Prop := first_min (length centers) (fun c => dist x (nth c centers [])) j.
(** One step: coordinate [t] of the new centre [j] is the old one plus the sum over the points nearest to centre [j], divided by the number of these points. *)
Definition km_step (dist : list R -> list R -> R) (D : nat) (xs : list (list R)) (old new : list (list R)) : Prop :=
  length new = length old /\
  forall j, (j < length old)%nat -> length (nth j new []) = D /\ exists members, NoDup members /\ members <> [] /\
    (forall i, In i members <-> (0 <= i < Z.of_nat (length xs))%Z /\ nearest dist old (nth (Z.to_nat i) xs []) j) /\
    forall t, (t < D)%nat -> nz (nth j new []) t = (nz (nth j old []) t + coord_sum xs members t) / INR (length members).
(** The cost of a set of centres: the sum of the squared distances of the points to their nearest centres. *)
Fixpoint rsum (l : list R) : R := match l with [] => 0 | x :: r => x + rsum r end.
Definition km_cost (dist : list R -> list R -> R) (xs centers : list (list R)) (v : R) : Prop :=
  exists ds, Forall2 (fun x d => exists j, nearest dist centers x j /\ d = dist x (nth j centers [])) xs ds /\ v = rsum (map (fun d => d * d) ds).
(** A run from the centres [c] at step [s], when the cost of the previous step was [prev]: it goes on while there is time and the cost changes by more than EPS. *)
Inductive km_run (dist : list R -> list R -> R) (EPS : R) (late : nat -> bool) (D : nat) (xs : list (list R)) : nat -> R -> list (list R) -> list (list R) -> Prop :=
  | Run_late s prev c f : late s = true -> km_step dist D xs c f -> km_run dist EPS late D xs s prev c f
  | Run_still s prev c f v : late s = false -> km_step dist D xs c f -> km_cost dist xs c v -> Rabs (v - prev) <= EPS -> km_run dist EPS late D xs s prev c f
  | Run_on s prev c c' f v : late s = false -> km_step dist D xs c c' -> km_cost dist xs c v -> EPS < Rabs (v - prev) -> km_run dist EPS late D xs (S s) v c' f -> km_run dist EPS late D xs s prev c f.
