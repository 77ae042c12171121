(** Specification vocabulary for the statistics of int points: the textbook quantities over the reals. *)
From Coq Require Import ZArith List Reals.
Import ListNotations.
Local Open Scope R_scope.

Fixpoint total (l : list R) : R := match l with [] => 0 | v :: r => v + total r end.
(** The mean, the variance (divisor n) and the covariance (divisor n - 1). *)
Definition true_mean (x : list Z) : R := total (map IZR x) / INR (length x).
Definition true_var (x : list Z) : R := total (map (fun v => (IZR v - true_mean x) * (IZR v - true_mean x)) x) / INR (length x).
Definition true_cov (x y : list Z) : R := total (map (fun p => (IZR (fst p) - true_mean x) * (IZR (snd p) - true_mean y)) (combine x y)) / (INR (length x) - 1).
(** The coordinates are so small that no int overflows on the way. *)
Definition small (B : Z) (x : list Z) : Prop := (forall v, In v x -> (Z.abs v <= B)%Z) /\ (0 <= B)%Z /\ (4 * Z.of_nat (length x) * (B * B) <= 2 ^ 31 - 1)%Z.
