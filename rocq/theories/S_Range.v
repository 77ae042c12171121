(** Specification for axis ranges and the decision surface. *)
From Coq Require Import ZArith Reals List Arith.
From Verif Require Import Base M_Data.
Import ListNotations.
Local Open Scope R_scope.

Definition whole (x : R) : Prop := exists k : Z, x = IZR k.
(** [m] is the least of the values. *)
Definition least (m : R) (v : list R) : Prop := In m v /\ forall x, In x v -> m <= x.
Definition greatest (m : R) (v : list R) : Prop := In m v /\ forall x, In x v -> x <= m.
(** Feature [i] is called [i + 1], as in a dataset just loaded. *)
Definition named_by_position (d : data R) : Prop := d_fnames d = map Z.of_nat (seq 1 (d_dim d)).
(** The [i]-th of [n] evenly spaced numbers from [lo] to [hi]. *)
Definition spaced (lo hi : R) (n i : nat) : R := lo + INR i * ((hi - lo) / INR (n - 1)).
