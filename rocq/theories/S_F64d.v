(** Specification of distances in double precision. *)
From Coq Require Import ZArith Bool List Reals.
From Flocq Require Import Core BinarySingleNaN.
From Verif Require Import Base M_Data L_Vec M_F64 S_F64 M_F64d.
Import ListNotations.
Local Open Scope R_scope.

(** The three distances. *)
Inductive metric64 := Man | Che | Euc.
Definition dist64 (k : metric64) : list b64 -> list b64 -> outcome b64 := match k with Man => fmanhattan | Che => fchebyshev | Euc => feuclidean end.
(** A number or plus infinity, not negative. *)
Definition nonneg64 (x : b64) : Prop := is_nan x = false /\ Bsign x = false.
(** The exact distance of the points that the doubles stand for: the sum of the absolute differences, and the sum of their squares. *)
Definition exact_l1 (p q : list b64) : R := sumn (length p) (fun j => Rabs (at64 p j - at64 q j)).
Definition exact_sq (p q : list b64) : R := sumn (length p) (fun j => (at64 p j - at64 q j) * (at64 p j - at64 q j)).
(** All coordinates are finite. *)
Definition finite64 (p : list b64) : Prop := Forall fin p.
(** No coordinate difference is so small that its square is lost: each is 0 or at least 2^-500 in absolute value. *)
Definition spread (p q : list b64) : Prop := forall j, (j < length p)%nat -> at64 p j = at64 q j \/ bpow radix2 (-500) <= Rabs (at64 p j - at64 q j).
