(** Specification of the multi-class wrappers. *)
From Coq Require Import ZArith List.
From Verif Require Import M_Data.
Import ListNotations.

(** The points with label +1 for class [c] and -1 for the others. *)
Definition one_against {T} (c : Z) (p q : point T) : Prop :=
  p_x q = p_x p /\ p_id q = p_id p /\ p_alpha q = p_alpha p /\ (p_y p = c -> p_y q = 1%Z) /\ (p_y p <> c -> p_y q = (-1)%Z).
(** Duels won by class [i] of [n]: in its own learner against j, and in j's learner against it. *)
Definition wins (n : nat) (says : nat -> nat -> bool) (i : nat) : nat :=
  length (filter (fun j => negb (Nat.eqb i j) && says i j)%bool (seq 0 n)) + length (filter (fun j => negb (Nat.eqb i j) && negb (says j i))%bool (seq 0 n)).
