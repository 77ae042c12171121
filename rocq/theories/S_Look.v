(** Specification of the look-ahead of the admissible ordered search. *)
From Coq Require Import ZArith Bool List Reals Permutation.
From Verif Require Import Base M_Data M_Pq S_Pq M_Aos S_Aos.
Import ListNotations.
Local Open Scope nat_scope.

(** [i] is the first of the positions below [m] at which [w] has its least absolute value. *)
Definition least_first (w : list R) (m i : nat) : Prop :=
  i < m /\ (forall j, j < m -> (Rabs (nth i w 0) <= Rabs (nth j w 0))%R) /\ (forall j, j < i -> (Rabs (nth i w 0) < Rabs (nth j w 0))%R).
(** The weights used at turn [j]: those of the node, and for a primal classifier, from the second turn on, those of the training before. *)
Definition weights_at (primal : bool) (tr : nat -> data R -> bool * (list R * R)) (n : nat) (d : data R) (w : list R) (j : nat) : list R :=
  match j with 0 => w | S i => if primal then fst (snd (tr (n + i) d)) else w end.
(** How many turns there are: the depth asked for, but one feature stays, and no node is below the last level. *)
Definition look_turns (lad dm dn : nat) : nat := Nat.min lad (Nat.min (dm - 1) dn).
(** A node with the features of [f] removed, and the margin [m]. *)
Definition look_node (f : list Z) (m : R) (nd : node) : Prop :=
  desc (n_fnames nd) /\ Permutation (n_fnames nd) f /\ n_level nd = length f /\ n_value nd = m /\ n_rgamma nd = m.
(** The weights of all features but the last and [f]. *)
Definition kept_weights (d : data R) (w : list R) (f : Z) : list R :=
  map (fun p => nth p w 0%R) (filter (fun p => negb (Z.eqb (nth p (d_fnames d) 0%Z) f)) (seq 0 (length (d_fnames d) - 1))).
(** What is handed to a training after [m] features [fs] are taken: nothing to a dual classifier; to a primal one those of all turns so far, one after the other. *)
Definition handed (primal : bool) (tr : nat -> data R -> bool * (list R * R)) (n : nat) (d : data R) (w : list R) (fs : list Z) (m : nat) : list R :=
  if primal then flat_map (fun i => kept_weights d (weights_at primal tr n d w i) (nth i fs 0%Z)) (seq 0 m) else [].
