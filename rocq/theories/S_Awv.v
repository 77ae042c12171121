(** Specification of automatic weighting. *)
From Coq Require Import ZArith Bool List Reals.
From Verif Require Import Base M_Data M_Ens S_Ens.
Import ListNotations.
Local Open Scope nat_scope.
(** The i-th weight vector drawn: m draws in a row; on request projected (C54 says what the projection is). *)
Definition initial (rr : nat -> R) (m : nat) (simplex : bool) (i : nat) (w : list R) : Prop :=
  if simplex then simplex_projection (map rr (seq (i * m) m)) = Ok w else w = map rr (seq (i * m) m).
(** Soft voting with the weights [w] by [m] members gets [n] of the points of [te] right. [fit i tr p]: the answer of member i, trained on [tr]. *)
Definition hits {T} (m : nat) (fit : nat -> data T -> point T -> Z) (tr te : data T) (w : list R) (n : nat) : Prop :=
  exists ans, Forall2 (fun p a => first_largest (d_classes tr) (weight_for w (map (fun i => fit i tr p) (seq 0 m))) a) (d_points te) ans /\
    n = length (filter (fun pa => Z.eqb (p_y (fst pa)) (snd pa)) (combine (d_points te) ans)).
(** Draws from [0,1). *)
Definition unit_draws (rr : nat -> R) : Prop := forall t, (0 <= rr t < 1)%R.
(** Every shuffle is a permutation of the positions. *)
Definition shufflers (gen : nat -> nat -> nat -> list nat) : Prop := forall s site m, Permutation.Permutation (gen s site m) (seq 0 m).
(** [v] is a crossing of the best vector [p0] with p3 + 0.8 (p1 - p2): every coordinate is one of the two, and at least one is of the second kind. *)
Definition crossed (m : nat) (p0 p1 p2 p3 v : list R) : Prop :=
  let mutant i := (nth i p3 0 + 8 / 10 * (nth i p1 0 - nth i p2 0))%R in
  length v = m /\ (forall i, i < m -> nth i v 0%R = nth i p0 0%R \/ nth i v 0%R = mutant i) /\ exists i, i < m /\ nth i v 0%R = mutant i.
(** The vector of absolute values, scaled to Euclidean length 1. *)
Definition scaled (v s : list R) : Prop := exists n, (0 < n)%R /\ (n * n = S_Ens.sum (map (fun a => a * a) v))%R /\ s = map (fun a => Rabs a / n)%R v.
