(** Specification of voting, boosting and the simplex. *)
From Coq Require Import ZArith Bool List Reals.
From Verif Require Import L_Vec.
Import ListNotations.
Local Open Scope R_scope.

(** The total weight of the learners that answer [c]. *)
Fixpoint weight_for (weights : list R) (preds : list Z) (c : Z) : R :=
  match weights, preds with
  | w :: ws, p :: ps => (if Z.eq_dec p c then w else 0) + weight_for ws ps c
  | _, _ => 0
  end.
(** [c] is the first class of the largest value. *)
Definition first_largest (classes : list Z) (value : Z -> R) (c : Z) : Prop :=
  exists before after, classes = before ++ c :: after /\ (forall b, In b before -> value b < value c) /\ (forall a, In a after -> value a <= value c).
(** Number of learners that answer [c]. *)
Definition ballots (preds : list Z) (c : Z) : nat := count_occ Z.eq_dec preds c.

Fixpoint sum (l : list R) : R := match l with [] => 0 | x :: r => x + sum r end.
(** A probability distribution without zeros. *)
Definition distribution (w : list R) : Prop := Forall (fun x => 0 < x) w /\ sum w = 1.
Definition on_simplex (w : list R) : Prop := Forall (fun x => 0 <= x) w /\ sum w = 1.
(** The error of a learner is the share of the weight of the points it gets wrong; [good i] tells whether it is right on point i. *)
Definition wrong_weight (good : nat -> bool) (w : list R) : R := sum (map (fun i => if good i then 0 else nth i w 0) (seq 0 (length w))).
(** The multi-class exponential boosting rule (SAMME): the vote of a learner of error e among K classes. *)
Definition samme_alpha (K : nat) (e : R) : R := ln ((1 - e) / e) + ln (INR (K - 1)).
