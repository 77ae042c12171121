(** Property theorems: Proofs about the evaluation of whole datasets.
    Each is closed by the lemma of the same (lower-case) name in T_Batch.v. *)
From Coq Require Import ZArith Bool Reals Lia Lra List.
From Verif Require Import Base Loop M_Data M_Mod T_Mod M_IntStat T_IntStat M_IntArith T_IntArith M_Batch S_Batch.
From Verif Require Import T_Batch.
Import ListNotations.
Local Open Scope R_scope.

(** C152: a batch is the calls of evaluate for the points in their order, for every learner, also one that changes when asked; it fails only when one of the calls does. *)
Theorem C152_calls : forall (L : Type) (ev : L -> point R -> outcome (L * R)) (s t : L) (d : data R) (ys : list R), batchEvaluate ev s d = Ok (t, ys) <-> calls ev s (d_points d) t ys.
Proof. exact c152_calls. Qed.
Print Assumptions C152_calls.

Example C152_calls_ex : calls (fun (n : nat) (_ : point R) => Ok (S n, INR n)) 0%nat [mkPoint [1] 0%Z 1%Z 0; mkPoint [2] 0%Z 2%Z 0] 2%nat [INR 0; INR 1].
Proof. exact c152_calls_ex. Qed.

(** C152: for a learner that does not change, the i-th answer is that for the i-th point, whatever the others are. *)
Theorem C152_pure : forall (L : Type) (f : point R -> R) (s : L) (d : data R), batchEvaluate (fun s p => Ok (s, f p)) s d = Ok (s, map f (d_points d)).
Proof. exact c152_pure. Qed.
Print Assumptions C152_pure.

(** C152: batchEvaluateProbability loses every probability below 1: all answers are 0, and they are 0 for all classifiers of the library. *)
Theorem C152_prob_refuted : forall (L : Type) (f : point R -> R) (s : L) (d : data R), (forall p, In p (d_points d) -> 0 <= f p < 1) ->
  batchEvaluateProbability (fun s p => Ok (s, f p)) s d = Ok (s, map (fun _ => 0%Z) (d_points d)) /\ batchEvaluateProbability evaluateProbability s d = Ok (s, map (fun _ => 0%Z) (d_points d)).
Proof. exact c152_prob_refuted. Qed.
Print Assumptions C152_prob_refuted.

Example C152_prob_refuted_ex : forall p, In p [mkPoint [1] 0%Z 1%Z 0; mkPoint [2] 0%Z 2%Z 0] -> 0 <= nth 0 (p_x p) 0 / 3 < 1.
Proof. exact c152_prob_refuted_ex. Qed.

(** C152: with probabilities up to 1 the answer is 1 exactly for the certain points. *)
Theorem C152_certain : forall (L : Type) (f : point R -> R) (s : L) (d : data R), (forall p, In p (d_points d) -> 0 <= f p <= 1) ->
  exists ys, batchEvaluateProbability (fun s p => Ok (s, f p)) s d = Ok (s, ys) /\ Forall2 (fun p y => (y = 1%Z <-> f p = 1) /\ (y = 0%Z <-> f p < 1)) (d_points d) ys.
Proof. exact c152_certain. Qed.
Print Assumptions C152_certain.

Example C152_certain_ex : forall p, In p [mkPoint [1] 0%Z 1%Z 0; mkPoint [3] 0%Z 2%Z 0] -> 0 <= nth 0 (p_x p) 0 / 3 <= 1.
Proof. exact c152_certain_ex. Qed.

(** C152: also the batch of probabilities makes the calls one after the other; each answer loses its fraction, and none is lost when all are in the range of int. *)
Theorem C152_prob_calls : forall (L : Type) (ev : L -> point R -> outcome (L * R)) (s t : L) (d : data R),
  (forall zs, batchEvaluateProbability ev s d = Ok (t, zs) -> exists ys, calls ev s (d_points d) t ys /\ Forall2 (fun y z => Rabs (IZR z) <= Rabs y /\ Rabs (IZR z - y) < 1) ys zs) /\
  (forall ys, calls ev s (d_points d) t ys -> Forall (fun y => Rabs y < 2 ^ 31) ys -> exists zs, batchEvaluateProbability ev s d = Ok (t, zs)).
Proof. exact c152_prob_calls. Qed.
Print Assumptions C152_prob_calls.

Example C152_prob_calls_ex : calls (fun (n : nat) (_ : point R) => Ok (S n, INR n / 2)) 1%nat [mkPoint [1] 0%Z 1%Z 0; mkPoint [2] 0%Z 2%Z 0] 3%nat [INR 1 / 2; INR 2 / 2] /\ Forall (fun y => Rabs y < 2 ^ 31) [INR 1 / 2; INR 2 / 2].
Proof. exact c152_prob_calls_ex. Qed.

