(** Model of the evaluation of whole datasets: /repo/subprojects/ufjfmltk-core/include/ufjfmltk/core/Learner.hpp:217-224 and
    /repo/subprojects/ufjfmltk-classifier/include/ufjfmltk/classifier/Classifier.hpp:42, 82-89. The learner is a state and its evaluation, which may change the state; std::transform goes from front to back. *)
From Coq Require Import ZArith Bool List Reals.
From Verif Require Import Base Loop M_Data M_Mod M_IntStat M_IntArith.
Import ListNotations.

(** Learner.hpp:219-223: the answers are written to the coordinates of a point of as many coordinates as there are points (Data.hpp:208, 501-503). *)
Fixpoint batch {L : Type} (ev : L -> point R -> outcome (L * R)) (s : L) (pts : list (point R)) : outcome (L * list R) :=
  match pts with
  | [] => Ok (s, [])
  | p :: r => let* a := ev s p in let* b := batch ev (fst a) r in Ok (fst b, snd a :: snd b)
  end.
(** Learner.hpp:217-224. *)
Definition batchEvaluate {L : Type} (ev : L -> point R -> outcome (L * R)) (s : L) (d : data R) : outcome (L * list R) := batch ev s (d_points d).
(** Classifier.hpp:84-88: the same with evaluateProbability, into an int point: each answer is converted when it is written. *)
Fixpoint batch_int {L : Type} (ev : L -> point R -> outcome (L * R)) (s : L) (pts : list (point R)) : outcome (L * list Z) :=
  match pts with
  | [] => Ok (s, [])
  | p :: r => let* a := ev s p in let* z := cut (snd a) in let* b := batch_int ev (fst a) r in Ok (fst b, z :: snd b)
  end.
(** Classifier.hpp:82-89. *)
Definition batchEvaluateProbability {L : Type} (ev : L -> point R -> outcome (L * R)) (s : L) (d : data R) : outcome (L * list Z) := batch_int ev s (d_points d).
(** Classifier.hpp:42: no class of the library overrides it. *)
Definition evaluateProbability {L : Type} (s : L) (p : point R) : outcome (L * R) := Ok (s, 0%R).
