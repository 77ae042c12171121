(** Model of the remaining fields of the reports of /repo/subprojects/ufjfmltk-valid/include/ufjfmltk/valid/Validation.hpp and of their printing, over the reals.
    M_Valid.v has the counters and the rates; [None] is a value that is not a number. *)
From Coq Require Import ZArith List Reals Bool String.
From Verif Require Import Base M_Data M_Valid.
Import ListNotations.
Local Open Scope nat_scope.

(** Validation.hpp:21-32: the counters and rates, then error, errors, recall and fscore. *)
Record rates : Type := mkRates { q_base : report; q_error : option R; q_errors : nat; q_recall : option R; q_fscore : option R }.
(** Validation.hpp:576, 635: 2 * precision * recall / (precision + recall). *)
Definition fscore_of (p r : option R) : option R := match p, r with Some a, Some b => rdiv (2 * a * b) (a + b) | _, _ => None end.
(** Validation.hpp:569-576. *)
Definition metricsRates {T} (d : data T) (m : list (list nat)) (positive : list Z) : outcome rates :=
  let* r := metricsReport d m positive in
  Ok (mkRates r (match r_accuracy r with Some a => Some (1 - a)%R | None => None end) (r_fp r + r_fn r) (r_sensitivity r) (fscore_of (r_precision r) (r_sensitivity r))).
(** Validation.hpp:604-637: error and errors keep their initial 0. *)
Definition classificationRates (real pred : list Z) : outcome rates :=
  let* r := classificationReport real pred in
  Ok (mkRates r (Some 0%R) 0 (Some (INR (r_tp r / (r_tp r + r_fn r)))) (fscore_of (r_precision r) (Some (INR (r_tp r / (r_tp r + r_fn r)))))).
(** Validation.hpp:46-55: print(), the text of each line and the number after it. *)
Definition rate_lines (q : rates) : list (string * option R) :=
  let r := q_base q in
  [("True positives", Some (INR (r_tp r))); ("True negatives", Some (INR (r_tn r))); ("False positives", Some (INR (r_fp r))); ("False negatives", Some (INR (r_fn r)));
   ("Precision", r_precision r); ("Recall", r_precision r); ("F1-score", r_precision r); ("Accuracy", r_accuracy r)]%string.
