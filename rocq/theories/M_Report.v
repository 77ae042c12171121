(** Model of the reports of kfold and kkfold, /repo/subprojects/ufjfmltk-valid/include/ufjfmltk/valid/Validation.hpp:200-411.
    As in M_Valid.v the classifier is given by [train] (setSamples followed by train()) and [evaluate], random choices by [sh],
    doubles are real numbers and a number that is not finite is [None]. Verbosity is not modelled. *)
From Coq Require Import ZArith Bool List Reals.
From Verif Require Import Base M_Data M_Valid.
Import ListNotations.

(** ValidationReport, Validation.hpp:21-45: the fields kfold and kkfold set. The others keep their defaults. *)
Record kreport : Type := mkKr {
  kr_error : option R; kr_accuracy : option R; kr_precision : option R; kr_recall : option R; kr_tnrate : option R;
  kr_fn : nat; kr_fp : nat; kr_tn : nat; kr_tp : nat }.
(** Validation.hpp:24-44: a report as it is constructed. *)
Definition kr_default : kreport := mkKr (Some 0%R) (Some 0%R) (Some 0%R) (Some 0%R) (Some 0%R) 0 0 0 0.
(** a + b on doubles, Validation.hpp:396-401. *)
Definition oadd (a b : option R) : option R := match a, b with Some x, Some y => Some (x + y)%R | _, _ => None end.

Section Report.
Context {T C : Type} (train : data T -> C) (evaluate : C -> point T -> Z).

(** Validation.hpp:348-362, 377-391: the counters (tp, fp, tn, fn) after one test point; [two] is classes.size() == 2. *)
Definition kr_count (two : bool) (c : C) (s : nat * nat * nat * nat) (p : point T) : nat * nat * nat * nat :=
  let '(tp, fp, tn, fn) := s in
  if Z.eqb (p_y p) (evaluate c p)
  then (if two && Z.eqb (p_y p) (-1) then (tp, fp, S tn, fn) else (S tp, fp, tn, fn))
  else (if two && Z.eqb (p_y p) (-1) then (tp, S fp, tn, fn) else (tp, fp, tn, S fn)).

(** Validation.hpp:397-406: what the counters add to the report after a fold. The accuracy accumulated here is overwritten at 409. *)
Definition kr_add (two : bool) (s : nat * nat * nat * nat) (r : kreport) : kreport :=
  let '(tp, fp, tn, fn) := s in
  if two then
    mkKr (kr_error r) (oadd (kr_accuracy r) (rdiv (INR (tp + tn)) (INR (tp + tn + fp + fn))))
      (oadd (kr_precision r) (rdiv (INR tp) (INR (tp + fp)))) (oadd (kr_recall r) (rdiv (INR tp) (INR (tp + fn))))
      (oadd (kr_tnrate r) (rdiv (INR tn) (INR (tn + fp))))
      (kr_fn r + fn) (kr_fp r + fp) (kr_tn r + tn) (kr_tp r + tp)
  else r.

(** Validation.hpp:323-407: one fold. The counters are declared in the head of the loop over the folds: they are not reset between folds.
    The third component is the variable error. *)
Definition kr_fold (dual : bool) (classes : list Z) (st : (nat * nat * nat * nat) * kreport * option R) (pair : data T * data T)
  : outcome ((nat * nat * nat * nat) * kreport * option R) :=
  let '(s, r, e) := st in
  let* ts := kf_training_set dual classes pair in
  let c := train ts in
  let two := Nat.eqb (length classes) 2 in
  let s' := fold_left (kr_count two c) (d_points (snd pair)) s in
  let e' := match rdiv (INR (wrong evaluate c (snd pair))) (INR (size (snd pair))) with Some q => oadd e (Some (q * 100)%R) | None => None end in
  Ok (s', kr_add two s' r, e').

(** Validation.hpp:323-407: the loop over the folds. *)
Fixpoint kr_folds (dual : bool) (classes : list Z) (pairs : list (data T * data T)) (st : (nat * nat * nat * nat) * kreport * option R)
  : outcome ((nat * nat * nat * nat) * kreport * option R) :=
  match pairs with
  | [] => Ok st
  | p :: l => let* st' := kr_fold dual classes st p in kr_folds dual classes l st'
  end.

(** Validation.hpp:311-411: kfold and its report. *)
Definition kfold_report (sh : nat -> nat -> list nat) (d : data T) (fold : nat) (stratified dual : bool) : outcome kreport :=
  let* s := shuffle (sh O (size d)) (copy d) in
  let* pairs := kfoldsplit (fun a => sh (S a)) s fold stratified true in
  let* (_, r, e) := kr_folds dual (d_classes d) pairs ((0, 0, 0, 0)%nat, kr_default, Some 0%R) in
  let er := match e with Some x => rdiv x (INR fold) | None => None end in
  Ok (mkKr er (match er with Some x => Some (100 - x)%R | None => None end) (kr_precision r) (kr_recall r) (kr_tnrate r) (kr_fn r) (kr_fp r) (kr_tn r) (kr_tp r)).

(** Validation.hpp:217-221: the errors of the executions, summed. [sh (S i)] is the randomness of execution [i]. *)
Fixpoint kk_sum (sh : nat -> nat -> nat -> list nat) (d : data T) (fold : nat) (stratified dual : bool) (n i : nat) (e : option R) : outcome (option R) :=
  match n with
  | O => Ok e
  | S n' => let* r := kfold_report (sh (S i)) d fold stratified dual in kk_sum sh d fold stratified dual n' (S i) (oadd e (kr_error r))
  end.

(** Validation.hpp:200-309: kkfold. Returns the report and the classifier as it is left: trained on the training part of a stratified split
    (with a dual classifier on both parts, 267-274). The evaluation of the test part (250-262, 280-295) only feeds local variables and messages.
    Lines 225-231 divide fields that are still 0 by qtde*fold; the counters' division (228-231) is one of integers. *)
Definition kkfold (sh : nat -> nat -> nat -> list nat) (d : data T) (qtde fold : nat) (stratified dual : bool) : outcome (kreport * C) :=
  let* vp := partTrainTest (sh O) d fold true true in
  let* rep := (match qtde with
    | O => Ok kr_default
    | S _ =>
        let* e := kk_sum sh d fold stratified dual qtde 0 (Some 0%R) in
        if Nat.eqb fold 0 then UB else
        let acc := match e with Some x => match rdiv x (INR qtde) with Some q => Some (100 - q)%R | None => None end | None => None end in
        let z := rdiv 0 (INR (qtde * fold)) in
        Ok (mkKr (match acc with Some a => Some (100 - a)%R | None => None end) acc z z z (0 / (qtde * fold)) (0 / (qtde * fold)) (0 / (qtde * fold)) (0 / (qtde * fold)))
    end) in
  let* ts := (if dual then kf_training_set true (d_classes d) vp else Ok (setClasses (fst vp) (d_classes d))) in
  Ok (rep, train ts).
End Report.
