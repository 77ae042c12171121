(** Model of /repo/subprojects/ufjfmltk-valid/include/ufjfmltk/valid/Validation.hpp.
    Random choices are given by [sh]: [sh site n] is the permutation std::shuffle applies to [n]
    elements at the [site]-th shuffle of the call. Doubles are real numbers; a division by zero
    (NaN or infinity in the code) is [None]. Dataset names, verbosity and timing are not modelled. *)
From Coq Require Import ZArith Bool List Reals.
From Verif Require Import Base M_Data.
Import ListNotations.

(** a / b on doubles. Validation.hpp:408, 504-579, 604-637. *)
Definition rdiv (a b : R) : option R := if Req_EM_T b 0 then None else Some (a / b)%R.

Section Valid.
Context {T : Type}.

(** Validation.hpp:476-482: the joining loop, [steps] iterations from fold [j]; returns next_j too. *)
Fixpoint kf_join (steps j folds : nat) (parts : list (data T)) (train : data T) (next_j : nat)
  : outcome (data T * nat) :=
  match steps with
  | O => Ok (train, next_j)
  | S s =>
    let* p := vget parts j in
    let* t := join train p in
    kf_join s (Nat.modulo (j + 1) folds) folds parts t (Nat.modulo (j + 1) folds)
  end.

(** Validation.hpp:472-500: the body of the loop for fold [i]; the TrainTestPair constructor
    (Validation.hpp:86-89) copies both datasets. *)
Definition kf_pair (sh : nat -> nat -> list nat) (folds : nat) (parts : list (data T)) (i : nat)
  : outcome (data T * data T) :=
  let* p := vget parts i in
  let* t0 := join data_empty p in
  let* r := kf_join (folds - 2) (Nat.modulo (i + 1) folds) folds parts t0 (Nat.modulo (i + 2) folds) in
  let* te := vget parts (Nat.modulo (snd r) folds) in
  let* tr' := shuffle (sh (2 * i + 1)%nat (size (fst r))) (fst r) in
  let* te' := shuffle (sh (2 * i + 2)%nat (size te)) (copy te) in
  Ok (copy (resetIndex tr'), copy (resetIndex te')).

(** Validation.hpp:461-502: kfoldsplit(data, folds, stratified, keepIndex, seed).
    With folds = 1 the bound folds-2 is 2^64-1 and the int counter overflows. *)
Definition kfoldsplit (sh : nat -> nat -> list nat) (d : data T) (folds : nat) (stratified keepIndex : bool)
  : outcome (list (data T * data T)) :=
  let samples := copy d in
  let* parts := splitSample (sh O (size samples)) samples folds stratified keepIndex in
  if Nat.eqb folds 1 then UB
  else map_outcome (kf_pair sh folds parts) (seq 0 folds).

(** Validation.hpp:441-459: kfoldsplit(samples, folds, qtde, ...): (execution, fold, pair).
    [sh e] is the randomness of execution [e]. *)
Definition kkfoldsplit (sh : nat -> nat -> nat -> list nat) (d : data T) (folds qtde : nat) (stratified keepIndex : bool)
  : outcome (list (nat * nat * (data T * data T))) :=
  let* l := map_outcome (fun e =>
      let* ps := kfoldsplit (sh e) d folds stratified keepIndex in
      Ok (combine (combine (repeat (S e) folds) (seq 1 folds)) ps)) (seq 0 qtde) in
  Ok (concat l).

(** Validation.hpp:420-431: inserting all points of a list of datasets into a new one. *)
Fixpoint insert_points (keepIndex : bool) (pts : list (point T)) (d : data T) : outcome (data T) :=
  match pts with
  | [] => Ok d
  | p :: r => let* o := insertPoint d p keepIndex in insert_points keepIndex r (fst o)
  end.

(** Validation.hpp:413-439: partTrainTest(data, fold, stratified, keepIndex, seed). The code inserts
    the fold's point objects, so the renumbering of ids (keepIndex = false) is visible in the result only. *)
Definition partTrainTest (sh : nat -> nat -> list nat) (d : data T) (fold : nat) (stratified keepIndex : bool)
  : outcome (data T * data T) :=
  let samples := copy d in
  let* folds := splitSample (sh O (size samples)) samples fold stratified keepIndex in
  let* lastf := vget folds (length folds - 1) in
  let* train := insert_points keepIndex (flat_map d_points (removelast folds)) data_empty in
  let* test := insert_points keepIndex (d_points lastf) data_empty in
  let* train' := shuffle (sh 1%nat (size train)) train in
  let* test' := shuffle (sh 2%nat (size test)) test in
  Ok (train', test').

(** Validation.hpp:588-599: the scan over the classes that finds idp and idy (both start at 0 and
    the scan stops early once both are non-zero). *)
Fixpoint cm_scan (classes : list Z) (j : nat) (pred y : Z) (idp idy : nat) : nat * nat :=
  match classes with
  | [] => (idp, idy)
  | c :: r =>
    let idp' := if Z.eqb c pred then j else idp in
    let idy' := if Z.eqb c y then j else idy in
    if negb (Nat.eqb idp' 0) && negb (Nat.eqb idy' 0) then (idp', idy')
    else cm_scan r (S j) pred y idp' idy'
  end.

(** confusion_m[i][j]++ Validation.hpp:599. *)
Definition cm_incr (i j : nat) (m : list (list nat)) : outcome (list (list nat)) :=
  let* row := vget m i in
  let* row' := vupd j S row in
  vupd i (fun _ => row') m.

(** Validation.hpp:581-602: generateConfusionMatrix; [pred] is the learner (its double answer
    converted to int). *)
Fixpoint cm_loop (classes : list Z) (pred : point T -> Z) (pts : list (point T)) (m : list (list nat))
  : outcome (list (list nat)) :=
  match pts with
  | [] => Ok m
  | p :: r =>
    let '(idp, idy) := cm_scan classes 0 (pred p) (p_y p) 0 0 in
    let* m' := cm_incr idp idy m in
    cm_loop classes pred r m'
  end.
(** Validation.hpp:581-602. *)
Definition generateConfusionMatrix (d : data T) (pred : point T -> Z) : outcome (list (list nat)) :=
  let n := length (d_classes d) in
  cm_loop (d_classes d) pred (d_points d) (repeat (repeat O n) n).

(** Validation.hpp:517-530: accuracy(data, model, trained = true). *)
Definition accuracy (d : data T) (pred : point T -> Z) : option R :=
  rdiv (fold_left (fun acc p => if Z.eqb (pred p) (p_y p) then acc + 1 else acc)%R (d_points d) 0%R)
       (INR (size d)).
End Valid.

(** Validation.hpp:504-515: confusionMatrixAccuracy. *)
Definition cm_accuracy (m : list (list nat)) : option R :=
  let cells := concat (map (fun ir => map (fun jc => (fst ir, fst jc, snd jc))
                                          (combine (seq 0 (length (snd ir))) (snd ir)))
                           (combine (seq 0 (length m)) m)) in
  let errors := fold_left (fun e c => if Nat.eqb (fst (fst c)) (snd (fst c)) then e else (e + INR (snd c))%R) cells 0%R in
  let total := fold_left (fun t c => (t + INR (snd c))%R) cells 0%R in
  match rdiv errors total with None => None | Some q => Some ((1 - q) * 100)%R end.

(** ValidationReport, Validation.hpp:21-45: the fields set by the two report functions. *)
Record report : Type := mkReport {
  r_tp : nat; r_fp : nat; r_tn : nat; r_fn : nat;
  r_accuracy : option R; r_sensitivity : option R; r_specificity : option R; r_precision : option R }.

(** Validation.hpp:532-579: metricsReport. fscore and the derived error fields are in M_Rates.v. *)
Definition mr_flags (classes positive : list Z) : outcome (list bool) :=
  match positive with
  | [] => Ok (repeat true (length classes))
  | _ => fold_left (fun acc l => let* f := acc in
             let pos := find_pos l classes in
             if Nat.ltb pos (length classes) then vupd pos (fun _ => true) f else Abort)
           positive (Ok (repeat false (length classes)))
  end.
(** Validation.hpp:532-579: one cell of the matrix. *)
Definition mr_step (flags : list bool) (m : list (list nat)) (acc : outcome (nat * nat * nat * nat)) (ij : nat * nat)
  : outcome (nat * nat * nat * nat) :=
  let* (tp, fp, tn, fn) := acc in
  let* row := vget m (fst ij) in
  let* c := vget row (snd ij) in
  let* b := vget flags (fst ij) in
  Ok (if Nat.eqb (fst ij) (snd ij)
      then if b then (tp + c, fp, tn, fn)%nat else (tp, fp, tn + c, fn)%nat
      else if b then (tp, fp, tn, fn + c)%nat else (tp, fp + c, tn, fn)%nat).
(** Validation.hpp:532-579. *)
Definition metricsReport {T} (d : data T) (m : list (list nat)) (positive : list Z) : outcome report :=
  let* flags := mr_flags (d_classes d) positive in
  let n := length m in
  let* (tp, fp, tn, fn) := fold_left (mr_step flags m) (list_prod (seq 0 n) (seq 0 n)) (Ok (0, 0, 0, 0)%nat) in
  Ok (mkReport tp fp tn fn (rdiv (INR tp) (INR (size d)))
               (rdiv (INR tp) (INR (tp + fn))) (rdiv (INR tn) (INR (tn + fp))) (rdiv (INR tp) (INR (tp + fp)))).

(** Validation.hpp:604-637: classificationReport. The ratios are size_t divisions: a zero divisor is
    undefined behaviour and the quotient is an integer. fscore (a real division) is in M_Rates.v. *)
Definition cr_labels (real pred : list Z) : list Z := nodup Z.eq_dec (real ++ pred).
(** Validation.hpp:604-637: one pair of labels. *)
Definition cr_step (two : bool) (s : nat * (nat * nat * nat * nat)) (rp : Z * Z) : nat * (nat * nat * nat * nat) :=
  let '(acc, (tp, fp, tn, fn)) := s in
  if Z.eqb (fst rp) (snd rp) then
    (S acc, if two then (if Z.eqb (fst rp) 1 then (S tp, fp, tn, fn) else (tp, fp, S tn, fn)) else (tp, fp, tn, fn))
  else
    (acc, if two then (if Z.eqb (fst rp) 1 then (tp, fp, tn, S fn) else (tp, S fp, tn, fn)) else (tp, fp, tn, fn)).
(** Validation.hpp:604-637. *)
Definition classificationReport (real pred : list Z) : outcome report :=
  if negb (Nat.eqb (length real) (length pred)) then Abort
  else
    let two := Nat.eqb (length (cr_labels real pred)) 2 in
    let '(acc, (tp, fp, tn, fn)) := fold_left (cr_step two) (combine real pred) (O, (0, 0, 0, 0)%nat) in
    if Nat.eqb (tp + fn) 0 || Nat.eqb (fn + tn) 0 || Nat.eqb (tp + fp) 0 then UB
    else Ok (mkReport tp fp tn fn (rdiv (INR acc) (INR (length real)))
                      (Some (INR (tp / (tp + fn)))) (Some (INR (tn / (fn + tn)))) (Some (INR (tp / (tp + fp))))).

(** Validation.hpp:311-411: kfold. The classifier is given by [train] (setSamples followed by train())
    and [evaluate]; [dual] is getFormulationString() == "Dual". Only error and accuracy are modelled.
    [sh O] shuffles the argument, the later sites are those of kfoldsplit. *)
Section KFold.
Context {T C : Type} (train : data T -> C) (evaluate : C -> point T -> Z).
(** error_arr[j], Validation.hpp:348-363, 377-391. *)
Definition wrong (c : C) (te : data T) : nat :=
  length (filter (fun p => negb (Z.eqb (p_y p) (evaluate c p))) (d_points te)).
(** What the classifier is trained on, Validation.hpp:337-341, 365-371. *)
Definition kf_training_set (dual : bool) (classes : list Z) (pair : data T * data T) : outcome (data T) :=
  if dual then
    let* j := join (copy (snd pair)) (fst pair) in Ok (setClasses j classes)
  else Ok (fst pair).
(** One fold, Validation.hpp:323-396. *)
Definition kf_error (dual : bool) (classes : list Z) (pair : data T * data T) : outcome (option R) :=
  let* ts := kf_training_set dual classes pair in
  Ok (match rdiv (INR (wrong (train ts) (snd pair))) (INR (size (snd pair))) with
      | Some q => Some (q * 100)%R | None => None end).
(** The sums over the folds, Validation.hpp:396. *)
Definition osum (l : list (option R)) : option R :=
  fold_right (fun a b => match a, b with Some x, Some y => Some (x + y)%R | _, _ => None end) (Some 0%R) l.
(** Validation.hpp:311-411. *)
Definition kfold (sh : nat -> nat -> list nat) (d : data T) (fold : nat) (stratified dual : bool)
  : outcome (option (R * R)) :=    (* (error, accuracy) *)
  let* s := shuffle (sh O (size d)) (copy d) in
  let* pairs := kfoldsplit (fun a => sh (S a)) s fold stratified true in
  let* errs := map_outcome (kf_error dual (d_classes d)) pairs in
  Ok (match osum errs with
      | Some e => match rdiv e (INR fold) with Some q => Some (q, (100 - q)%R) | None => None end
      | None => None end).
End KFold.
