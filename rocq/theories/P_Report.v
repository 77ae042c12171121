(** Property theorems: Properties of the reports of kfold and kkfold.
    Each is closed by the lemma of the same (lower-case) name in T_Report.v. *)
From Coq Require Import ZArith Bool Permutation Lia List Reals Lra.
From Verif Require Import Base ListLib M_Data S_Data L_Data L_Data2 L_Insert L_Split T_Data M_Valid L_Valid T_Valid T_Valid2 T_Valid3 M_Report S_Report.
From Verif Require Import T_Report.
Import ListNotations.
Open Scope nat_scope.

(** C97: with two classes the report of kfold is made of the folds' cumulated counts: field by field, the sum over j of the counts, and of the shares, over the first j folds. *)
Theorem C97_report : forall (T C : Type) (train : data T -> C) (evaluate : C -> point T -> Z) (sh : nat -> nat -> list nat) (d : data T) (folds : nat) (stratified : bool),
  data_ok d -> 3 <= folds <= size d -> length (d_classes d) = 2 -> (forall site m, Permutation (sh site m) (seq 0 m)) ->
  exists (pairs : list (data T * data T)) (left_out : list (point T)) (e : R) (rep : kreport),
    kfold_report train evaluate sh d folds stratified false = Ok rep /\
    kfold train evaluate sh d folds stratified false = Ok (Some (e, (100 - e)%R)) /\ kr_error rep = Some e /\ kr_accuracy rep = Some (100 - e)%R /\
    e = (rsum (map (pct train evaluate) pairs) / INR folds)%R /\
    length pairs = folds /\ length left_out = (if stratified then 0 else size d mod folds) /\
    (forall tr te, In (tr, te) pairs -> d_points te <> [] /\
        Permutation (map content (d_points tr) ++ map content (d_points te) ++ map content left_out) (map content (d_points d))) /\
    Permutation (flat_map (fun p => map content (d_points (snd p))) pairs ++ map content left_out) (map content (d_points d)) /\
    let after j := answers train evaluate (firstn j pairs) in
    kr_tp rep = upto folds (fun j => num true_pos (after j)) /\ kr_fp rep = upto folds (fun j => num false_pos (after j)) /\
    kr_tn rep = upto folds (fun j => num true_neg (after j)) /\ kr_fn rep = upto folds (fun j => num false_neg (after j)) /\
    kr_precision rep = (if Nat.eqb (num true_pos (after 1) + num false_pos (after 1)) 0 then None else Some (rupto folds (fun j => share true_pos false_pos (after j)))) /\
    kr_recall rep = (if Nat.eqb (num true_pos (after 1) + num false_neg (after 1)) 0 then None else Some (rupto folds (fun j => share true_pos false_neg (after j)))) /\
    kr_tnrate rep = (if Nat.eqb (num true_neg (after 1) + num false_pos (after 1)) 0 then None else Some (rupto folds (fun j => share true_neg false_pos (after j)))).
Proof. exact c97_report. Qed.
Print Assumptions C97_report.

(** C97: the four counts of the report never add up to the number of points tested: they exceed the size of the data. *)
Theorem C97_counts_refuted : forall (T C : Type) (train : data T -> C) (evaluate : C -> point T -> Z) (sh : nat -> nat -> list nat) (d : data T) (folds : nat) (stratified : bool),
  data_ok d -> 3 <= folds <= size d -> length (d_classes d) = 2 -> (forall site m, Permutation (sh site m) (seq 0 m)) ->
  exists rep, kfold_report train evaluate sh d folds stratified false = Ok rep /\ size d < kr_tp rep + kr_fp rep + kr_tn rep + kr_fn rep.
Proof. exact c97_counts_refuted. Qed.
Print Assumptions C97_counts_refuted.

(** C97: a classifier that never errs is not reported with precision and recall 1: they are the number of folds, or not a number. *)
Theorem C97_perfect_refuted : forall (T C : Type) (train : data T -> C) (evaluate : C -> point T -> Z) (sh : nat -> nat -> list nat) (d : data T) (folds : nat) (stratified : bool),
  data_ok d -> 3 <= folds <= size d -> length (d_classes d) = 2 -> (forall site m, Permutation (sh site m) (seq 0 m)) -> (forall c p, evaluate c p = p_y p) ->
  exists rep, kfold_report train evaluate sh d folds stratified false = Ok rep /\ kr_error rep = Some 0%R /\ kr_accuracy rep = Some 100%R /\
    (kr_precision rep = None \/ kr_precision rep = Some (INR folds)) /\ (kr_recall rep = None \/ kr_recall rep = Some (INR folds)).
Proof. exact c97_perfect_refuted. Qed.
Print Assumptions C97_perfect_refuted.

(** C97: with two classes none of which is -1 there are no negatives at all: the true negative rate is not a number. *)
Theorem C97_no_negative_refuted : forall (T C : Type) (train : data T -> C) (evaluate : C -> point T -> Z) (sh : nat -> nat -> list nat) (d : data T) (folds : nat) (stratified : bool),
  data_ok d -> 3 <= folds <= size d -> length (d_classes d) = 2 -> (forall site m, Permutation (sh site m) (seq 0 m)) -> (forall p, In p (d_points d) -> p_y p <> (-1)%Z) ->
  exists rep, kfold_report train evaluate sh d folds stratified false = Ok rep /\ kr_tnrate rep = None /\ kr_fp rep = 0 /\ kr_tn rep = 0.
Proof. exact c97_no_negative_refuted. Qed.
Print Assumptions C97_no_negative_refuted.

(** C97: with any other number of classes the fields other than error and accuracy stay 0. *)
Theorem C97_other_classes : forall (T C : Type) (train : data T -> C) (evaluate : C -> point T -> Z) (sh : nat -> nat -> list nat) (d : data T) (folds : nat) (stratified dual : bool) (rep : kreport),
  length (d_classes d) <> 2 -> kfold_report train evaluate sh d folds stratified dual = Ok rep ->
  kr_precision rep = Some 0%R /\ kr_recall rep = Some 0%R /\ kr_tnrate rep = Some 0%R /\ kr_tp rep = 0 /\ kr_fp rep = 0 /\ kr_tn rep = 0 /\ kr_fn rep = 0.
Proof. exact c97_other_classes. Qed.
Print Assumptions C97_other_classes.

(** C98: kkfold reports the mean of the errors of its k-fold executions, each on its own shuffle, and its complement; precision, recall, true negative rate and the counts are 0 whatever the classifier.
    The classifier is left trained on the training part of one more, stratified, split. *)
Theorem C98_mean : forall (T C : Type) (train : data T -> C) (evaluate : C -> point T -> Z) (sh : nat -> nat -> nat -> list nat) (d : data T) (qtde folds : nat) (stratified : bool),
  data_ok d -> 3 <= folds <= size d -> 1 <= qtde -> (forall i site m, Permutation (sh i site m) (seq 0 m)) ->
  exists (rep : kreport) (es : list R) (tr te : data T),
    kkfold train evaluate sh d qtde folds stratified false = Ok (rep, train tr) /\ length es = qtde /\
    (forall k e, nth_error es k = Some e -> kfold train evaluate (sh (S k)) d folds stratified false = Ok (Some (e, (100 - e)%R))) /\
    kr_error rep = Some (rsum es / INR qtde)%R /\ kr_accuracy rep = Some (100 - rsum es / INR qtde)%R /\ (0 <= rsum es / INR qtde <= 100)%R /\
    kr_precision rep = Some 0%R /\ kr_recall rep = Some 0%R /\ kr_tnrate rep = Some 0%R /\ kr_tp rep = 0 /\ kr_fp rep = 0 /\ kr_tn rep = 0 /\ kr_fn rep = 0 /\
    Permutation (d_points tr ++ d_points te) (d_points d) /\ size d / folds <= size te <= size d / folds + 1 /\ d_classes tr = d_classes d.
Proof. exact c98_mean. Qed.
Print Assumptions C98_mean.

(** C98: with no execution the report says both that no answer is wrong and that none is right. *)
Theorem C98_no_execution_refuted : forall (T C : Type) (train : data T -> C) (evaluate : C -> point T -> Z) (sh : nat -> nat -> nat -> list nat) (d : data T) (folds : nat) (stratified : bool),
  data_ok d -> 1 <= folds -> (forall i site m, Permutation (sh i site m) (seq 0 m)) ->
  exists rep c, kkfold train evaluate sh d 0 folds stratified false = Ok (rep, c) /\ kr_error rep = Some 0%R /\ kr_accuracy rep = Some 0%R.
Proof. exact c98_no_execution_refuted. Qed.
Print Assumptions C98_no_execution_refuted.

(** C98: with one fold the call is undefined behaviour. *)
Theorem C98_one_fold_refuted : forall (T C : Type) (train : data T -> C) (evaluate : C -> point T -> Z) (sh : nat -> nat -> nat -> list nat) (d : data T) (qtde : nat),
  data_ok d -> 1 <= qtde -> (forall i site m, Permutation (sh i site m) (seq 0 m)) -> kkfold train evaluate sh d qtde 1 true false = UB.
Proof. exact c98_one_fold_refuted. Qed.
Print Assumptions C98_one_fold_refuted.

Example C97_report_ex : data_ok ex5 /\ 3 <= 3 <= size ex5 /\ length (d_classes ex5) = 2 /\ (forall m, Permutation (rev (seq 0 m)) (seq 0 m)).
Proof. exact c97_report_ex. Qed.

Example C97_perfect_ex : exists rep, kfold_report (fun _ : data Z => tt) (fun _ p => p_y p) (fun _ m => seq 0 m) ex5 3 true false = Ok rep /\ (kr_precision rep = None \/ kr_precision rep = Some (INR 3)).
Proof. exact c97_perfect_ex. Qed.

Example C98_mean_ex : data_ok ex5 /\ 3 <= 3 <= size ex5 /\ 1 <= 2 /\ (forall m, Permutation (rev (seq 0 m)) (seq 0 m)).
Proof. exact c98_mean_ex. Qed.

Example C97_no_negative_ex : data_ok ex5 /\ length (d_classes ex5) = 2 /\ (forall p, In p (d_points ex5) -> p_y p <> (-1)%Z).
Proof. exact c97_no_negative_ex. Qed.

(** C98: with no folds kkfold divides by zero before it runs anything, whatever the data and the number of executions. *)
Theorem C98_zero_folds_refuted : forall (T C : Type) (train : data T -> C) (evaluate : C -> point T -> Z) (sh : nat -> nat -> nat -> list nat) (d : data T) (qtde : nat) (stratified dual : bool),
  kkfold train evaluate sh d qtde 0 stratified dual = UB.
Proof. exact c98_zero_folds_refuted. Qed.
Print Assumptions C98_zero_folds_refuted.

