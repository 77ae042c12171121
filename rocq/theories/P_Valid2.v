(** Property theorems: Validation measures: accuracy, reports, cross-validation error (C58-C60, C70).
    Each is closed by the lemma of the same (lower-case) name in T_Valid2.v. *)
From Coq Require Import ZArith Bool Sorted Permutation Lia List Reals Lra.
From Verif Require Import Base ListLib M_Data S_Data L_Data L_Data2 L_Insert L_Split T_Data M_Valid L_Valid T_Valid.
From Verif Require Import T_Valid2.
Import ListNotations.
Open Scope nat_scope.

(** C58: accuracy() is the fraction of correctly predicted samples. *)
Theorem C58_accuracy : forall (T : Type) (d : data T) (pred : point T -> Z),
  d_points d <> [] ->
  accuracy d pred = Some (INR (length (filter (fun p => Z.eqb (pred p) (p_y p)) (d_points d))) / INR (size d))%R.
Proof. exact c58_accuracy. Qed.
Print Assumptions C58_accuracy.

(** C58: the accuracy of the confusion matrix is 100 times accuracy(). *)
Theorem C58_agreement : forall (T : Type) (d : data T) (pred : point T -> Z),
  class_ok d -> d_points d <> [] -> (forall p, In p (d_points d) -> In (pred p) (d_classes d)) ->
  exists m a, generateConfusionMatrix d pred = Ok m /\ accuracy d pred = Some a /\ cm_accuracy m = Some (100 * a)%R /\ (0 <= a <= 1)%R.
Proof. exact c58_agreement. Qed.
Print Assumptions C58_agreement.

Example C58_agreement_ex : class_ok ex5 /\ d_points ex5 <> [] /\ (forall p, In p (d_points ex5) -> In 1%Z (d_classes ex5)) /\ accuracy ex5 (fun _ => 1%Z) = Some (3 / 5)%R.
Proof. exact c58_agreement_ex. Qed.

(** C58: with no positive labels given, metricsReport's accuracy is the same number and its tp is the
    number of correct samples. *)
Theorem C58_metrics : forall (T : Type) (d : data T) (pred : point T -> Z),
  class_ok d -> d_points d <> [] -> (forall p, In p (d_points d) -> In (pred p) (d_classes d)) ->
  exists m rep, generateConfusionMatrix d pred = Ok m /\ metricsReport d m [] = Ok rep /\
    r_tp rep = length (filter (fun p => Z.eqb (pred p) (p_y p)) (d_points d)) /\
    r_accuracy rep = accuracy d pred.
Proof. exact c58_metrics. Qed.
Print Assumptions C58_metrics.

(** C58: with positive labels given, the correctly rejected samples are left out of the accuracy. *)
Theorem C58_metrics_refuted : exists (d : data Z) (pred : point Z -> Z) m rep, class_ok d /\
  (forall p, In p (d_points d) -> pred p = p_y p) /\ generateConfusionMatrix d pred = Ok m /\
  metricsReport d m [1%Z] = Ok rep /\ accuracy d pred = Some 1%R /\ r_accuracy rep = Some (3 / 5)%R.
Proof. exact c58_metrics_refuted. Qed.
Print Assumptions C58_metrics_refuted.

(** C70: for two classes and the second one declared positive, metricsReport on a generated confusion
    matrix gives the right tp and tn but exchanges false positives and false negatives, and with them sensitivity and precision. *)
Theorem C70_binary_refuted : forall (T : Type) (d : data T) (pred : point T -> Z) (neg pos : Z),
  class_ok d -> d_classes d = [neg; pos] -> (forall p, In p (d_points d) -> In (pred p) [neg; pos]) ->
  exists m rep, generateConfusionMatrix d pred = Ok m /\ metricsReport d m [pos] = Ok rep /\
    let count (pr y : Z) := length (filter (fun p => Z.eqb (pred p) pr && Z.eqb (p_y p) y) (d_points d)) in
    r_tp rep = count pos pos /\ r_tn rep = count neg neg /\
    r_fn rep = count pos neg /\ r_fp rep = count neg pos /\
    r_sensitivity rep = rdiv (INR (count pos pos)) (INR (count pos pos + count pos neg)) /\
    r_specificity rep = rdiv (INR (count neg neg)) (INR (count neg neg + count neg pos)) /\
    r_precision rep = rdiv (INR (count pos pos)) (INR (count pos pos + count neg pos)).
Proof. exact c70_binary_refuted. Qed.
Print Assumptions C70_binary_refuted.

Example C70_binary_ex : class_ok ex5 /\ d_classes ex5 = [1; 2]%Z /\ exists rep, 
  metricsReport ex5 [[3; 2]; [0; 0]] [2]%Z = Ok rep /\ r_fp rep = 2 /\ r_fn rep = 0.
Proof. exact c70_binary_ex. Qed.

