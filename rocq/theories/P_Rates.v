(** Property theorems: C145: the error, the F-score and the printing of a report.
    Each is closed by the lemma of the same (lower-case) name in T_Rates.v. *)
From Coq Require Import String ZArith Bool Sorted Permutation Lia List Reals Lra.
From Verif Require Import Base ListLib M_Data S_Data L_Data L_Data2 L_Insert L_Split T_Data M_Valid L_Valid T_Valid T_Valid2 T_Valid3 M_Rates L_Knn.
From Verif Require Import T_Rates.
Import ListNotations.
Open Scope nat_scope.

(** C145: the F-score is the harmonic mean of precision and recall, 2 tp / (2 tp + fp + fn), when there is a true positive. *)
Theorem C145_fscore : forall (T : Type) (d : data T) m positive q, metricsRates d m positive = Ok q -> 0 < r_tp (q_base q) ->
  q_fscore q = Some (2 * INR (r_tp (q_base q)) / INR (2 * r_tp (q_base q) + r_fp (q_base q) + r_fn (q_base q)))%R.
Proof. exact c145_fscore. Qed.
Print Assumptions C145_fscore.

(** C145: without a true positive it is not a number, where one expects 0. *)
Theorem C145_no_hit_refuted : forall (T : Type) (d : data T) m positive q, metricsRates d m positive = Ok q -> r_tp (q_base q) = 0 -> q_fscore q = None.
Proof. exact c145_no_hit_refuted. Qed.
Print Assumptions C145_no_hit_refuted.

(** C145: errors is the number of wrong answers; error is not their share: the true negatives are counted in it too, so it is right only when there are none. *)
Theorem C145_error_refuted : forall (T : Type) (d : data T) (pred : point T -> Z) positive, class_ok d -> d_points d <> [] -> (forall p, In p (d_points d) -> In (pred p) (d_classes d)) -> (forall l, In l positive -> In l (d_classes d)) ->
  exists m q, generateConfusionMatrix d pred = Ok m /\ metricsRates d m positive = Ok q /\ r_tp (q_base q) + r_fp (q_base q) + r_tn (q_base q) + r_fn (q_base q) = size d /\
    q_errors q = length (filter (fun p => negb (Z.eqb (pred p) (p_y p))) (d_points d)) /\ q_error q = Some (INR (q_errors q + r_tn (q_base q)) / INR (size d))%R.
Proof. exact c145_error_refuted. Qed.
Print Assumptions C145_error_refuted.

(** C145: a report of classificationReport always has error 0 and no errors, and its F-score is 1, 0 or not a number. *)
Theorem C145_class_refuted : forall real pred q, classificationRates real pred = Ok q -> q_error q = Some 0%R /\ q_errors q = 0 /\ q_recall q = r_sensitivity (q_base q) /\
  q_fscore q = if Nat.eqb (r_fp (q_base q)) 0 && Nat.eqb (r_fn (q_base q)) 0 then Some 1%R else if Nat.eqb (r_fp (q_base q)) 0 || Nat.eqb (r_fn (q_base q)) 0 then Some 0%R else None.
Proof. exact c145_class_refuted. Qed.
Print Assumptions C145_class_refuted.

(** C145: print() shows one number three times, as Precision, Recall and F1-score; on two classes, for the second as positive one, it is the recall. *)
Theorem C145_print_refuted : forall (T : Type) (d : data T) (pred : point T -> Z) (neg pos : Z), class_ok d -> d_classes d = [neg; pos] -> (forall p, In p (d_points d) -> In (pred p) [neg; pos]) ->
  exists m q, generateConfusionMatrix d pred = Ok m /\ metricsRates d m [pos] = Ok q /\
    let hit := length (filter (fun p => Z.eqb (pred p) pos && Z.eqb (p_y p) pos) (d_points d)) in let missed := length (filter (fun p => Z.eqb (pred p) neg && Z.eqb (p_y p) pos) (d_points d)) in
    forall text v, In (text, v) (rate_lines q) -> In text ["Precision"; "Recall"; "F1-score"]%string -> v = rdiv (INR hit) (INR (hit + missed)).
Proof. exact c145_print_refuted. Qed.
Print Assumptions C145_print_refuted.

(** C145: the whole list printed for two classes: the counters true positives and true negatives are right, false positives counts the missed positives and false negatives
    the false alarms, and the accuracy is the share of the true positives alone. *)
Theorem C145_lines_refuted : forall (T : Type) (d : data T) (pred : point T -> Z) (neg pos : Z), class_ok d -> d_classes d = [neg; pos] -> (forall p, In p (d_points d) -> In (pred p) [neg; pos]) ->
  exists m q, generateConfusionMatrix d pred = Ok m /\ metricsRates d m [pos] = Ok q /\
    let count (pr y : Z) := length (filter (fun p => Z.eqb (pred p) pr && Z.eqb (p_y p) y) (d_points d)) in
    rate_lines q = [("True positives", Some (INR (count pos pos))); ("True negatives", Some (INR (count neg neg))); ("False positives", Some (INR (count neg pos))); ("False negatives", Some (INR (count pos neg)));
      ("Precision", rdiv (INR (count pos pos)) (INR (count pos pos + count neg pos))); ("Recall", rdiv (INR (count pos pos)) (INR (count pos pos + count neg pos)));
      ("F1-score", rdiv (INR (count pos pos)) (INR (count pos pos + count neg pos))); ("Accuracy", rdiv (INR (count pos pos)) (INR (size d)))]%string.
Proof. exact c145_lines_refuted. Qed.
Print Assumptions C145_lines_refuted.

Example C145_fscore_ex : exists q, metricsRates ex5 [[3; 2]; [0; 0]] [1]%Z = Ok q /\ 0 < r_tp (q_base q).
Proof. exact c145_fscore_ex. Qed.

Example C145_no_hit_refuted_ex : exists q, metricsRates ex5 [[3; 2]; [0; 0]] [2]%Z = Ok q /\ r_tp (q_base q) = 0.
Proof. exact c145_no_hit_refuted_ex. Qed.

Example C145_error_refuted_ex : class_ok ex5 /\ d_points ex5 <> [] /\ d_classes ex5 = [1; 2]%Z /\ (forall p, In p (d_points ex5) -> In (p_y p) (d_classes ex5)) /\ exists q, metricsRates ex5 [[3; 0]; [0; 2]] [1]%Z = Ok q /\ q_errors q = 0 /\ r_tn (q_base q) = 2.
Proof. exact c145_error_refuted_ex. Qed.

Example C145_class_refuted_ex : exists q, classificationRates [1; 1; 1; -1; -1]%Z [1; 1; -1; -1; 1]%Z = Ok q /\ r_fp (q_base q) = 1 /\ r_fn (q_base q) = 1.
Proof. exact c145_class_refuted_ex. Qed.

Example C145_lines_refuted_ex : class_ok ex5 /\ d_classes ex5 = [1; 2]%Z /\ (forall p, In p (d_points ex5) -> In (p_y p) [1; 2]%Z) /\ exists q, metricsRates ex5 [[2; 1]; [0; 2]] [2]%Z = Ok q /\ r_tp (q_base q) = 2 /\ r_tn (q_base q) = 2 /\ r_fp (q_base q) + r_fn (q_base q) = 1.
Proof. exact c145_lines_refuted_ex. Qed.

