(** C145: the error, the F-score and the printing of a report. *)
From Coq Require Import String ZArith Bool Sorted Permutation Lia List Reals Lra.
From Verif Require Import Base ListLib M_Data S_Data L_Data L_Data2 L_Insert L_Split T_Data M_Valid L_Valid T_Valid T_Valid2 T_Valid3 M_Rates L_Knn.
Import ListNotations.
Open Scope nat_scope.

Lemma rdiv_zero a : rdiv a 0 = None.
Proof. unfold rdiv. destruct (Req_EM_T 0 0); [reflexivity|lra]. Qed.
Lemma metricsRates_inv T (d : data T) m positive q : metricsRates d m positive = Ok q ->
  metricsReport d m positive = Ok (q_base q) /\ q_errors q = r_fp (q_base q) + r_fn (q_base q) /\ q_recall q = r_sensitivity (q_base q) /\ q_fscore q = fscore_of (r_precision (q_base q)) (r_sensitivity (q_base q)) /\
  q_error q = (match r_accuracy (q_base q) with Some a => Some (1 - a)%R | None => None end).
Proof. unfold metricsRates. destruct (metricsReport d m positive) as [r| |]; cbn [obind]; try discriminate. intro E. injection E as <-. cbn. auto. Qed.
Lemma metricsReport_rates T (d : data T) m positive r : metricsReport d m positive = Ok r ->
  r_sensitivity r = rdiv (INR (r_tp r)) (INR (r_tp r + r_fn r)) /\ r_precision r = rdiv (INR (r_tp r)) (INR (r_tp r + r_fp r)) /\ r_accuracy r = rdiv (INR (r_tp r)) (INR (size d)).
Proof.
  unfold metricsReport. destruct (mr_flags _ _) as [f| |]; cbn [obind]; try discriminate. destruct (fold_left _ _ _) as [[[[tp fp] tn] fn]| |]; cbn [obind]; try discriminate. intro E. injection E as <-. cbn [r_sensitivity r_precision r_accuracy r_tp r_fn r_fp]. auto.
Qed.
(** C145: the F-score is the harmonic mean of precision and recall, 2 tp / (2 tp + fp + fn), when there is a true positive. *)
Lemma c145_fscore : forall (T : Type) (d : data T) m positive q, metricsRates d m positive = Ok q -> 0 < r_tp (q_base q) ->
  q_fscore q = Some (2 * INR (r_tp (q_base q)) / INR (2 * r_tp (q_base q) + r_fp (q_base q) + r_fn (q_base q)))%R.
Proof.
  intros T d m positive q E P. apply metricsRates_inv in E as (E & _ & _ & -> & _). apply metricsReport_rates in E as (-> & -> & _). set (tp := r_tp (q_base q)) in *. set (fp := r_fp (q_base q)). set (fn := r_fn (q_base q)).
  assert (0 < INR tp)%R as Pt by now apply lt_0_INR. pose proof (pos_INR fp). pose proof (pos_INR fn). rewrite !plus_INR, mult_INR. change (INR 2) with 2%R.
  rewrite !rdiv_some by lra. unfold fscore_of. assert (0 < INR tp / (INR tp + INR fp))%R by (apply Rdiv_lt_0_compat; lra). assert (0 < INR tp / (INR tp + INR fn))%R by (apply Rdiv_lt_0_compat; lra). rewrite rdiv_some by lra. f_equal. field.
  repeat split; try lra. replace (INR tp * (INR tp + INR fn) + INR tp * (INR tp + INR fp))%R with (INR tp * (2 * INR tp + INR fp + INR fn))%R by ring. apply Rmult_integral_contrapositive_currified; lra.
Qed.
(** C145: without a true positive it is not a number, where one expects 0. *)
Lemma c145_no_hit_refuted : forall (T : Type) (d : data T) m positive q, metricsRates d m positive = Ok q -> r_tp (q_base q) = 0 -> q_fscore q = None.
Proof.
  intros T d m positive q E P. apply metricsRates_inv in E as (E & _ & _ & -> & _). apply metricsReport_rates in E as (-> & -> & _). rewrite P. cbn [INR Nat.add]. unfold fscore_of.
  assert (forall x v, rdiv 0 x = Some v -> v = 0%R) as Z by (intros x v; unfold rdiv; destruct (Req_EM_T x 0); [discriminate|]; intro H; injection H as <-; unfold Rdiv; ring).
  destruct (rdiv 0 (INR (r_fp (q_base q)))) as [a|] eqn:A; [|reflexivity]. destruct (rdiv 0 (INR (r_fn (q_base q)))) as [b|] eqn:B; [|reflexivity]. rewrite (Z _ _ A), (Z _ _ B), Rplus_0_l. apply rdiv_zero.
Qed.
Lemma find_pos_lt c l : In c l -> find_pos c l < length l.
Proof. induction l as [|x l IH]; intro H; [destruct H|]. cbn. destruct (Z.eqb_spec x c) as [|N]; [lia|]. destruct H as [->|H]; [congruence|]. specialize (IH H). lia. Qed.
Lemma flags_len classes positive : (forall l, In l positive -> In l classes) -> exists f, mr_flags classes positive = Ok f /\ length f = length classes.
Proof.
  intro H. destruct positive as [|x l0]; [exists (repeat true (length classes)); split; [reflexivity|apply repeat_length]|]. unfold mr_flags.
  assert (forall l f, (forall y, In y l -> In y classes) -> length f = length classes -> exists f', fold_left (fun acc l => let* f := acc in let pos := find_pos l classes in if Nat.ltb pos (length classes) then vupd pos (fun _ => true) f else Abort) l (Ok f) = Ok f' /\ length f' = length classes) as G.
  { induction l as [|y l IH]; intros f Hy L; cbn [fold_left]; [exists f; auto|]. cbn [obind]. assert (find_pos y classes < length classes) as Hp by (apply find_pos_lt, Hy; now left). cbv zeta. rewrite (proj2 (Nat.ltb_lt _ _) Hp).
    destruct (vupd_nth _ f (find_pos y classes) (fun _ => true) false) as (f' & -> & L' & _); [lia|]. apply IH; [intros; apply Hy; now right|lia]. }
  apply G; [exact H|apply repeat_length].
Qed.
Lemma four_sums (g h : nat * nat -> bool) (c : nat * nat -> nat) l :
  list_sum (map (fun p => if g p && h p then c p else 0) l) + list_sum (map (fun p => if negb (g p) && negb (h p) then c p else 0) l) + list_sum (map (fun p => if g p && negb (h p) then c p else 0) l) + list_sum (map (fun p => if negb (g p) && h p then c p else 0) l) = list_sum (map c l) /\
  list_sum (map (fun p => if g p && h p then c p else 0) l) + list_sum (map (fun p => if g p && negb (h p) then c p else 0) l) = list_sum (map (fun p => if g p then c p else 0) l).
Proof. induction l as [|p l [IH1 IH2]]; [split; reflexivity|]. cbn [map]. rewrite !lsc. destruct (g p), (h p); cbn [andb negb]; lia. Qed.
Lemma row_sum row : list_sum (map (fun j => nth j row 0) (seq 0 (length row))) = list_sum row.
Proof. f_equal. induction row as [|x r IH]; [reflexivity|]. cbn [length seq map nth]. f_equal. rewrite <- seq_shift, map_map. exact IH. Qed.
Lemma all_cells n m : square n m -> list_sum (map (fun p => cell m (fst p) (snd p)) (list_prod (seq 0 n) (seq 0 n))) = msum m.
Proof.
  intros (<- & Rw). rewrite (sum_prod_row (cell m)). unfold msum. transitivity (list_sum (map (fun i => list_sum (nth i m [])) (seq 0 (length m)))).
  - f_equal. apply map_ext_in. intros i Hi. apply in_seq in Hi. unfold cell. rewrite <- (Rw (nth i m [])) by (apply nth_In; lia). apply row_sum.
  - f_equal. clear. induction m as [|x r IH]; [reflexivity|]. cbn [length seq map nth]. f_equal. rewrite <- seq_shift, map_map. exact IH.
Qed.
(** C145: errors is the number of wrong answers; error is not their share: the true negatives are counted in it too, so it is right only when there are none. *)
Lemma c145_error_refuted : forall (T : Type) (d : data T) (pred : point T -> Z) positive, class_ok d -> d_points d <> [] -> (forall p, In p (d_points d) -> In (pred p) (d_classes d)) -> (forall l, In l positive -> In l (d_classes d)) ->
  exists m q, generateConfusionMatrix d pred = Ok m /\ metricsRates d m positive = Ok q /\ r_tp (q_base q) + r_fp (q_base q) + r_tn (q_base q) + r_fn (q_base q) = size d /\
    q_errors q = length (filter (fun p => negb (Z.eqb (pred p) (p_y p))) (d_points d)) /\ q_error q = Some (INR (q_errors q + r_tn (q_base q)) / INR (size d))%R.
Proof.
  intros T d pred positive H NE HP Pos. destruct (cm_trace d pred H HP) as (m & E & Sq & M & TR & _). exists m. pose proof Sq as [L Rw]. destruct (flags_len (d_classes d) positive Pos) as (f & Ef & Lf).
  unfold metricsRates, metricsReport. rewrite Ef. cbn [obind]. rewrite L. set (n := length (d_classes d)) in *. rewrite (mr_fold n m f); auto. 2:{ intros [i j] Hi. apply in_prod_iff in Hi. rewrite !in_seq in Hi. cbn. lia. }
  cbn [obind]. eexists. split; [auto|]. split; [reflexivity|]. cbn [q_base r_tp r_fp r_tn r_fn q_errors q_error r_accuracy]. rewrite !Nat.add_0_l.
  destruct (four_sums (fun p => Nat.eqb (fst p) (snd p)) (fun p => flagged f (fst p)) (fun p => cell m (fst p) (snd p)) (list_prod (seq 0 n) (seq 0 n))) as (F1 & F2). cbv beta in F1, F2. rewrite (all_cells n m Sq), M in F1.
  assert (list_sum (map (fun p => if Nat.eqb (fst p) (snd p) then cell m (fst p) (snd p) else 0) (list_prod (seq 0 n) (seq 0 n))) = correct d pred) as Dg.
  { rewrite <- TR. unfold mtrace. rewrite L. fold n. rewrite (sum_prod_row (fun i j => if Nat.eqb i j then cell m i j else 0)). f_equal. apply map_ext_in. intros i Hi. apply in_seq in Hi. apply (diag_sum (fun j => cell m i j)). lia. }
  rewrite Dg in F2.
  assert (correct d pred + length (filter (fun p => negb (Z.eqb (pred p) (p_y p))) (d_points d)) = size d) as Cw. { unfold correct, size. clear. induction (d_points d) as [|p l IH]; [reflexivity|]. cbn [filter length]. destruct (Z.eqb (pred p) (p_y p)); cbn [negb length]; lia. }
  split; [lia|]. split; [lia|]. assert (0 < size d) as Ps by (unfold size; destruct (d_points d); [congruence|cbn; lia]). assert (0 < INR (size d))%R by now apply lt_0_INR. rewrite rdiv_some by lra. f_equal.
  match goal with |- (1 - INR ?t / _ = INR ?e / _)%R => assert (INR (size d) = INR t + INR e)%R as Q by (rewrite <- plus_INR; f_equal; lia) end. apply Rmult_eq_reg_r with (INR (size d)); [|lra]. unfold Rdiv. rewrite Rmult_minus_distr_r, !Rmult_assoc, Rinv_l by lra. rewrite Q at 1. ring.
Qed.
(** C145: a report of classificationReport always has error 0 and no errors, and its F-score is 1, 0 or not a number. *)
Lemma c145_class_refuted : forall real pred q, classificationRates real pred = Ok q -> q_error q = Some 0%R /\ q_errors q = 0 /\ q_recall q = r_sensitivity (q_base q) /\
  q_fscore q = if Nat.eqb (r_fp (q_base q)) 0 && Nat.eqb (r_fn (q_base q)) 0 then Some 1%R else if Nat.eqb (r_fp (q_base q)) 0 || Nat.eqb (r_fn (q_base q)) 0 then Some 0%R else None.
Proof.
  intros real pred q E. unfold classificationRates in E. destruct (classificationReport real pred) as [r| |] eqn:C; cbn [obind] in E; try discriminate. injection E as <-. cbn [q_error q_errors q_recall q_base q_fscore].
  assert (Some (INR (r_tp r / (r_tp r + r_fn r))) = r_sensitivity r) as ->.
  { unfold classificationReport in C. destruct (negb _); [discriminate|]. destruct (fold_left _ _ _) as [acc [[[tp fp] tn] fn]]. destruct (_ || _ || _); [discriminate|]. injection C as <-. reflexivity. }
  split; [reflexivity|]. split; [reflexivity|]. split; [reflexivity|]. apply c59_ratios_refuted in C as (-> & -> & _). unfold fscore_of. destruct (Nat.eqb (r_fp r) 0), (Nat.eqb (r_fn r) 0); cbn [andb orb]; [rewrite rdiv_some by lra; f_equal; field|rewrite rdiv_some by lra; f_equal; field|rewrite rdiv_some by lra; f_equal; field|].
  rewrite Rplus_0_l. apply rdiv_zero.
Qed.
(** C145: print() shows one number three times, as Precision, Recall and F1-score; on two classes, for the second as positive one, it is the recall. *)
Lemma c145_print_refuted : forall (T : Type) (d : data T) (pred : point T -> Z) (neg pos : Z), class_ok d -> d_classes d = [neg; pos] -> (forall p, In p (d_points d) -> In (pred p) [neg; pos]) ->
  exists m q, generateConfusionMatrix d pred = Ok m /\ metricsRates d m [pos] = Ok q /\
    let hit := length (filter (fun p => Z.eqb (pred p) pos && Z.eqb (p_y p) pos) (d_points d)) in let missed := length (filter (fun p => Z.eqb (pred p) neg && Z.eqb (p_y p) pos) (d_points d)) in
    forall text v, In (text, v) (rate_lines q) -> In text ["Precision"; "Recall"; "F1-score"]%string -> v = rdiv (INR hit) (INR (hit + missed)).
Proof.
  intros T d pred ng ps H EC HP. destruct (c70_binary_refuted T d pred ng ps H EC HP) as (m & r & E & M & A & _ & _ & B & _ & _ & Pr). exists m. unfold metricsRates. rewrite M. cbn [obind]. eexists. split; [exact E|]. split; [reflexivity|]. cbv zeta. intros text v Hin Ht.
  unfold rate_lines in Hin. cbn [q_base] in Hin. rewrite Pr in Hin. cbn [In] in Hin, Ht. cbv zeta in Hin.
  repeat match type of Hin with _ \/ _ => destruct Hin as [Hin|Hin] end; try (injection Hin as <- <-; reflexivity); try contradiction; injection Hin as <- <-; repeat (destruct Ht as [Ht|Ht]; try discriminate Ht); contradiction.
Qed.
(** C145: the whole list printed for two classes: the counters true positives and true negatives are right, false positives counts the missed positives and false negatives
    the false alarms, and the accuracy is the share of the true positives alone. *)
Lemma c145_lines_refuted : forall (T : Type) (d : data T) (pred : point T -> Z) (neg pos : Z), class_ok d -> d_classes d = [neg; pos] -> (forall p, In p (d_points d) -> In (pred p) [neg; pos]) ->
  exists m q, generateConfusionMatrix d pred = Ok m /\ metricsRates d m [pos] = Ok q /\
    let count (pr y : Z) := length (filter (fun p => Z.eqb (pred p) pr && Z.eqb (p_y p) y) (d_points d)) in
    rate_lines q = [("True positives", Some (INR (count pos pos))); ("True negatives", Some (INR (count neg neg))); ("False positives", Some (INR (count neg pos))); ("False negatives", Some (INR (count pos neg)));
      ("Precision", rdiv (INR (count pos pos)) (INR (count pos pos + count neg pos))); ("Recall", rdiv (INR (count pos pos)) (INR (count pos pos + count neg pos)));
      ("F1-score", rdiv (INR (count pos pos)) (INR (count pos pos + count neg pos))); ("Accuracy", rdiv (INR (count pos pos)) (INR (size d)))]%string.
Proof.
  intros T d pred ng ps H EC HP. destruct (c70_binary_refuted T d pred ng ps H EC HP) as (m & r & E & M & A & B & C & D & _ & _ & Pr). exists m. unfold metricsRates. rewrite M. cbn [obind]. eexists. split; [exact E|]. split; [reflexivity|]. cbv zeta in *.
  apply metricsReport_rates in M as (_ & _ & Ac). unfold rate_lines. cbn [q_base]. rewrite Pr, Ac, A, B, C, D. reflexivity.
Qed.
Lemma c145_fscore_ex : exists q, metricsRates ex5 [[3; 2]; [0; 0]] [1]%Z = Ok q /\ 0 < r_tp (q_base q).
Proof. eexists. split; [reflexivity|]. cbn. lia. Qed.
Lemma c145_no_hit_refuted_ex : exists q, metricsRates ex5 [[3; 2]; [0; 0]] [2]%Z = Ok q /\ r_tp (q_base q) = 0.
Proof. eexists. split; [reflexivity|]. reflexivity. Qed.
Lemma c145_error_refuted_ex : class_ok ex5 /\ d_points ex5 <> [] /\ d_classes ex5 = [1; 2]%Z /\ (forall p, In p (d_points ex5) -> In (p_y p) (d_classes ex5)) /\ exists q, metricsRates ex5 [[3; 0]; [0; 2]] [1]%Z = Ok q /\ q_errors q = 0 /\ r_tn (q_base q) = 2.
Proof. assert (class_ok ex5) as K by apply ex5_ok. split; [exact K|]. split; [vm_compute; discriminate|]. split; [reflexivity|]. split; [apply (co_listed _ K)|]. eexists. split; [reflexivity|]. split; reflexivity. Qed.
Lemma c145_class_refuted_ex : exists q, classificationRates [1; 1; 1; -1; -1]%Z [1; 1; -1; -1; 1]%Z = Ok q /\ r_fp (q_base q) = 1 /\ r_fn (q_base q) = 1.
Proof. eexists. split; [vm_compute; reflexivity|]. split; reflexivity. Qed.
Lemma c145_lines_refuted_ex : class_ok ex5 /\ d_classes ex5 = [1; 2]%Z /\ (forall p, In p (d_points ex5) -> In (p_y p) [1; 2]%Z) /\ exists q, metricsRates ex5 [[2; 1]; [0; 2]] [2]%Z = Ok q /\ r_tp (q_base q) = 2 /\ r_tn (q_base q) = 2 /\ r_fp (q_base q) + r_fn (q_base q) = 1.
Proof. assert (class_ok ex5) as K by apply ex5_ok. split; [exact K|]. split; [reflexivity|]. split; [apply (co_listed _ K)|]. eexists. split; [reflexivity|]. split; [reflexivity|]. split; reflexivity. Qed.
