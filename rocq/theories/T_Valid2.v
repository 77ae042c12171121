(** Validation measures: accuracy, reports, cross-validation error (C58-C60, C70). *)
From Coq Require Import ZArith Bool Sorted Permutation Lia List Reals Lra.
From Verif Require Import Base ListLib M_Data S_Data L_Data L_Data2 L_Insert L_Split T_Data M_Valid L_Valid T_Valid.
Import ListNotations.
Open Scope nat_scope.

Lemma rdiv_some a b : (b <> 0)%R -> rdiv a b = Some (a / b)%R.
Proof. intro H. unfold rdiv. destruct (Req_EM_T b 0); [tauto|auto]. Qed.

(** Number of samples predicted correctly. *)
Definition correct {T} (d : data T) (pred : point T -> Z) : nat :=
  length (filter (fun p => Z.eqb (pred p) (p_y p)) (d_points d)).

(** C58: accuracy() is the fraction of correctly predicted samples. *)
Lemma c58_accuracy : forall (T : Type) (d : data T) (pred : point T -> Z),
  d_points d <> [] ->
  accuracy d pred = Some (INR (length (filter (fun p => Z.eqb (pred p) (p_y p)) (d_points d))) / INR (size d))%R.
Proof.
  intros T d pred H. unfold accuracy.
  assert (forall l a, fold_left (fun acc p => if Z.eqb (pred p) (p_y p) then acc + 1 else acc)%R l a
             = (a + INR (length (filter (fun p => Z.eqb (pred p) (p_y p)) l)))%R) as X.
  { induction l as [|p l IH]; intro a; cbn [fold_left filter]; [cbn; lra|]. rewrite IH.
    destruct (Z.eqb (pred p) (p_y p)); auto. cbn [length]. rewrite S_INR. lra. }
  rewrite X, Rplus_0_l. apply rdiv_some. apply not_0_INR. unfold size. destruct (d_points d); [tauto|discriminate].
Qed.

(** ** cm_accuracy as trace over sum *)
Lemma mtrace_gen m : mtrace m = list_sum (map (fun ir => nth (fst ir) (snd ir) 0) (combine (seq 0 (length m)) m)).
Proof.
  unfold mtrace, cell.
  assert (forall pre, list_sum (map (fun i => nth i (nth i (pre ++ m) []) 0) (seq (length pre) (length m)))
     = list_sum (map (fun ir => nth (fst ir) (snd ir) 0) (combine (seq (length pre) (length m)) m))) as X; [|apply (X [])].
  induction m as [|row m IH]; intro pre; cbn [length seq combine map]; auto. rewrite !lsc. f_equal.
  - rewrite app_nth2, Nat.sub_diag by lia. auto.
  - specialize (IH (pre ++ [row])). rewrite <- app_assoc, app_length in IH. cbn [app length] in IH. rewrite Nat.add_1_r in IH. exact IH.
Qed.

Definition errs_of (cells : list (nat * nat * nat)) : nat := list_sum (map (fun c => if Nat.eqb (fst (fst c)) (snd (fst c)) then 0 else snd c) cells).
Definition tot_of (cells : list (nat * nat * nat)) : nat := list_sum (map snd cells).

Lemma cm_fold cells : forall e t,
  fold_left (fun e c => if Nat.eqb (fst (fst c)) (snd (fst c)) then e else (e + INR (snd c))%R) cells e = (e + INR (errs_of cells))%R /\
  fold_left (fun t c => (t + INR (snd c))%R) cells t = (t + INR (tot_of cells))%R.
Proof.
  unfold errs_of, tot_of. induction cells as [|c cells IH]; intros e t; cbn [fold_left map]; [cbn; split; lra|]. rewrite !lsc, !plus_INR.
  destruct (Nat.eqb (fst (fst c)) (snd (fst c))).
  - rewrite (proj1 (IH e t)), (proj2 (IH e (t + INR (snd c))%R)). cbn [INR]. split; lra.
  - rewrite (proj1 (IH (e + INR (snd c))%R t)), (proj2 (IH e (t + INR (snd c))%R)). split; lra.
Qed.

Lemma row_cells i (row : list nat) : forall s,
  let cs := map (fun jc => (i, fst jc, snd jc)) (combine (seq s (length row)) row) in
  tot_of cs = list_sum row /\ errs_of cs + (if Nat.leb s i then nth (i - s) row 0 else 0) = list_sum row.
Proof.
  induction row as [|x row IH]; intro s; cbn [length seq combine map].
  - split; auto. destruct (Nat.leb s i); auto. destruct (i - s); auto.
  - destruct (IH (S s)) as [A B]. unfold tot_of, errs_of in *. cbn [map fst snd]. rewrite !lsc. split; [rewrite <- A; auto|].
    rewrite <- B. destruct (Nat.eqb_spec i s) as [->|ne].
    + rewrite Nat.leb_refl, Nat.sub_diag. destruct (Nat.leb_spec (S s) s); [lia|]. cbn. lia.
    + destruct (Nat.leb_spec s i).
      * destruct (Nat.leb_spec (S s) i); [|lia]. replace (i - s) with (S (i - S s)) by lia. cbn. lia.
      * destruct (Nat.leb_spec (S s) i); [lia|]. lia.
Qed.

Lemma cells_sums m : forall s,
  let irs := combine (seq s (length m)) m in
  let cells := concat (map (fun ir => map (fun jc => (fst ir, fst jc, snd jc)) (combine (seq 0 (length (snd ir))) (snd ir))) irs) in
  tot_of cells = msum m /\ errs_of cells + list_sum (map (fun ir => nth (fst ir) (snd ir) 0) irs) = msum m.
Proof.
  induction m as [|row m IH]; intro s; cbn [length seq combine map concat]; [auto|].
  destruct (IH (S s)) as [A B]. destruct (row_cells s row 0) as [C D]. cbn [Nat.leb] in D. rewrite Nat.sub_0_r in D.
  unfold tot_of, errs_of, msum in *. cbn [fst snd]. rewrite !map_app, !list_sum_app. cbn [map]. rewrite !lsc. rewrite A, C. split; auto. cbn [fst snd]. lia.
Qed.

Lemma cm_accuracy_gen m : msum m <> 0 -> cm_accuracy m = Some (100 * (INR (mtrace m) / INR (msum m)))%R.
Proof.
  intro H. unfold cm_accuracy. destruct (cells_sums m 0) as [A B]. rewrite <- mtrace_gen in B.
  rewrite (proj1 (cm_fold _ 0%R 0%R)), (proj2 (cm_fold _ 0%R 0%R)), !Rplus_0_l, A.
  assert (INR (msum m) <> 0)%R as N by (apply not_0_INR; auto). rewrite rdiv_some by auto. f_equal.
  apply (f_equal INR) in B. rewrite plus_INR in B. rewrite <- B in N |- *. field. auto.
Qed.

Lemma trace_count {T} (classes : list Z) (pred : point T -> Z) pts n : n = length classes ->
  (forall p, In p pts -> In (pred p) classes /\ In (p_y p) classes) ->
  list_sum (map (fun i => hits classes pred pts i i) (seq 0 n)) = length (filter (fun p => Z.eqb (pred p) (p_y p)) pts).
Proof.
  intros -> H. induction pts as [|p pts IH].
  - cbn. induction (seq 0 (length classes)) as [|x l IHl]; auto.
  - cbn [filter].
    assert (forall l, list_sum (map (fun i => hits classes pred (p :: pts) i i) l) = 
       list_sum (map (fun i => if Nat.eqb (pos0 (pred p) classes) i && Nat.eqb (pos0 (p_y p) classes) i then 1 else 0) l) + list_sum (map (fun i => hits classes pred pts i i) l)) as X.
    { induction l as [|i l IHl]; auto. cbn [map]. rewrite !lsc, IHl. unfold hits at 1. cbn [filter]. fold (hits classes pred pts i i).
      destruct (Nat.eqb (pos0 (pred p) classes) i && Nat.eqb (pos0 (p_y p) classes) i); cbn [length]; unfold hits; lia. }
    rewrite X, IH by (intros; apply H; right; auto). destruct (H p) as [H1 H2]; [left; auto|].
    assert (forall a b l, NoDup l -> list_sum (map (fun i => if Nat.eqb a i && Nat.eqb b i then 1 else 0) l) = if Nat.eqb a b && (if in_dec Nat.eq_dec a l then true else false) then 1 else 0) as Y.
    { clear. intros a b l N. induction N as [|i l Hi N IH]; cbn [map].
      - rewrite andb_false_r. auto.
      - rewrite lsc, IH. destruct (Nat.eqb_spec a i) as [->|ne]; cbn [andb].
        + destruct (in_dec Nat.eq_dec i (i :: l)) as [_|B]; [|exfalso; apply B; left; auto].
          destruct (in_dec Nat.eq_dec i l); [tauto|]. rewrite (Nat.eqb_sym i b). destruct (Nat.eqb b i); auto.
        + destruct (in_dec Nat.eq_dec a (i :: l)) as [[B|B]|B]; destruct (in_dec Nat.eq_dec a l) as [C|C]; auto; try (subst; tauto); try tauto. exfalso. apply B. right. auto. }
    rewrite Y by apply seq_NoDup.
    assert (pos0 (pred p) classes < length classes) as PL by (apply pos0_lt; intro E; rewrite E in H1; destruct H1).
    destruct (in_dec Nat.eq_dec (pos0 (pred p) classes) (seq 0 (length classes))) as [_|B]; [|exfalso; apply B, in_seq; lia].
    rewrite andb_true_r.
    assert (Nat.eqb (pos0 (pred p) classes) (pos0 (p_y p) classes) = Z.eqb (pred p) (p_y p)) as ->.
    { unfold pos0. rewrite (proj2 (memZ_In _ _) H1), (proj2 (memZ_In _ _) H2).
      destruct (Z.eqb_spec (pred p) (p_y p)) as [->|ne]; [apply Nat.eqb_refl|]. apply Nat.eqb_neq. intro E.
      apply ne. pose proof (find_pos_nth _ _ H1) as F1. pose proof (find_pos_nth _ _ H2) as F2. rewrite E in F1. congruence. }
    destruct (Z.eqb (pred p) (p_y p)); cbn [length]; auto.
Qed.

Lemma cm_trace {T} (d : data T) pred : class_ok d -> (forall p, In p (d_points d) -> In (pred p) (d_classes d)) ->
  exists m, generateConfusionMatrix d pred = Ok m /\ square (length (d_classes d)) m /\ msum m = size d /\ mtrace m = correct d pred /\
   forall a b, cell m a b = hits (d_classes d) pred (d_points d) a b.
Proof.
  intros H HP. destruct (cm_spec d pred H) as (m & E & [S1 S2] & M & C). exists m. split; auto. split; [split; auto|]. split; auto. split; auto.
  unfold mtrace. rewrite (map_ext _ _ (fun i => C i i)). apply trace_count; auto.
  intros p Hp. split; [auto|]. apply (co_listed _ H). auto.
Qed.

(** C58: the accuracy of the confusion matrix is 100 times accuracy(). *)
Lemma c58_agreement : forall (T : Type) (d : data T) (pred : point T -> Z),
  class_ok d -> d_points d <> [] -> (forall p, In p (d_points d) -> In (pred p) (d_classes d)) ->
  exists m a, generateConfusionMatrix d pred = Ok m /\ accuracy d pred = Some a /\ cm_accuracy m = Some (100 * a)%R /\ (0 <= a <= 1)%R.
Proof.
  intros T d pred H NE HP. destruct (cm_trace d pred H HP) as (m & E & S & M & TR & _).
  assert (size d <> 0) as SZ by (unfold size; destruct (d_points d); [tauto|discriminate]).
  exists m. eexists. split; auto. split; [apply c58_accuracy; auto|]. split.
  - rewrite cm_accuracy_gen by lia. rewrite TR, M. auto.
  - assert (0 < INR (size d))%R as P by (apply lt_0_INR; lia). split.
    + apply Rmult_le_pos; [apply pos_INR|]. left. apply Rinv_0_lt_compat. auto.
    + apply (Rmult_le_reg_r (INR (size d))); auto. unfold Rdiv. rewrite Rmult_assoc, Rinv_l, Rmult_1_r, Rmult_1_l by lra.
      apply le_INR. apply filter_length_le'.
Qed.

Lemma c58_agreement_ex : class_ok ex5 /\ d_points ex5 <> [] /\ (forall p, In p (d_points ex5) -> In 1%Z (d_classes ex5)) /\ accuracy ex5 (fun _ => 1%Z) = Some (3 / 5)%R.
Proof.
  split; [apply ex5_ok|]. split; [vm_compute; discriminate|]. split; [intros p _; vm_compute; auto|]. rewrite c58_accuracy by (vm_compute; discriminate).
  replace (length (filter (fun p => Z.eqb 1 (p_y p)) (d_points ex5))) with 3 by (vm_compute; reflexivity).
  replace (size ex5) with 5 by (vm_compute; reflexivity). f_equal. f_equal; cbn; lra.
Qed.

(** ** metricsReport *)
Lemma square_cell n m i j : square n m -> i < n -> j < n -> exists row, vget m i = Ok row /\ vget row j = Ok (cell m i j).
Proof.
  intros [L R] Hi Hj. destruct (vget_lt m i) as (row & E1 & E2); [lia|]. exists row. split; auto.
  assert (length row = n) as Lr by (apply R; eapply nth_error_In; eauto).
  destruct (vget_lt row j) as (c & E3 & E4); [lia|]. rewrite E4. f_equal. unfold cell. rewrite (nth_error_nth _ _ _ E1), (nth_error_nth _ _ _ E3). auto.
Qed.

Lemma ok4 (a b c d a' b' c' d' : nat) : a = a' -> b = b' -> c = c' -> d = d' -> Ok (a, b, c, d) = Ok (a', b', c', d').
Proof. intros -> -> -> ->. auto. Qed.

Definition flagged (f : list bool) (i : nat) : bool := nth i f false.
Lemma mr_fold n m f ij : square n m -> length f = n -> (forall p, In p ij -> fst p < n /\ snd p < n) -> forall tp fp tn fn,
  let s (g : nat * nat -> bool) := list_sum (map (fun p => if g p then cell m (fst p) (snd p) else 0) ij) in
  fold_left (mr_step f m) ij (Ok (tp, fp, tn, fn)) =
  Ok (tp + s (fun p => Nat.eqb (fst p) (snd p) && flagged f (fst p)),
      fp + s (fun p => negb (Nat.eqb (fst p) (snd p)) && negb (flagged f (fst p))),
      tn + s (fun p => Nat.eqb (fst p) (snd p) && negb (flagged f (fst p))),
      fn + s (fun p => negb (Nat.eqb (fst p) (snd p)) && flagged f (fst p))).
Proof.
  intros Sq Lf. induction ij as [|[i j] ij IH]; intros H tp fp tn fn; cbn [fold_left map].
  - cbn. rewrite !Nat.add_0_r. auto.
  - destruct (H (i, j)) as [Hi Hj]; [left; auto|]. cbn [fst snd] in *. unfold mr_step at 2. cbn [obind fst snd].
    destruct (square_cell n m i j Sq Hi Hj) as (row & E1 & E2). rewrite E1. cbn [obind]. rewrite E2. cbn [obind].
    destruct (vget_lt f i) as (b & E3 & E4); [lia|]. rewrite E4. cbn [obind].
    assert (flagged f i = b) as Ef by (unfold flagged; apply nth_error_nth; auto). rewrite Ef, !lsc.
    destruct (Nat.eqb i j); destruct b; cbn [andb negb]; rewrite IH by (intros; apply H; right; auto); apply ok4; lia.
Qed.

Lemma flagged_repeat n i : i < n -> flagged (repeat true n) i = true.
Proof. intro H. unfold flagged. rewrite (nth_indep _ _ true) by (rewrite repeat_length; auto). apply nth_repeat. Qed.

Lemma sum_prod_row (g : nat -> nat -> nat) l2 : forall l1, list_sum (map (fun p => g (fst p) (snd p)) (list_prod l1 l2)) = list_sum (map (fun i => list_sum (map (g i) l2)) l1).
Proof.
  induction l1 as [|i l1 IH]; cbn [list_prod map]; auto. rewrite map_app, list_sum_app, IH, lsc. f_equal. rewrite map_map. auto.
Qed.

Lemma diag_sum (h : nat -> nat) n s i : s <= i < s + n -> list_sum (map (fun j => if Nat.eqb i j then h j else 0) (seq s n)) = h i.
Proof.
  revert s. induction n as [|n IH]; intros s H; [lia|]. cbn [seq map]. rewrite lsc. destruct (Nat.eqb_spec i s) as [->|].
  - assert (forall a b, s < a -> list_sum (map (fun j => if Nat.eqb s j then h j else 0) (seq a b)) = 0) as Z; [|rewrite Z by lia; lia].
    intros a b. revert a. induction b as [|b IHb]; intros a Ha; cbn [seq map]; auto. rewrite lsc, IHb by lia. destruct (Nat.eqb_spec s a); [lia|auto].
  - rewrite IH by lia. auto.
Qed.

(** C58: with no positive labels given, metricsReport's accuracy is the same number and its tp is the
    number of correct samples. *)
Lemma c58_metrics : forall (T : Type) (d : data T) (pred : point T -> Z),
  class_ok d -> d_points d <> [] -> (forall p, In p (d_points d) -> In (pred p) (d_classes d)) ->
  exists m rep, generateConfusionMatrix d pred = Ok m /\ metricsReport d m [] = Ok rep /\
    r_tp rep = length (filter (fun p => Z.eqb (pred p) (p_y p)) (d_points d)) /\
    r_accuracy rep = accuracy d pred.
Proof.
  intros T d pred H NE HP. destruct (cm_trace d pred H HP) as (m & E & S & M & TR & _). exists m. pose proof S as [L R].
  unfold metricsReport. cbn [mr_flags obind]. rewrite L.
  rewrite (mr_fold (length (d_classes d)) m (repeat true (length (d_classes d)))); auto; [|apply repeat_length|].
  2:{ intros [i j] Hi. apply in_prod_iff in Hi. rewrite !in_seq in Hi. cbn. lia. }
  cbn [obind]. eexists. split; auto. split; [reflexivity|]. cbn [r_tp r_accuracy].
  set (n := length (d_classes d)) in *.
  match goal with |- 0 + ?X = _ /\ _ => assert (X = correct d pred) as EX end.
  { rewrite <- TR. unfold mtrace. rewrite L. fold n.
    rewrite (sum_prod_row (fun i j => if Nat.eqb i j && flagged (repeat true n) i then cell m i j else 0)).
    f_equal. apply map_ext_in. intros i Hi. apply in_seq in Hi. rewrite flagged_repeat by lia.
    rewrite (map_ext _ (fun j => if Nat.eqb i j then cell m i j else 0)) by (intro j; rewrite andb_true_r; auto).
    apply (diag_sum (fun j => cell m i j)). lia. }
  rewrite EX. split; auto. unfold correct. rewrite c58_accuracy by auto. apply rdiv_some. apply not_0_INR. unfold size. destruct (d_points d); [tauto|discriminate].
Qed.

(** C58: with positive labels given, the correctly rejected samples are left out of the accuracy. *)
Lemma c58_metrics_refuted : exists (d : data Z) (pred : point Z -> Z) m rep, class_ok d /\
  (forall p, In p (d_points d) -> pred p = p_y p) /\ generateConfusionMatrix d pred = Ok m /\
  metricsReport d m [1%Z] = Ok rep /\ accuracy d pred = Some 1%R /\ r_accuracy rep = Some (3 / 5)%R.
Proof.
  exists ex5, p_y, [[3; 0]; [0; 2]], (mkReport 3 0 2 0 (rdiv (INR 3) (INR 5)) (rdiv (INR 3) (INR 3)) (rdiv (INR 2) (INR 2)) (rdiv (INR 3) (INR 3))).
  split; [apply ex5_ok|]. split; [intros; reflexivity|]. split; [vm_compute; reflexivity|]. split; [vm_compute; reflexivity|]. split.
  - rewrite c58_accuracy by (vm_compute; discriminate).
    replace (length (filter (fun p => Z.eqb (p_y p) (p_y p)) (d_points ex5))) with 5 by (vm_compute; reflexivity).
    replace (size ex5) with 5 by (vm_compute; reflexivity). f_equal. cbn. field.
  - cbn [r_accuracy]. rewrite rdiv_some by (cbn; lra). f_equal. f_equal; cbn; lra.
Qed.

(** C70: for two classes and the second one declared positive, metricsReport on a generated confusion
    matrix gives the right tp and tn but exchanges false positives and false negatives, and with them sensitivity and precision. *)
Lemma c70_binary_refuted : forall (T : Type) (d : data T) (pred : point T -> Z) (neg pos : Z),
  class_ok d -> d_classes d = [neg; pos] -> (forall p, In p (d_points d) -> In (pred p) [neg; pos]) ->
  exists m rep, generateConfusionMatrix d pred = Ok m /\ metricsReport d m [pos] = Ok rep /\
    let count (pr y : Z) := length (filter (fun p => Z.eqb (pred p) pr && Z.eqb (p_y p) y) (d_points d)) in
    r_tp rep = count pos pos /\ r_tn rep = count neg neg /\
    r_fn rep = count pos neg /\ r_fp rep = count neg pos /\
    r_sensitivity rep = rdiv (INR (count pos pos)) (INR (count pos pos + count pos neg)) /\
    r_specificity rep = rdiv (INR (count neg neg)) (INR (count neg neg + count neg pos)) /\
    r_precision rep = rdiv (INR (count pos pos)) (INR (count pos pos + count neg pos)).
Proof.
  intros T d pred ng ps H EC HP. destruct (cm_trace d pred H) as (m & E & S & M & TR & C); [rewrite EC; auto|]. exists m. pose proof S as [L R].
  rewrite EC in L, R, S, C. cbn [length] in *. unfold metricsReport. rewrite EC. unfold mr_flags. cbn [fold_left obind length repeat].
  pose proof (co_nodup _ H) as N. rewrite EC in N. assert (ng <> ps) as Nps by (intros ->; inversion N as [|? ? B]; apply B; left; auto).
  assert (find_pos ps [ng; ps] = 1) as FP by (cbn; destruct (Z.eqb_spec ng ps); [tauto|]; rewrite Z.eqb_refl; auto). rewrite FP. cbn [Nat.ltb Nat.leb].
  replace (vupd 1 (fun _ => true) [false; false]) with (Ok [false; true]) by reflexivity. cbn [obind]. rewrite L.
  rewrite (mr_fold 2 m [false; true]); auto.
  2:{ intros [i j] Hi. apply in_prod_iff in Hi. rewrite !in_seq in Hi. cbn. lia. }
  cbn [obind]. eexists. split; auto. split; [reflexivity|]. cbn -[INR rdiv]. rewrite !Nat.add_0_r, !C.
  assert (forall i j ci cj, nth_error [ng; ps] i = Some ci -> nth_error [ng; ps] j = Some cj -> hits [ng; ps] pred (d_points d) i j = length (filter (fun p => Z.eqb (pred p) ci && Z.eqb (p_y p) cj) (d_points d))) as HH.
  { intros i j ci cj Hi Hj. unfold hits. f_equal. apply filter_ext_in. intros p Hp.
    rewrite (pos0_eq _ ci _ _ N Hi (HP p Hp)). rewrite (pos0_eq _ cj _ _ N Hj); auto. rewrite <- EC. apply (co_listed _ H p Hp). }
  rewrite (HH 1 1 ps ps), (HH 0 0 ng ng), (HH 1 0 ps ng), (HH 0 1 ng ps) by reflexivity. repeat split; reflexivity.
Qed.

Lemma c70_binary_ex : class_ok ex5 /\ d_classes ex5 = [1; 2]%Z /\ exists rep, 
  metricsReport ex5 [[3; 2]; [0; 0]] [2]%Z = Ok rep /\ r_fp rep = 2 /\ r_fn rep = 0.
Proof. split; [apply ex5_ok|]. split; [vm_compute; reflexivity|]. eexists. split; [reflexivity|]. split; reflexivity. Qed.
