(** classificationReport and kfold (C59, C60). *)
From Coq Require Import ZArith Bool Sorted Permutation Lia List Reals Lra.
From Verif Require Import Base ListLib M_Data S_Data L_Data L_Data2 L_Insert L_Split T_Data M_Valid L_Valid T_Valid T_Valid2.
Import ListNotations.
Open Scope nat_scope.

(** Number of positions with real label in class [a] and predicted label in class [b], where a class is
    a test on labels. *)
Definition cnt (a b : Z -> bool) (real pred : list Z) : nat :=
  length (filter (fun rp => a (fst rp) && b (snd rp)) (combine real pred)).
Definition pos (z : Z) : bool := Z.eqb z 1.
Definition neg (z : Z) : bool := negb (Z.eqb z 1).

Lemma cr_fold_two l : (forall rp, In rp l -> fst rp <> snd rp -> Z.eqb (fst rp) 1 = negb (Z.eqb (snd rp) 1)) ->
  forall acc tp fp tn fn,
  fold_left (cr_step true) l (acc, (tp, fp, tn, fn)) =
  (acc + length (filter (fun rp => Z.eqb (fst rp) (snd rp)) l),
    (tp + length (filter (fun rp => pos (fst rp) && pos (snd rp)) l),
     fp + length (filter (fun rp => neg (fst rp) && pos (snd rp)) l),
     tn + length (filter (fun rp => neg (fst rp) && neg (snd rp)) l),
     fn + length (filter (fun rp => pos (fst rp) && neg (snd rp)) l))).
Proof.
  intros H. induction l as [|[r p] l IH]; intros acc tp fp tn fn; cbn [fold_left filter].
  - cbn. rewrite !Nat.add_0_r. auto.
  - specialize (IH (fun rp Hi => H rp (or_intror Hi))). pose proof (H (r, p) (or_introl eq_refl)) as X. unfold cr_step at 2. cbn [fst snd] in *. unfold pos, neg in *.
    destruct (Z.eqb_spec r p) as [->|ne].
    + destruct (Z.eqb p 1); cbn [andb negb length]; rewrite IH; rewrite <- ?Nat.add_succ_comm; auto.
    + specialize (X ne). rewrite X. destruct (Z.eqb p 1); cbn [andb negb length]; rewrite IH; rewrite <- ?Nat.add_succ_comm; auto.
Qed.

Lemma cr_fold_other l : forall acc q, exists a, fold_left (cr_step false) l (acc, q) = (a, q).
Proof.
  induction l as [|[r p] l IH]; intros acc [[[tp fp] tn] fn]; cbn [fold_left]; [eauto|]. unfold cr_step at 2. cbn [fst snd].
  destruct (Z.eqb r p); apply IH.
Qed.

(** C59: with labels 1 (positive) and another one, whenever a report is returned its counters and its
    accuracy are right. *)
Lemma c59_counts : forall (real pred : list Z) (n : Z) (rep : report),
  n <> 1%Z -> length real = length pred -> (forall z, In z real \/ In z pred -> z = 1%Z \/ z = n) ->
  classificationReport real pred = Ok rep ->
  let count (a b : Z) := length (filter (fun rp => Z.eqb (fst rp) a && Z.eqb (snd rp) b) (combine real pred)) in
  r_tp rep = count 1%Z 1%Z /\ r_fp rep = count n 1%Z /\ r_tn rep = count n n /\ r_fn rep = count 1%Z n /\
  r_accuracy rep = Some (INR (count 1%Z 1%Z + count n n) / INR (length real))%R.
Proof.
  intros real pred n rep Hn Hl Hlab H. unfold classificationReport in H. rewrite Hl, Nat.eqb_refl in H. cbn [negb] in H.
  destruct (Nat.eqb_spec (length (cr_labels real pred)) 2) as [E2|N2].
  2:{ destruct (cr_fold_other (combine real pred) 0 (0, 0, 0, 0)) as (a & E). rewrite E in H. discriminate. }
  assert (forall r p, In (r, p) (combine real pred) -> (r = 1 \/ r = n)%Z /\ (p = 1 \/ p = n)%Z) as HL.
  { intros r p Hi. split; apply Hlab; [left; eapply in_combine_l|right; eapply in_combine_r]; eauto. }
  rewrite cr_fold_two in H.
  2:{ intros [r p] Hi Hne. cbn [fst snd] in *. destruct (HL _ _ Hi) as [[->| ->] [->| ->]]; try tauto.
      - rewrite Z.eqb_refl. destruct (Z.eqb_spec n 1); tauto.
      - rewrite Z.eqb_refl. destruct (Z.eqb_spec n 1); tauto. }
  cbn [Nat.add] in H.
  assert (forall a b a' b', (forall z, (z = 1 \/ z = n)%Z -> a z = Z.eqb z a') -> (forall z, (z = 1 \/ z = n)%Z -> b z = Z.eqb z b') ->
     length (filter (fun rp => a (fst rp) && b (snd rp)) (combine real pred)) = length (filter (fun rp => Z.eqb (fst rp) a' && Z.eqb (snd rp) b') (combine real pred))) as FE.
  { intros a b a' b' Ha Hb. f_equal. apply filter_ext_in. intros [r p] Hi. cbn [fst snd]. destruct (HL _ _ Hi). rewrite Ha, Hb; auto. }
  assert (forall z, (z = 1 \/ z = n)%Z -> pos z = Z.eqb z 1) as Hp by auto.
  assert (forall z, (z = 1 \/ z = n)%Z -> neg z = Z.eqb z n) as Hg.
  { intros z [->| ->]; unfold neg; [|rewrite Z.eqb_refl; destruct (Z.eqb_spec n 1); tauto]. destruct (Z.eqb_spec 1 n); [congruence|reflexivity]. }
  rewrite (FE pos pos 1%Z 1%Z), (FE neg pos n 1%Z), (FE neg neg n n), (FE pos neg 1%Z n) in H by auto.
  match type of H with (if ?b then _ else _) = _ => destruct b eqn:Eb end; [discriminate|]. injection H as <-. cbn [r_tp r_fp r_tn r_fn r_accuracy].
  do 4 (split; auto). rewrite Hl. rewrite rdiv_some.
  - f_equal. f_equal. f_equal. clear - HL Hn. induction (combine real pred) as [|[r p] l IH]; auto. cbn [filter fst snd].
    specialize (IH (fun r p Hi => HL r p (or_intror Hi))). destruct (HL r p (or_introl eq_refl)) as [[->| ->] [->| ->]]; rewrite ?Z.eqb_refl;
    destruct (Z.eqb_spec 1 n); try congruence; destruct (Z.eqb_spec n 1); try congruence; cbn [andb length]; lia.
  - apply not_0_INR. intro E. rewrite E in Hl. destruct real; [|discriminate]. destruct pred; discriminate.
Qed.

Lemma c59_counts_ex : exists rep, classificationReport [1; 1; 1; -1; -1]%Z [1; 1; -1; -1; 1]%Z = Ok rep /\
  (r_tp rep, r_fp rep, r_tn rep, r_fn rep) = (2, 1, 1, 1).
Proof. eexists. split; [reflexivity|]. reflexivity. Qed.

(** C59: for any vectors of equal length whose number of distinct labels is not two, the function
    divides the integer 0 by 0. *)
Lemma c59_multiclass_refuted : forall (real pred : list Z), length real = length pred ->
  length (nodup Z.eq_dec (real ++ pred)) <> 2 -> classificationReport real pred = UB.
Proof.
  intros real pred Hl H. unfold classificationReport. rewrite Hl, Nat.eqb_refl. cbn [negb]. unfold cr_labels.
  destruct (Nat.eqb_spec (length (nodup Z.eq_dec (real ++ pred))) 2) as [E|_]; [tauto|].
  destruct (cr_fold_other (combine real pred) 0 (0, 0, 0, 0)) as (a & ->). reflexivity.
Qed.

Lemma c59_multiclass_ex : length (nodup Z.eq_dec ([0; 1; 2] ++ [0; 2; 2])%Z) = 3.
Proof. reflexivity. Qed.

(** C59: the ratios are truncated to 0 or 1: whenever a report is returned, each is 1 exactly when the
    corresponding error counter is 0, and 0 otherwise, so 2 hits out of 3 give sensitivity 0. *)
Lemma c59_ratios_refuted : forall (real pred : list Z) (rep : report),
  classificationReport real pred = Ok rep ->
  r_sensitivity rep = Some (if Nat.eqb (r_fn rep) 0 then 1 else 0)%R /\
  r_precision rep = Some (if Nat.eqb (r_fp rep) 0 then 1 else 0)%R /\
  r_specificity rep = Some (if Nat.eqb (r_fn rep) 0 then 1 else 0)%R.
Proof.
  intros real pred rep H. unfold classificationReport in H. destruct (negb _); [discriminate|].
  destruct (fold_left _ _ _) as [acc [[[tp fp] tn] fn]]. 
  destruct (Nat.eqb_spec (tp + fn) 0) as [|N1]; cbn [orb] in H; [discriminate|]. destruct (Nat.eqb_spec (fn + tn) 0) as [|N2]; cbn [orb] in H; [discriminate|].
  destruct (Nat.eqb_spec (tp + fp) 0) as [|N3]; [discriminate|]. injection H as <-. cbn [r_sensitivity r_precision r_specificity r_fn r_fp].
  assert (forall a b c, a + b <> 0 -> c = a + b -> INR (a / c) = (if Nat.eqb b 0 then 1 else 0)%R) as D.
  { intros a b c Hab ->. destruct (Nat.eqb_spec b 0) as [->|Hb].
    - rewrite Nat.add_0_r in *. rewrite Nat.div_same by auto. auto.
    - rewrite Nat.div_small by lia. auto. }
  rewrite (D tp fn), (D tp fp), (D tn fn); auto; lia.
Qed.

Lemma c59_ratios_ex : exists rep, classificationReport [1; 1; 1; -1; -1]%Z [1; 1; -1; -1; 1]%Z = Ok rep /\
  r_fn rep = 1 /\ r_sensitivity rep = Some 0%R.
Proof. eexists. split; [reflexivity|]. split; reflexivity. Qed.

(** ** kfold *)
Definition rsum (l : list R) : R := fold_right Rplus 0%R l.
(** Percentage of the test points of a pair on which the classifier trained on its training part errs. *)
Definition pct {T C} (train : data T -> C) (evaluate : C -> point T -> Z) (p : data T * data T) : R :=
  (100 * INR (length (filter (fun x => negb (Z.eqb (p_y x) (evaluate (train (fst p)) x))) (d_points (snd p)))) / INR (size (snd p)))%R.

Lemma kf_errors {T C} (train : data T -> C) (evaluate : C -> point T -> Z) cls (pairs : list (data T * data T)) :
  (forall p, In p pairs -> size (snd p) <> 0) ->
  exists errs, map_outcome (kf_error train evaluate false cls) pairs = Ok errs /\ osum errs = Some (rsum (map (pct train evaluate) pairs)) /\
    (0 <= rsum (map (pct train evaluate) pairs) <= 100 * INR (length pairs))%R.
Proof.
  induction pairs as [|p pairs IH]; intro H.
  - exists []. cbn. split; auto. split; auto. lra.
  - destruct IH as (errs & E & O & B); [intros; apply H; right; auto|]. cbn [map_outcome]. unfold kf_error at 1, kf_training_set. cbn [obind].
    assert (0 < INR (size (snd p)))%R as P by (apply lt_0_INR; assert (size (snd p) <> 0) by (apply H; left; auto); lia).
    rewrite rdiv_some by lra. rewrite E. cbn [obind]. eexists. split; [reflexivity|].
    assert (pct train evaluate p = INR (wrong evaluate (train (fst p)) (snd p)) / INR (size (snd p)) * 100)%R as X.
    { unfold pct, wrong. field. lra. }
    assert (0 <= pct train evaluate p <= 100)%R as Bp.
    { rewrite X. unfold Rdiv. assert (INR (wrong evaluate (train (fst p)) (snd p)) <= INR (size (snd p)))%R as W by (apply le_INR; apply filter_length_le').
      pose proof (pos_INR (wrong evaluate (train (fst p)) (snd p))) as W0. split.
      - apply Rmult_le_pos; [|lra]. apply Rmult_le_pos; [auto|]. left. apply Rinv_0_lt_compat. auto.
      - assert (INR (wrong evaluate (train (fst p)) (snd p)) * / INR (size (snd p)) <= 1)%R; [|lra].
        apply (Rmult_le_reg_r (INR (size (snd p)))); auto. rewrite Rmult_assoc, Rinv_l; lra. }
    cbn [osum fold_right map rsum length]. fold (osum errs). rewrite O. fold (rsum (map (pct train evaluate) pairs)). rewrite S_INR. split; [rewrite X; auto|lra].
Qed.

(** The folds of kfold: with at least three folds and as many points, [k] pairs whose test parts are not empty. *)
Lemma kf_pairs {T} (sh : nat -> nat -> list nat) (d s : data T) folds (strat : bool) : data_ok s -> size s = size d -> 3 <= folds <= size d -> (forall site m, Permutation (sh site m) (seq 0 m)) ->
  exists r lo, kfoldsplit (fun a => sh (S a)) s folds strat true = Ok r /\ length r = folds /\
     length lo = (if strat then 0 else size d mod folds) /\
     (forall tr te, In (tr, te) r -> d_points te <> [] /\ Permutation (map content (d_points tr) ++ map content (d_points te) ++ map content lo) (map content (d_points s))) /\
     Permutation (flat_map (fun p => map content (d_points (snd p))) r ++ map content lo) (map content (d_points s)).
Proof.
  intros Hs Sz Hf Hsh.
  destruct strat.
    - destruct (kfold_covers (fun a => sh (S a)) s folds true true Hs ltac:(lia) (fun a => Hsh (S a))) as (parts & r0 & E & L & Er0 & Lr0 & H0 & _).
      destruct (c10_stratified T s folds (sh 1 (size s)) true Hs ltac:(lia) (Hsh _ _)) as (parts' & E' & _ & PC & PK & BAL & _).
      cbn beta in E. rewrite E in E'. injection E' as <-.
      destruct (c55_stratified T (fun a => sh (S a)) s folds true Hs ltac:(lia) (fun a => Hsh (S a))) as (r & Er & Lr & H1 & H2 & _).
      exists r, []. rewrite Er in Er0. injection Er0 as <-. cbn [map]. rewrite app_nil_r. split; auto. split; auto. split; auto. split; auto.
      intros tr te Hi. rewrite app_nil_r. split; [|apply H1; auto].
      apply In_nth_error in Hi. destruct Hi as (i & Hi). destruct (H0 _ _ _ Hi) as (_ & _ & _ & P & HP & EP).
      intro Em. rewrite Em in EP. apply Permutation_nil in EP.
      assert (forall Q, In Q parts -> size Q <= 1) as B1.
      { intros Q HQ. destruct (BAL Q P HQ HP) as [_ B]. unfold size in *. rewrite EP in B. cbn in B. lia. }
      assert (length (flat_map d_points parts) < folds) as B2.
      { rewrite <- L. apply in_split in HP. destruct HP as (l1 & l2 & ->). rewrite flat_map_app, !app_length. cbn [flat_map length]. rewrite app_length, EP. cbn [length].
        assert (forall l, (forall Q, In Q l -> size Q <= 1) -> length (flat_map (@d_points T) l) <= length l) as BB.
        { clear. induction l as [|Q l IH]; intro H; cbn [flat_map length]; auto. rewrite app_length. specialize (IH (fun Q Hi => H Q (or_intror Hi))).
          pose proof (H Q (or_introl eq_refl)) as HQ. unfold size in HQ. lia. }
        pose proof (BB l1 ltac:(intros; apply B1, in_or_app; auto)). pose proof (BB l2 ltac:(intros; apply B1, in_or_app; cbn; auto)). lia. }
      rewrite (Permutation_length (PK eq_refl)) in B2. unfold size in *. lia.
    - destruct (c55_unstratified T (fun a => sh (S a)) s folds true Hs ltac:(lia) (fun a => Hsh (S a))) as (r & lo & Er & Lr & Ll & H1 & H2).
      exists r, lo. split; auto. split; auto. rewrite Sz in Ll. split; auto. split; auto. intros tr te Hi. destruct (H1 _ _ Hi) as (A & B & _). split; auto.
      intro Em. unfold size in B at 1. rewrite Em in B. cbn [length] in B. symmetry in B. apply Nat.div_small_iff in B; lia.
Qed.

(** C60, primal classifiers: with at least three folds and at least as many points as folds, kfold
    returns the mean over k pairs of the error percentage on the test part of the classifier trained on
    the training part, which is disjoint from it; the accuracy is the complement to 100. In the
    stratified case every point is tested exactly once. *)
Lemma c60_primal : forall (T C : Type) (train : data T -> C) (evaluate : C -> point T -> Z)
    (sh : nat -> nat -> list nat) (d : data T) (folds : nat) (stratified : bool),
  data_ok d -> 3 <= folds <= size d -> (forall site m, Permutation (sh site m) (seq 0 m)) ->
  exists (pairs : list (data T * data T)) (left_out : list (point T)) (e : R),
    kfold train evaluate sh d folds stratified false = Ok (Some (e, (100 - e)%R)) /\
    length pairs = folds /\
    length left_out = (if stratified then 0 else size d mod folds) /\
    (forall tr te, In (tr, te) pairs -> d_points te <> [] /\
        Permutation (map content (d_points tr) ++ map content (d_points te) ++ map content left_out) (map content (d_points d))) /\
    Permutation (flat_map (fun p => map content (d_points (snd p))) pairs ++ map content left_out) (map content (d_points d)) /\
    (e = rsum (map (pct train evaluate) pairs) / INR folds)%R /\ (0 <= e <= 100)%R.
Proof.
  intros T C train evaluate sh d folds strat Hd Hf Hsh. unfold kfold. rewrite (c08_copy_value _ _ Hd).
  destruct (c13_shuffle T d (sh 0 (size d)) Hd (Hsh _ _)) as (s & Es & Hs & Ps & _ & _ & Ec & _). rewrite Es. cbn [obind].
  assert (size s = size d) as Sz by (apply Permutation_length; auto).
  destruct (kf_pairs sh d s folds strat Hs Sz Hf Hsh) as (r & lo & Er & Lr & Ll & HR & HT).
  rewrite Er. cbn [obind].
  destruct (kf_errors train evaluate (d_classes d) r) as (errs & E & O & B).
  { intros [tr te] Hi Z. destruct (HR _ _ Hi) as [N _]. cbn [snd] in Z. unfold size in Z. apply length_zero_iff_nil in Z. tauto. }
  rewrite E. cbn [obind]. rewrite O. assert (0 < INR folds)%R as P by (apply lt_0_INR; lia). rewrite rdiv_some by lra.
  exists r, lo. eexists. split; [reflexivity|]. split; auto. split; auto. split.
  { intros tr te Hi. destruct (HR _ _ Hi) as [A A2]. split; auto. rewrite A2. apply Permutation_map. auto. }
  split; [rewrite HT; apply Permutation_map; auto|]. split; auto. rewrite Lr in B. split.
  - apply Rmult_le_pos; [lra|]. left. apply Rinv_0_lt_compat. auto.
  - apply (Rmult_le_reg_r (INR folds)); auto. unfold Rdiv. rewrite Rmult_assoc, Rinv_l; lra.
Qed.

Lemma c60_primal_ex : data_ok ex5 /\ 3 <= 3 <= size ex5 /\ (forall m, Permutation (rev (seq 0 m)) (seq 0 m)).
Proof. split; [apply ex5_ok|]. split; [vm_compute; lia|]. intros; apply Permutation_sym, Permutation_rev. Qed.

(** C60: a classifier reporting the dual formulation is trained on the test fold as well: the samples it
    is given are all test points followed by all training points, whatever the data. *)
Lemma c60_dual_refuted : forall (T : Type) (classes : list Z) (tr te : data T),
  data_ok te -> data_ok tr -> d_dim te = d_dim tr -> d_cdist te = false -> (Z.of_nat (size te + size tr) < 2 ^ 63)%Z ->
  exists ts, kf_training_set true classes (tr, te) = Ok ts /\ d_points ts = d_points te ++ d_points tr.
Proof.
  intros T classes tr te Hte Htr Hd Hc Hs. unfold kf_training_set. cbn [fst snd]. rewrite (c08_copy_value _ _ Hte).
  destruct (c09_join T te tr Hte Htr Hd Hc Hs) as (r & E & P & _). rewrite E. cbn [obind]. eexists. split; [reflexivity|]. exact P.
Qed.

Lemma c60_dual_ex : data_ok ex3 /\ data_ok exj /\ d_dim ex3 = d_dim exj /\ d_cdist ex3 = false /\ (Z.of_nat (size ex3 + size exj) < 2 ^ 63)%Z.
Proof. destruct c09_join_ex as (A & B & C & D & _). split; auto. split; auto. split; auto. split; auto. vm_compute. reflexivity. Qed.
