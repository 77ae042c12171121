(** Properties of the reports of kfold and kkfold. *)
From Coq Require Import ZArith Bool Permutation Lia List Reals Lra.
From Verif Require Import Base ListLib M_Data S_Data L_Data L_Data2 L_Insert L_Split T_Data M_Valid L_Valid T_Valid T_Valid2 T_Valid3 M_Report S_Report.
Import ListNotations.
Open Scope nat_scope.

Definition counts (l : list (Z * Z)) : nat * nat * nat * nat := (num true_pos l, num false_pos l, num true_neg l, num false_neg l).
Lemma num_app f l r : num f (l ++ r) = num f l + num f r.
Proof. unfold num. rewrite filter_app, app_length. reflexivity. Qed.
Lemma num_all l : num true_pos l + num false_pos l + num true_neg l + num false_neg l = length l.
Proof.
  unfold num. induction l as [|a l IH]; [reflexivity|]. cbn [filter]. unfold true_pos at 1, false_pos at 1, true_neg at 1, false_neg at 1.
  destruct (Z.eqb (fst a) (-1)), (Z.eqb (fst a) (snd a)); cbn [negb andb length]; lia.
Qed.
Lemma count_points {T C} (evaluate : C -> point T -> Z) c pts l : fold_left (kr_count evaluate true c) pts (counts l) = counts (l ++ map (fun x => (p_y x, evaluate c x)) pts).
Proof.
  revert l. induction pts as [|p pts IH]; intro l; [rewrite app_nil_r; reflexivity|]. cbn [fold_left map].
  assert (kr_count evaluate true c (counts l) p = counts (l ++ [(p_y p, evaluate c p)])) as ->.
  { unfold counts. rewrite !num_app. unfold kr_count, num, true_pos, false_pos, true_neg, false_neg. cbn [filter fst snd andb].
    destruct (Z.eqb (p_y p) (evaluate c p)), (Z.eqb (p_y p) (-1)); cbn [negb andb length]; repeat f_equal; lia. }
  rewrite IH, <- app_assoc. reflexivity.
Qed.
Lemma upto_S n g : upto (S n) g = g 1 + upto n (fun j => g (S j)).
Proof. unfold upto. cbn [seq map list_sum fold_right]. f_equal. rewrite <- seq_shift, map_map. reflexivity. Qed.
Lemma rupto_S n g : rupto (S n) g = (g 1%nat + rupto n (fun j => g (S j)))%R.
Proof. unfold rupto. cbn [seq map fold_right]. f_equal. rewrite <- seq_shift, map_map. reflexivity. Qed.
Lemma upto_ext n g h : (forall j, 1 <= j <= n -> g j = h j) -> upto n g = upto n h.
Proof. intro H. unfold upto. f_equal. apply map_ext_in. intros j Hj. apply in_seq in Hj. apply H. lia. Qed.
Lemma rupto_ext n g h : (forall j, 1 <= j <= n -> g j = h j) -> rupto n g = rupto n h.
Proof. intro H. unfold rupto. f_equal. apply map_ext_in. intros j Hj. apply in_seq in Hj. apply H. lia. Qed.

(** The share as the code computes it: not finite if nothing is counted. *)
Definition oshare f g l : option R := rdiv (INR (num f l)) (INR (num f l + num g l)).
Definition oupto (n : nat) (o : option R) (g : nat -> option R) : option R := fold_left oadd (map g (seq 1 n)) o.
Lemma oupto_S n o g : oupto (S n) o g = oupto n (oadd o (g 1)) (fun j => g (S j)).
Proof. unfold oupto. cbn [seq map fold_left]. f_equal. rewrite <- seq_shift, map_map. reflexivity. Qed.
Lemma oupto_ext n o g h : (forall j, 1 <= j <= n -> g j = h j) -> oupto n o g = oupto n o h.
Proof. intro H. unfold oupto. f_equal. apply map_ext_in. intros j Hj. apply in_seq in Hj. apply H. lia. Qed.
Lemma oupto_none n g : oupto n None g = None.
Proof. revert g. induction n as [|n IH]; intro g; [reflexivity|]. rewrite oupto_S. apply IH. Qed.
Lemma oupto_some n x g h : (forall j, 1 <= j <= n -> g j = Some (h j)) -> oupto n (Some x) g = Some (x + rupto n h)%R.
Proof.
  revert x g h. induction n as [|n IH]; intros x g h H.
  - unfold oupto, rupto. cbn. f_equal. lra.
  - rewrite oupto_S, rupto_S, H by lia. cbn [oadd]. rewrite (IH _ _ (fun j => h (S j))) by (intros; apply H; lia). f_equal. lra.
Qed.

Section Folds.
Context {T C : Type} (train : data T -> C) (evaluate : C -> point T -> Z).
Notation ans := (answers train evaluate).
Lemma answers_app p q : ans (p ++ q) = ans p ++ ans q.
Proof. unfold answers. apply flat_map_app. Qed.
Lemma folds_ok classes l : length classes = 2 -> (forall p, In p l -> size (snd p) <> 0) -> forall q r e, exists r',
  kr_folds train evaluate false classes l (counts (ans q), r, Some e) = Ok (counts (ans (q ++ l)), r', Some (e + rsum (map (pct train evaluate) l))%R) /\
  kr_tp r' = kr_tp r + upto (length l) (fun j => num true_pos (ans (q ++ firstn j l))) /\
  kr_fp r' = kr_fp r + upto (length l) (fun j => num false_pos (ans (q ++ firstn j l))) /\
  kr_tn r' = kr_tn r + upto (length l) (fun j => num true_neg (ans (q ++ firstn j l))) /\
  kr_fn r' = kr_fn r + upto (length l) (fun j => num false_neg (ans (q ++ firstn j l))) /\
  kr_precision r' = oupto (length l) (kr_precision r) (fun j => oshare true_pos false_pos (ans (q ++ firstn j l))) /\
  kr_recall r' = oupto (length l) (kr_recall r) (fun j => oshare true_pos false_neg (ans (q ++ firstn j l))) /\
  kr_tnrate r' = oupto (length l) (kr_tnrate r) (fun j => oshare true_neg false_pos (ans (q ++ firstn j l))).
Proof.
  intros H2. induction l as [|p l IH]; intros HN q r e.
  - exists r. cbn [kr_folds length map rsum fold_right]. rewrite app_nil_r. unfold upto, oupto. cbn [seq map list_sum fold_right fold_left]. rewrite !Nat.add_0_r, Rplus_0_r. auto 10.
  - cbn [kr_folds]. unfold kr_fold, kf_training_set. cbn [obind]. rewrite H2. cbn [Nat.eqb]. rewrite count_points.
    assert (ans q ++ map (fun x => (p_y x, evaluate (train (fst p)) x)) (d_points (snd p)) = ans (q ++ [p])) as -> by (rewrite answers_app; f_equal; unfold answers; cbn [flat_map]; rewrite app_nil_r; reflexivity).
    assert (0 < INR (size (snd p)))%R as P by (apply lt_0_INR; assert (size (snd p) <> 0) by (apply HN; left; auto); lia).
    rewrite rdiv_some by lra. cbn [oadd]. 
    assert (INR (wrong evaluate (train (fst p)) (snd p)) / INR (size (snd p)) * 100 = pct train evaluate p)%R as -> by (unfold pct, wrong; field; lra).
    set (r1 := kr_add true (counts (ans (q ++ [p]))) r).
    destruct (IH (fun x Hx => HN x (or_intror Hx)) (q ++ [p]) r1 (e + pct train evaluate p)%R) as (r' & E & A1 & A2 & A3 & A4 & A5 & A6 & A7).
    exists r'. assert ((q ++ [p]) ++ l = q ++ p :: l) as EQ by (rewrite <- app_assoc; reflexivity). rewrite EQ in E. rewrite E.
    split; [do 3 f_equal; cbn [map rsum fold_right]; fold (rsum (map (pct train evaluate) l)); lra|].
    assert (forall j, (q ++ [p]) ++ firstn j l = q ++ firstn (S j) (p :: l)) as SH by (intro; rewrite <- app_assoc; reflexivity).
    cbn [length]. rewrite !upto_S, !oupto_S. cbn [firstn]. 
    split; [rewrite A1; unfold r1, kr_add, counts; cbn [kr_tp]; rewrite <- Nat.add_assoc; do 2 f_equal; apply upto_ext; intros; rewrite SH; reflexivity|].
    split; [rewrite A2; unfold r1, kr_add, counts; cbn [kr_fp]; rewrite <- Nat.add_assoc; do 2 f_equal; apply upto_ext; intros; rewrite SH; reflexivity|].
    split; [rewrite A3; unfold r1, kr_add, counts; cbn [kr_tn]; rewrite <- Nat.add_assoc; do 2 f_equal; apply upto_ext; intros; rewrite SH; reflexivity|].
    split; [rewrite A4; unfold r1, kr_add, counts; cbn [kr_fn]; rewrite <- Nat.add_assoc; do 2 f_equal; apply upto_ext; intros; rewrite SH; reflexivity|].
    split; [|split].
    + rewrite A5. apply oupto_ext. intros. rewrite SH. reflexivity.
    + rewrite A6. apply oupto_ext. intros. rewrite SH. reflexivity.
    + rewrite A7. apply oupto_ext. intros. rewrite SH. reflexivity.
Qed.
End Folds.

Section Shares.
Context {T C : Type} (train : data T -> C) (evaluate : C -> point T -> Z).
Notation ans := (answers train evaluate).
Lemma first_le f pairs j : 1 <= j -> num f (ans (firstn 1 pairs)) <= num f (ans (firstn j pairs)).
Proof. intro H. destruct pairs as [|p l]; [rewrite !firstn_nil; lia|]. destruct j as [|j]; [lia|]. cbn [firstn]. change (p :: firstn j l) with ([p] ++ firstn j l). rewrite answers_app, num_app. lia. Qed.
Lemma shares f g pairs : pairs <> [] ->
  oupto (length pairs) (Some 0%R) (fun j => oshare f g (ans (firstn j pairs))) =
  (if Nat.eqb (num f (ans (firstn 1 pairs)) + num g (ans (firstn 1 pairs))) 0 then None else Some (rupto (length pairs) (fun j => share f g (ans (firstn j pairs))))).
Proof.
  intro HN. destruct (Nat.eqb_spec (num f (ans (firstn 1 pairs)) + num g (ans (firstn 1 pairs))) 0) as [Z|N].
  - destruct pairs as [|p l]; [contradiction|]. cbn [length]. rewrite oupto_S. cbn beta. unfold oshare at 1, rdiv. rewrite Z. destruct (Req_EM_T (INR 0) 0) as [_|X]; [|cbn in X; lra]. cbn [oadd]. apply oupto_none.
  - rewrite (oupto_some _ _ _ (fun j => share f g (ans (firstn j pairs)))); [f_equal; lra|]. intros j Hj. unfold oshare, share. apply rdiv_some.
    pose proof (first_le f pairs j ltac:(lia)). pose proof (first_le g pairs j ltac:(lia)). apply not_0_INR. lia.
Qed.
End Shares.

(** C97: with two classes the report of kfold is made of the folds' cumulated counts: field by field, the sum over j of the counts, and of the shares, over the first j folds. *)
Lemma c97_report : forall (T C : Type) (train : data T -> C) (evaluate : C -> point T -> Z) (sh : nat -> nat -> list nat) (d : data T) (folds : nat) (stratified : bool),
  data_ok d -> 3 <= folds <= size d -> length (d_classes d) = 2 -> (forall site m, Permutation (sh site m) (seq 0 m)) ->
  exists (pairs : list (data T * data T)) (left_out : list (point T)) (e : R) (rep : kreport),
    kfold_report train evaluate sh d folds stratified false = Ok rep /\
    kfold train evaluate sh d folds stratified false = Ok (Some (e, (100 - e)%R)) /\ kr_error rep = Some e /\ kr_accuracy rep = Some (100 - e)%R /\
    e = (rsum (map (pct train evaluate) pairs) / INR folds)%R /\
    length pairs = folds /\ length left_out = (if stratified then 0 else size d mod folds) /\
    (forall tr te, In (tr, te) pairs -> d_points te <> [] /\
        Permutation (map content (d_points tr) ++ map content (d_points te) ++ map content left_out) (map content (d_points d))) /\
    Permutation (flat_map (fun p => map content (d_points (snd p))) pairs ++ map content left_out) (map content (d_points d)) /\
    let after j := answers train evaluate (firstn j pairs) in
    kr_tp rep = upto folds (fun j => num true_pos (after j)) /\ kr_fp rep = upto folds (fun j => num false_pos (after j)) /\
    kr_tn rep = upto folds (fun j => num true_neg (after j)) /\ kr_fn rep = upto folds (fun j => num false_neg (after j)) /\
    kr_precision rep = (if Nat.eqb (num true_pos (after 1) + num false_pos (after 1)) 0 then None else Some (rupto folds (fun j => share true_pos false_pos (after j)))) /\
    kr_recall rep = (if Nat.eqb (num true_pos (after 1) + num false_neg (after 1)) 0 then None else Some (rupto folds (fun j => share true_pos false_neg (after j)))) /\
    kr_tnrate rep = (if Nat.eqb (num true_neg (after 1) + num false_pos (after 1)) 0 then None else Some (rupto folds (fun j => share true_neg false_pos (after j)))).
Proof.
  intros T C train evaluate sh d folds strat Hd Hf H2 Hsh. unfold kfold_report, kfold. rewrite (c08_copy_value _ _ Hd).
  destruct (c13_shuffle T d (sh 0 (size d)) Hd (Hsh _ _)) as (s & Es & Hs & Ps & _ & _ & Ec & _). rewrite Es. cbn [obind].
  assert (size s = size d) as Sz by (apply Permutation_length; auto).
  destruct (kf_pairs sh d s folds strat Hs Sz Hf Hsh) as (r & lo & Er & Lr & Ll & HR & HT). rewrite Er. cbn [obind].
  assert (forall p, In p r -> size (snd p) <> 0) as HN.
  { intros [tr te] Hi Z. destruct (HR _ _ Hi) as [N _]. cbn [snd] in Z. unfold size in Z. apply length_zero_iff_nil in Z. tauto. }
  destruct (kf_errors train evaluate (d_classes d) r HN) as (errs & E & O & _). rewrite E. cbn [obind]. rewrite O.
  destruct (folds_ok train evaluate (d_classes d) r H2 HN [] kr_default 0%R) as (r' & F & A1 & A2 & A3 & A4 & A5 & A6 & A7).
  change (counts (answers train evaluate [])) with (0, 0, 0, 0)%nat in F. rewrite F. cbn [obind]. rewrite Rplus_0_l.
  assert (0 < INR folds)%R as P by (apply lt_0_INR; lia). rewrite rdiv_some by lra.
  exists r, lo. eexists _, _. split; [reflexivity|]. split; [reflexivity|]. split; [reflexivity|]. split; [reflexivity|]. split; [reflexivity|]. split; [exact Lr|]. split; [exact Ll|]. split.
  { intros tr te Hi. destruct (HR _ _ Hi) as [A A']. split; auto. rewrite A'. apply Permutation_map. auto. }
  split; [rewrite HT; apply Permutation_map; auto|]. cbv zeta. cbn [kr_tp kr_fp kr_tn kr_fn kr_precision kr_recall kr_tnrate].
  cbn [app] in A1, A2, A3, A4, A5, A6, A7. cbn [kr_default kr_tp kr_fp kr_tn kr_fn kr_precision kr_recall kr_tnrate] in A1, A2, A3, A4, A5, A6, A7.
  assert (r <> []) as NE by (intros ->; cbn in Lr; lia). rewrite shares in A5, A6, A7 by exact NE. rewrite Lr in *. cbn [Nat.add] in A1, A2, A3, A4. auto 10.
Qed.
(** C97: the four counts of the report never add up to the number of points tested: they exceed the size of the data. *)
Lemma c97_counts_refuted : forall (T C : Type) (train : data T -> C) (evaluate : C -> point T -> Z) (sh : nat -> nat -> list nat) (d : data T) (folds : nat) (stratified : bool),
  data_ok d -> 3 <= folds <= size d -> length (d_classes d) = 2 -> (forall site m, Permutation (sh site m) (seq 0 m)) ->
  exists rep, kfold_report train evaluate sh d folds stratified false = Ok rep /\ size d < kr_tp rep + kr_fp rep + kr_tn rep + kr_fn rep.
Proof.
  intros T C train evaluate sh d folds strat Hd Hf H2 Hsh.
  destruct (c97_report T C train evaluate sh d folds strat Hd Hf H2 Hsh) as (pairs & lo & e & rep & E & _ & _ & _ & _ & Lp & Ll & NE & PM & A). cbv zeta in A. destruct A as (A1 & A2 & A3 & A4 & _).
  exists rep. split; [exact E|]. rewrite A1, A2, A3, A4.
  assert (forall n, upto n (fun j => num true_pos (answers train evaluate (firstn j pairs))) + upto n (fun j => num false_pos (answers train evaluate (firstn j pairs))) +
     upto n (fun j => num true_neg (answers train evaluate (firstn j pairs))) + upto n (fun j => num false_neg (answers train evaluate (firstn j pairs))) = upto n (fun j => length (answers train evaluate (firstn j pairs)))) as ->.
  { intro n. unfold upto. induction (seq 1 n) as [|j l IH]; [reflexivity|]. cbn [map list_sum fold_right]. unfold list_sum in IH. rewrite <- (num_all (answers train evaluate (firstn j pairs))). lia. }
  assert (length (answers train evaluate pairs) + length lo = size d) as TOT.
  { apply Permutation_length in PM. rewrite app_length, !map_length in PM. unfold size. rewrite <- PM. f_equal. unfold answers. clear. induction pairs as [|p l IH]; [reflexivity|]. cbn [flat_map]. rewrite !app_length, !map_length, IH. reflexivity. }
  assert (forall j, j <= length pairs -> j <= length (answers train evaluate (firstn j pairs))) as LO.
  { clear - NE. induction pairs as [|[tr te] l IH]; intros [|j] Hj; try (cbn in *; lia). cbn [firstn]. unfold answers in *. cbn [flat_map]. rewrite app_length, map_length. cbn [length] in Hj.
    specialize (IH (fun a b H => NE a b (or_intror H)) j ltac:(lia)). destruct (NE tr te (or_introl eq_refl)) as [N _]. cbn [snd]. destruct (d_points te); [contradiction|]. cbn [length]. lia. }
  destruct folds as [|[|[|k]]]; try lia.
  assert (forall n g, upto (S n) g = upto n g + g (S n)) as UR. { intros n g. unfold upto. rewrite seq_S, map_app, list_sum_app. cbn. lia. }
  rewrite UR. cbv beta. replace (firstn (S (S (S k))) pairs) with pairs by (rewrite <- Lp; symmetry; apply firstn_all). rewrite !upto_S. cbv beta.
  assert (forall n g, (forall j, 1 <= j <= n -> 3 <= g j) -> n <= upto n g) as LB. { clear. induction n as [|n IH]; intros g H; [lia|]. rewrite upto_S. pose proof (H 1 ltac:(lia)). specialize (IH (fun j => g (S j)) ltac:(intros; apply H; lia)). lia. }
  pose proof (LO 1 ltac:(lia)). pose proof (LO 2 ltac:(lia)).
  specialize (LB k (fun j => length (answers train evaluate (firstn (S (S j)) pairs))) ltac:(intros j Hj; pose proof (LO (S (S j)) ltac:(lia)); lia)).
  assert (length lo < S (S (S k))). { rewrite Ll. destruct strat; [lia|]. apply Nat.mod_upper_bound. lia. } lia.
Qed.
(** C97: a classifier that never errs is not reported with precision and recall 1: they are the number of folds, or not a number. *)
Lemma c97_perfect_refuted : forall (T C : Type) (train : data T -> C) (evaluate : C -> point T -> Z) (sh : nat -> nat -> list nat) (d : data T) (folds : nat) (stratified : bool),
  data_ok d -> 3 <= folds <= size d -> length (d_classes d) = 2 -> (forall site m, Permutation (sh site m) (seq 0 m)) -> (forall c p, evaluate c p = p_y p) ->
  exists rep, kfold_report train evaluate sh d folds stratified false = Ok rep /\ kr_error rep = Some 0%R /\ kr_accuracy rep = Some 100%R /\
    (kr_precision rep = None \/ kr_precision rep = Some (INR folds)) /\ (kr_recall rep = None \/ kr_recall rep = Some (INR folds)).
Proof.
  intros T C train evaluate sh d folds strat Hd Hf H2 Hsh HP.
  destruct (c97_report T C train evaluate sh d folds strat Hd Hf H2 Hsh) as (pairs & lo & e & rep & E & _ & E1 & E2 & E3 & Lp & Ll & NE & PM & A). cbv zeta in A. destruct A as (_ & _ & _ & _ & A5 & A6 & _).
  exists rep. split; [exact E|].
  assert (e = 0)%R as ->.
  { rewrite E3. replace (rsum (map (pct train evaluate) pairs)) with 0%R; [field; apply not_0_INR; lia|]. clear - HP. induction pairs as [|p l IH]; [reflexivity|]. cbn [map rsum fold_right]. fold (rsum (map (pct train evaluate) l)). rewrite <- IH.
    unfold pct. replace (filter _ (d_points (snd p))) with (@nil (point T)); [cbn; unfold Rdiv; ring|]. symmetry. induction (d_points (snd p)) as [|x r IH']; [reflexivity|]. cbn [filter]. rewrite HP, Z.eqb_refl. exact IH'. }
  split; [exact E1|]. split; [rewrite E2; f_equal; lra|].
  assert (forall l, num false_pos (answers train evaluate l) = 0 /\ num false_neg (answers train evaluate l) = 0) as ZZ.
  { intro l. assert (forall a, In a (answers train evaluate l) -> fst a = snd a) as H. { intros a Ha. unfold answers in Ha. apply in_flat_map in Ha. destruct Ha as (p & _ & Ha). apply in_map_iff in Ha. destruct Ha as (x & <- & _). cbn [fst snd]. symmetry. apply HP. }
    unfold num. induction (answers train evaluate l) as [|a r IH]; [auto|]. cbn [filter]. unfold false_pos at 1, false_neg at 1. rewrite (H a (or_introl eq_refl)), Z.eqb_refl. cbn [negb]. rewrite !andb_false_r. apply IH. intros b Hb. apply H. right. exact Hb. }
  assert (forall g, (forall l, num g (answers train evaluate l) = 0) -> Nat.eqb (num true_pos (answers train evaluate (firstn 1 pairs)) + num g (answers train evaluate (firstn 1 pairs))) 0 = false ->
     rupto folds (fun j => share true_pos g (answers train evaluate (firstn j pairs))) = INR folds) as SUM.
  { intros g Hg N. apply Nat.eqb_neq in N. rewrite Hg in N. rewrite (rupto_ext _ _ (fun _ => 1%R)).
    - clear. unfold rupto. assert (forall n s, fold_right Rplus 0%R (map (fun _ => 1%R) (seq s n)) = INR n) as X; [|apply X]. induction n as [|n IH]; intro s; [reflexivity|]. cbn [seq map fold_right]. rewrite IH, S_INR. lra.
    - intros j Hj. unfold share. rewrite Hg, Nat.add_0_r. pose proof (first_le train evaluate true_pos pairs j ltac:(lia)). field. apply not_0_INR. lia. }
  split; [rewrite A5|rewrite A6].
  - clear A6. destruct (Nat.eqb _ 0) eqn:N in A5 |- *; [left; reflexivity|right]. f_equal. apply SUM; [intro l; apply ZZ|exact N].
  - clear A5. destruct (Nat.eqb _ 0) eqn:N in A6 |- *; [left; reflexivity|right]. f_equal. apply SUM; [intro l; apply ZZ|exact N].
Qed.
(** C97: with two classes none of which is -1 there are no negatives at all: the true negative rate is not a number. *)
Lemma c97_no_negative_refuted : forall (T C : Type) (train : data T -> C) (evaluate : C -> point T -> Z) (sh : nat -> nat -> list nat) (d : data T) (folds : nat) (stratified : bool),
  data_ok d -> 3 <= folds <= size d -> length (d_classes d) = 2 -> (forall site m, Permutation (sh site m) (seq 0 m)) -> (forall p, In p (d_points d) -> p_y p <> (-1)%Z) ->
  exists rep, kfold_report train evaluate sh d folds stratified false = Ok rep /\ kr_tnrate rep = None /\ kr_fp rep = 0 /\ kr_tn rep = 0.
Proof.
  intros T C train evaluate sh d folds strat Hd Hf H2 Hsh HP.
  destruct (c97_report T C train evaluate sh d folds strat Hd Hf H2 Hsh) as (pairs & lo & e & rep & E & _ & _ & _ & _ & Lp & Ll & NE & PM & A). cbv zeta in A. destruct A as (_ & A2 & A3 & _ & _ & _ & A7).
  exists rep. split; [exact E|].
  assert (forall j, num false_pos (answers train evaluate (firstn j pairs)) = 0 /\ num true_neg (answers train evaluate (firstn j pairs)) = 0) as ZZ.
  { intro j. assert (forall a, In a (answers train evaluate (firstn j pairs)) -> Z.eqb (fst a) (-1) = false) as H.
    { intros a Ha. unfold answers in Ha. apply in_flat_map in Ha. destruct Ha as (p & Hp & Ha). apply in_map_iff in Ha. destruct Ha as (x & <- & Hx). cbn [fst]. apply Z.eqb_neq.
      assert (In p pairs) as Hp' by (rewrite <- (firstn_skipn j pairs); apply in_or_app; left; exact Hp).
      assert (In (content x) (map content (d_points d))) as Hc.
      { apply (Permutation_in _ PM). apply in_or_app. left. apply in_flat_map. exists p. split; [exact Hp'|]. apply in_map. exact Hx. }
      apply in_map_iff in Hc. destruct Hc as (y & Ey & Hy). specialize (HP y Hy). unfold content in Ey. congruence. }
    unfold num. induction (answers train evaluate (firstn j pairs)) as [|a r IH]; [auto|]. cbn [filter]. unfold false_pos at 1, true_neg at 1. rewrite (H a (or_introl eq_refl)). cbn [andb]. apply IH. intros b Hb. apply H. right. exact Hb. }
  assert (forall g, (forall j, g j = 0) -> forall n, upto n g = 0) as U0. { intros g Hg n. unfold upto. induction (seq 1 n) as [|j l IH]; [reflexivity|]. cbn [map list_sum fold_right]. rewrite Hg. exact IH. }
  rewrite A7, A2, A3. rewrite (proj1 (ZZ 1)), (proj2 (ZZ 1)). split; [reflexivity|]. split; apply U0; intro j; apply ZZ.
Qed.
Lemma folds_idle {T C} (train : data T -> C) (evaluate : C -> point T -> Z) dual classes l : length classes <> 2 -> forall s r e s' r' e', kr_folds train evaluate dual classes l (s, r, e) = Ok (s', r', e') -> r' = r.
Proof.
  intro H2. apply Nat.eqb_neq in H2. induction l as [|p l IH]; intros s r e s' r' e' E; cbn [kr_folds] in E; [congruence|]. unfold kr_fold in E. destruct (kf_training_set dual classes p) as [ts| |]; cbn [obind] in E; try discriminate.
  rewrite H2 in E. apply IH in E. rewrite E. unfold kr_add. destruct (fold_left _ _ s) as [[[? ?] ?] ?]. reflexivity.
Qed.
(** C97: with any other number of classes the fields other than error and accuracy stay 0. *)
Lemma c97_other_classes : forall (T C : Type) (train : data T -> C) (evaluate : C -> point T -> Z) (sh : nat -> nat -> list nat) (d : data T) (folds : nat) (stratified dual : bool) (rep : kreport),
  length (d_classes d) <> 2 -> kfold_report train evaluate sh d folds stratified dual = Ok rep ->
  kr_precision rep = Some 0%R /\ kr_recall rep = Some 0%R /\ kr_tnrate rep = Some 0%R /\ kr_tp rep = 0 /\ kr_fp rep = 0 /\ kr_tn rep = 0 /\ kr_fn rep = 0.
Proof.
  intros T C train evaluate sh d folds strat dual rep H2 E. unfold kfold_report in E. destruct (shuffle _ _) as [s| |]; cbn [obind] in E; try discriminate. destruct (kfoldsplit _ _ _ _ _) as [pairs| |]; cbn [obind] in E; try discriminate.
  destruct (kr_folds _ _ _ _ _ _) as [[[s' r'] e']| |] eqn:F; cbn [obind] in E; try discriminate. apply folds_idle in F; [|exact H2]. subst r'. injection E as <-. cbn. auto 10.
Qed.
Lemma folds_err {T C} (train : data T -> C) (evaluate : C -> point T -> Z) classes l : (forall p, In p l -> size (snd p) <> 0) -> forall s r e, exists s' r',
  kr_folds train evaluate false classes l (s, r, Some e) = Ok (s', r', Some (e + rsum (map (pct train evaluate) l))%R).
Proof.
  induction l as [|p l IH]; intros HN s r e.
  - exists s, r. cbn. rewrite Rplus_0_r. reflexivity.
  - cbn [kr_folds]. unfold kr_fold, kf_training_set. cbn [obind].
    assert (0 < INR (size (snd p)))%R as P by (apply lt_0_INR; assert (size (snd p) <> 0) by (apply HN; left; auto); lia). rewrite rdiv_some by lra. cbn [oadd].
    assert (INR (wrong evaluate (train (fst p)) (snd p)) / INR (size (snd p)) * 100 = pct train evaluate p)%R as -> by (unfold pct, wrong; field; lra).
    match goal with |- context [kr_folds _ _ _ _ l (?a, ?b, Some ?c)] => destruct (IH (fun x Hx => HN x (or_intror Hx)) a b c) as (s' & r' & ->) end.
    exists s', r'. do 3 f_equal. cbn [map rsum fold_right]. fold (rsum (map (pct train evaluate) l)). lra.
Qed.
Lemma report_error {T C} (train : data T -> C) (evaluate : C -> point T -> Z) sh (d : data T) folds strat : data_ok d -> 3 <= folds <= size d -> (forall site m, Permutation (sh site m) (seq 0 m)) ->
  exists rep e, kfold_report train evaluate sh d folds strat false = Ok rep /\ kfold train evaluate sh d folds strat false = Ok (Some (e, (100 - e)%R)) /\ kr_error rep = Some e /\ (0 <= e <= 100)%R.
Proof.
  intros Hd Hf Hsh. destruct (c60_primal T C train evaluate sh d folds strat Hd Hf Hsh) as (_ & _ & e0 & E0 & _ & _ & _ & _ & _ & B). unfold kfold_report. pose proof E0 as E1. unfold kfold in E0. rewrite (c08_copy_value _ _ Hd) in *.
  destruct (c13_shuffle T d (sh 0 (size d)) Hd (Hsh _ _)) as (s & Es & Hs & Ps & _ & _ & Ec & _). rewrite Es in *. cbn [obind] in *.
  assert (size s = size d) as Sz by (apply Permutation_length; auto).
  destruct (kf_pairs sh d s folds strat Hs Sz Hf Hsh) as (r & lo & Er & Lr & Ll & HR & HT). rewrite Er in *. cbn [obind] in *.
  assert (forall p, In p r -> size (snd p) <> 0) as HN.
  { intros [tr te] Hi Z. destruct (HR _ _ Hi) as [N _]. cbn [snd] in Z. unfold size in Z. apply length_zero_iff_nil in Z. tauto. }
  destruct (kf_errors train evaluate (d_classes d) r HN) as (errs & E & O & _). rewrite E in E0. cbn [obind] in E0. rewrite O in E0.
  destruct (folds_err train evaluate (d_classes d) r HN (0, 0, 0, 0) kr_default 0%R) as (s' & r' & F). rewrite F. cbn [obind]. rewrite Rplus_0_l.
  assert (0 < INR folds)%R as P by (apply lt_0_INR; lia). rewrite rdiv_some in * by lra. injection E0 as E0 _.
  eexists _, e0. split; [reflexivity|]. split; [exact E1|]. cbn [kr_error]. split; [rewrite E0; reflexivity|exact B].
Qed.
Lemma kk_sum_ok {T C} (train : data T -> C) (evaluate : C -> point T -> Z) sh (d : data T) folds strat : data_ok d -> 3 <= folds <= size d -> (forall i site m, Permutation (sh i site m) (seq 0 m)) -> forall n i x,
  exists es, length es = n /\ kk_sum train evaluate sh d folds strat false n i (Some x) = Ok (Some (x + rsum es)%R) /\ (0 <= rsum es <= 100 * INR n)%R /\
    forall k e, nth_error es k = Some e -> kfold train evaluate (sh (S (i + k))) d folds strat false = Ok (Some (e, (100 - e)%R)).
Proof.
  intros Hd Hf Hsh. induction n as [|n IH]; intros i x.
  - exists []. cbn. split; [reflexivity|]. split; [rewrite Rplus_0_r; reflexivity|]. split; [lra|]. intros [|k] e; discriminate.
  - cbn [kk_sum]. destruct (report_error train evaluate (sh (S i)) d folds strat Hd Hf (Hsh (S i))) as (rep & e & E & K & R & B). rewrite E. cbn [obind]. rewrite R. cbn [oadd].
    destruct (IH (S i) (x + e)%R) as (es & L & Es & Bs & N). exists (e :: es). split; [cbn; lia|]. rewrite Es. cbn [rsum fold_right]. fold (rsum es). split; [do 2 f_equal; lra|]. rewrite S_INR. split; [lra|].
    intros [|k] e' H; cbn [nth_error] in H; [injection H as <-; rewrite Nat.add_0_r; exact K|]. replace (i + S k) with (S i + k) by lia. apply N. exact H.
Qed.

(** C98: kkfold reports the mean of the errors of its k-fold executions, each on its own shuffle, and its complement; precision, recall, true negative rate and the counts are 0 whatever the classifier.
    The classifier is left trained on the training part of one more, stratified, split. *)
Lemma c98_mean : forall (T C : Type) (train : data T -> C) (evaluate : C -> point T -> Z) (sh : nat -> nat -> nat -> list nat) (d : data T) (qtde folds : nat) (stratified : bool),
  data_ok d -> 3 <= folds <= size d -> 1 <= qtde -> (forall i site m, Permutation (sh i site m) (seq 0 m)) ->
  exists (rep : kreport) (es : list R) (tr te : data T),
    kkfold train evaluate sh d qtde folds stratified false = Ok (rep, train tr) /\ length es = qtde /\
    (forall k e, nth_error es k = Some e -> kfold train evaluate (sh (S k)) d folds stratified false = Ok (Some (e, (100 - e)%R))) /\
    kr_error rep = Some (rsum es / INR qtde)%R /\ kr_accuracy rep = Some (100 - rsum es / INR qtde)%R /\ (0 <= rsum es / INR qtde <= 100)%R /\
    kr_precision rep = Some 0%R /\ kr_recall rep = Some 0%R /\ kr_tnrate rep = Some 0%R /\ kr_tp rep = 0 /\ kr_fp rep = 0 /\ kr_tn rep = 0 /\ kr_fn rep = 0 /\
    Permutation (d_points tr ++ d_points te) (d_points d) /\ size d / folds <= size te <= size d / folds + 1 /\ d_classes tr = d_classes d.
Proof.
  intros T C train evaluate sh d qtde folds strat Hd Hf Hq Hsh. unfold kkfold.
  destruct (c56_stratified T (sh 0) d folds true Hd ltac:(lia) (Hsh 0)) as (tr & te & -> & _ & PK & SZ & _). cbn [obind].
  destruct (kk_sum_ok train evaluate sh d folds strat Hd Hf Hsh qtde 0 0%R) as (es & L & E & B & N). destruct qtde as [|q]; [lia|]. rewrite E. cbn [obind].
  destruct (Nat.eqb_spec folds 0) as [|_]; [lia|]. assert (0 < INR (S q))%R as Q by (apply lt_0_INR; lia). assert (0 < INR (S q * folds))%R as Q' by (apply lt_0_INR; nia).
  rewrite Rplus_0_l. rewrite !rdiv_some by lra. cbn [obind fst].
  exists (mkKr (Some (100 - (100 - rsum es / INR (S q))))%R (Some (100 - rsum es / INR (S q)))%R (Some (0 / INR (S q * folds)))%R (Some (0 / INR (S q * folds)))%R (Some (0 / INR (S q * folds)))%R
    (0 / (S q * folds)) (0 / (S q * folds)) (0 / (S q * folds)) (0 / (S q * folds))), es, (setClasses tr (d_classes d)), te.
  split; [reflexivity|]. split; [exact L|]. split; [exact N|]. cbn [kr_error kr_accuracy kr_precision kr_recall kr_tnrate kr_tp kr_fp kr_tn kr_fn].
  split; [f_equal; lra|]. split; [reflexivity|].
  split; [split; [apply Rmult_le_pos; [lra|left; apply Rinv_0_lt_compat; lra]|apply (Rmult_le_reg_r (INR (S q))); auto; unfold Rdiv; rewrite Rmult_assoc, Rinv_l; lra]|].
  assert (0 / INR (S q * folds) = 0)%R as -> by (field; lra). rewrite Nat.div_0_l by nia. do 7 (split; [reflexivity|]). split; [exact (PK eq_refl)|]. split; [exact SZ|reflexivity].
Qed.
(** C98: with no execution the report says both that no answer is wrong and that none is right. *)
Lemma c98_no_execution_refuted : forall (T C : Type) (train : data T -> C) (evaluate : C -> point T -> Z) (sh : nat -> nat -> nat -> list nat) (d : data T) (folds : nat) (stratified : bool),
  data_ok d -> 1 <= folds -> (forall i site m, Permutation (sh i site m) (seq 0 m)) ->
  exists rep c, kkfold train evaluate sh d 0 folds stratified false = Ok (rep, c) /\ kr_error rep = Some 0%R /\ kr_accuracy rep = Some 0%R.
Proof.
  intros T C train evaluate sh d folds strat Hd Hf Hsh. unfold kkfold.
  destruct (c56_stratified T (sh 0) d folds true Hd ltac:(lia) (Hsh 0)) as (tr & te & -> & _). cbn [obind]. eexists _, _. split; [reflexivity|]. split; reflexivity.
Qed.
(** C98: with one fold the call is undefined behaviour. *)
Lemma c98_one_fold_refuted : forall (T C : Type) (train : data T -> C) (evaluate : C -> point T -> Z) (sh : nat -> nat -> nat -> list nat) (d : data T) (qtde : nat),
  data_ok d -> 1 <= qtde -> (forall i site m, Permutation (sh i site m) (seq 0 m)) -> kkfold train evaluate sh d qtde 1 true false = UB.
Proof.
  intros T C train evaluate sh d qtde Hd Hq Hsh. unfold kkfold.
  destruct (c56_stratified T (sh 0) d 1 true Hd ltac:(lia) (Hsh 0)) as (tr & te & -> & _). cbn [obind]. destruct qtde as [|q]; [lia|]. cbn [kk_sum]. unfold kfold_report. rewrite (c08_copy_value _ _ Hd).
  destruct (c13_shuffle T d (sh 1 0 (size d)) Hd (Hsh _ _ _)) as (s & Es & Hs & _). rewrite Es. cbn [obind]. rewrite (c55_one_fold_refuted T (fun a => sh 1 (S a)) s true Hs (fun a => Hsh 1 (S a))). reflexivity.
Qed.

Lemma c97_report_ex : data_ok ex5 /\ 3 <= 3 <= size ex5 /\ length (d_classes ex5) = 2 /\ (forall m, Permutation (rev (seq 0 m)) (seq 0 m)).
Proof. split; [apply ex5_ok|]. split; [vm_compute; lia|]. split; [reflexivity|]. intros; apply Permutation_sym, Permutation_rev. Qed.
Lemma c97_perfect_ex : exists rep, kfold_report (fun _ : data Z => tt) (fun _ p => p_y p) (fun _ m => seq 0 m) ex5 3 true false = Ok rep /\ (kr_precision rep = None \/ kr_precision rep = Some (INR 3)).
Proof. destruct (c97_perfect_refuted Z unit (fun _ => tt) (fun _ p => p_y p) (fun _ m => seq 0 m) ex5 3 true) as (rep & E & _ & _ & P & _); [apply ex5_ok|vm_compute; lia|reflexivity|auto|auto|]. exists rep. auto. Qed.
Lemma c98_mean_ex : data_ok ex5 /\ 3 <= 3 <= size ex5 /\ 1 <= 2 /\ (forall m, Permutation (rev (seq 0 m)) (seq 0 m)).
Proof. split; [apply ex5_ok|]. split; [vm_compute; lia|]. split; [lia|]. intros; apply Permutation_sym, Permutation_rev. Qed.
Lemma c97_no_negative_ex : data_ok ex5 /\ length (d_classes ex5) = 2 /\ (forall p, In p (d_points ex5) -> p_y p <> (-1)%Z).
Proof. split; [apply ex5_ok|]. split; [reflexivity|]. intros p Hp. vm_compute in Hp. destruct Hp as [<-|[<-|[<-|[<-|[<-|[]]]]]]; discriminate. Qed.
(** C98: with no folds kkfold divides by zero before it runs anything, whatever the data and the number of executions. *)
Lemma c98_zero_folds_refuted : forall (T C : Type) (train : data T -> C) (evaluate : C -> point T -> Z) (sh : nat -> nat -> nat -> list nat) (d : data T) (qtde : nat) (stratified dual : bool),
  kkfold train evaluate sh d qtde 0 stratified dual = UB.
Proof. reflexivity. Qed.
