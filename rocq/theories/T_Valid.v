(** Validation utilities (C55-C60, C70). *)
From Coq Require Import ZArith Bool Sorted Permutation Lia List Reals Lra.
From Verif Require Import Base ListLib M_Data S_Data L_Data L_Data2 L_Insert L_Split T_Data M_Valid L_Valid.
Import ListNotations.
Open Scope nat_scope.

(** The randomness supplied is made of permutations. *)
Definition shuffler (sh : nat -> nat -> list nat) : Prop := forall site m, Permutation (sh site m) (seq 0 m).

Lemma in_pts_at {T} (parts : list (data T)) j : j < length parts -> exists P, nth_error parts j = Some P /\ pts_at parts j = d_points P.
Proof. intro H. unfold pts_at. destruct (nth_error parts j) as [P|] eqn:E; [eauto|]. apply nth_error_None in E. lia. Qed.

(** One pair holds everything; all tests together hold everything. *)
Lemma kfold_covers {T} sh (d : data T) folds strat keep : data_ok d -> 3 <= folds -> shuffler sh ->
  exists parts r, splitSample (sh 0 (size d)) d folds strat keep = Ok parts /\ length parts = folds /\
    kfoldsplit sh d folds strat keep = Ok r /\ length r = folds /\
    (forall i tr te, nth_error r i = Some (tr, te) -> okset tr /\ okset te /\
        Permutation (d_points tr ++ d_points te) (flat_map d_points parts) /\
        exists P, In P parts /\ Permutation (d_points te) (d_points P)) /\
    Permutation (flat_map (fun p => d_points (snd p)) r) (flat_map d_points parts).
Proof.
  intros Hd Hf Hsh. destruct (kfoldsplit_spec sh d folds strat keep Hd ltac:(lia) Hsh) as (parts & r & E & L & Er & Lr & H).
  exists parts, r. split; auto. split; auto. split; auto. split; auto.
  assert (Nat.eqb folds 2 = false) as N2 by (apply Nat.eqb_neq; lia). rewrite N2 in H. split.
  - intros i tr te Hi. destruct (H _ _ _ Hi) as (O1 & O2 & P1 & P2). split; auto. split; auto. split.
    + rewrite P1, P2. pose proof (rot_parts parts i ltac:(lia)) as X. rewrite L in X. rewrite <- X.
      replace (seq 0 folds) with (seq 0 ((folds - 1) + 1)) by (f_equal; lia). rewrite seq_app, flat_map_app. cbn [seq flat_map].
      rewrite app_nil_r. auto.
    + destruct (in_pts_at parts ((i + (folds - 1)) mod folds)) as (P & EP & E2); [rewrite L; apply Nat.mod_upper_bound; lia|].
      exists P. split; [eapply nth_error_In; eauto|]. rewrite P2, E2. auto.
  - assert (forall (r : list (data T * data T)) g, (forall i p, nth_error r i = Some p -> Permutation (d_points (snd p)) (g i)) ->
       Permutation (flat_map (fun p => d_points (snd p)) r) (flat_map g (seq 0 (length r)))) as X.
    { clear. induction r as [|p r IH]; intros g Hg; cbn [length seq flat_map]; auto. apply Permutation_app.
      - apply (Hg 0 p). auto.
      - rewrite <- seq_shift, flat_map_concat_map, (flat_map_concat_map g), map_map, <- !flat_map_concat_map.
        apply IH. intros i q Hi. apply (Hg (S i) q). auto. }
    rewrite (X r (fun i => pts_at parts ((i + (folds - 1)) mod folds))).
    + rewrite Lr. pose proof (rot_parts parts (folds - 1) ltac:(lia)) as Y. rewrite L in Y. rewrite <- Y.
      rewrite (flat_map_concat_map (fun x => pts_at parts ((folds - 1 + x) mod folds))), flat_map_concat_map.
      rewrite (map_ext _ (fun x => pts_at parts ((folds - 1 + x) mod folds))); auto. intro x. f_equal. f_equal. lia.
    + intros i [tr te] Hi. apply (H _ _ _ Hi).
Qed.

(** C55, stratified, three or more folds: every pair partitions the data; every point is tested exactly
    once over the pairs; each label is spread evenly over the test sets; the class counters of all
    returned datasets are exact. *)
Lemma c55_stratified : forall (T : Type) (sh : nat -> nat -> list nat) (d : data T) (folds : nat) (keepIndex : bool),
  data_ok d -> 3 <= folds -> (forall site m, Permutation (sh site m) (seq 0 m)) ->
  exists r, kfoldsplit sh d folds true keepIndex = Ok r /\ length r = folds /\
    (forall tr te, In (tr, te) r ->
        Permutation (map content (d_points tr) ++ map content (d_points te)) (map content (d_points d)) /\
        (keepIndex = true -> Permutation (d_points tr ++ d_points te) (d_points d)) /\
        class_ok tr /\ class_ok te /\ d_size tr = size tr /\ d_size te = size te) /\
    Permutation (flat_map (fun p => map content (d_points (snd p))) r) (map content (d_points d)) /\
    (forall p q, In p r -> In q r -> forall c, (label_count c (d_points (snd p)) <= label_count c (d_points (snd q)) + 1)%Z).
Proof.
  intros T sh d folds keep Hd Hf Hsh. destruct (kfold_covers sh d folds true keep Hd Hf Hsh) as (parts & r & E & L & Er & Lr & H & HT).
  destruct (c10_stratified T d folds (sh 0 (size d)) keep Hd ltac:(lia) (Hsh _ _)) as (parts' & E' & _ & PC & PK & BAL & _).
  rewrite E in E'. injection E' as <-.
  assert (forall (ls : list (data T)), map content (flat_map (fun P : data T => d_points P) ls) = flat_map (fun P => map content (d_points P)) ls) as MC.
  { intros ls. induction ls as [|P ls IH]; cbn; auto. rewrite map_app, IH. auto. }
  exists r. split; auto. split; auto. split; [|split].
  - intros tr te Hi. apply In_nth_error in Hi. destruct Hi as (i & Hi). destruct (H _ _ _ Hi) as ((S1 & C1 & _) & (S2 & C2 & _) & P1 & _).
    split; [|split; auto].
    + rewrite <- map_app. rewrite <- PC. rewrite (Permutation_map content P1). rewrite MC. auto.
    + intro K. rewrite P1. auto.
  - rewrite <- PC. apply (Permutation_map content) in HT. rewrite MC in HT. rewrite <- HT.
    clear. induction r as [|p r IH]; cbn; auto. rewrite map_app. apply Permutation_app; auto.
  - intros [tr te] [tr' te'] Hp Hq c. apply In_nth_error in Hp. destruct Hp as (i & Hp). apply In_nth_error in Hq. destruct Hq as (j & Hq).
    destruct (H _ _ _ Hp) as (_ & _ & _ & P & HP & E1). destruct (H _ _ _ Hq) as (_ & _ & _ & Q & HQ & E2). cbn [snd].
    assert (forall a b : list (point T), Permutation a b -> label_count c a = label_count c b) as LC.
    { intros a b X. unfold label_count. f_equal. apply Permutation_count_occ, Permutation_map. auto. }
    rewrite (LC _ _ E1), (LC _ _ E2). apply BAL; auto.
Qed.

Lemma c55_stratified_ex : data_ok ex5 /\ (forall m, Permutation (rev (seq 0 m)) (seq 0 m)) /\
  exists r, kfoldsplit (fun _ m => rev (seq 0 m)) ex5 3 true true = Ok r /\
   map (fun p => (map p_id (d_points (fst p)), map p_id (d_points (snd p)))) r = [([2; 3; 4; 5], [1]); ([1; 2; 3], [4; 5]); ([4; 5; 1], [2; 3])]%Z.
Proof.
  split; [exact ex5_ok|]. split; [intros; apply Permutation_sym, Permutation_rev|]. 
  eexists. split; [vm_compute; reflexivity|]. vm_compute. reflexivity.
Qed.

(** C55, unstratified, three or more folds: fewer than [folds] points are left out; every pair
    partitions the others and every one of them is tested exactly once. *)
Lemma c55_unstratified : forall (T : Type) (sh : nat -> nat -> list nat) (d : data T) (folds : nat) (keepIndex : bool),
  data_ok d -> 3 <= folds -> (forall site m, Permutation (sh site m) (seq 0 m)) ->
  exists r left_out, kfoldsplit sh d folds false keepIndex = Ok r /\ length r = folds /\ length left_out = size d mod folds /\
    (forall tr te, In (tr, te) r ->
        Permutation (map content (d_points tr) ++ map content (d_points te) ++ map content left_out) (map content (d_points d)) /\
        size te = size d / folds /\ class_ok tr /\ class_ok te) /\
    Permutation (flat_map (fun p => map content (d_points (snd p))) r ++ map content left_out) (map content (d_points d)).
Proof.
  intros T sh d folds keep Hd Hf Hsh. destruct (kfold_covers sh d folds false keep Hd Hf Hsh) as (parts & r & E & L & Er & Lr & H & HT).
  destruct (c11_unstratified T d folds (sh 0 (size d)) keep Hd ltac:(lia) (Hsh _ _)) as (parts' & E' & _ & SZ & lo & Llo & PC & PK).
  rewrite E in E'. injection E' as <-.
  assert (forall (ls : list (data T)), map content (flat_map (fun P : data T => d_points P) ls) = flat_map (fun P => map content (d_points P)) ls) as MC.
  { intros ls. induction ls as [|P ls IH]; cbn; auto. rewrite map_app, IH. auto. }
  exists r, lo. split; auto. split; auto. split; auto. split.
  - intros tr te Hi. apply In_nth_error in Hi. destruct Hi as (i & Hi). destruct (H _ _ _ Hi) as ((S1 & C1 & _) & (S2 & C2 & _) & P1 & P & HP & E2).
    split; [|split; auto].
    + rewrite app_assoc, <- map_app. rewrite <- PC. rewrite (Permutation_map content P1). rewrite MC. auto.
    + unfold size. rewrite (Permutation_length E2). apply SZ. auto.
  - rewrite <- PC. apply (Permutation_map content) in HT. rewrite MC in HT. rewrite <- HT.
    apply Permutation_app_tail. clear. induction r as [|p r IH]; cbn; auto. rewrite map_app. apply Permutation_app; auto.
Qed.

(** C55 with two folds: each pair tests the classifier on exactly the points it was trained on. *)
Lemma c55_two_folds_refuted : forall (T : Type) (sh : nat -> nat -> list nat) (d : data T) (stratified keepIndex : bool),
  data_ok d -> (forall site m, Permutation (sh site m) (seq 0 m)) ->
  exists r, kfoldsplit sh d 2 stratified keepIndex = Ok r /\ length r = 2 /\
    forall tr te, In (tr, te) r -> Permutation (d_points te) (d_points tr).
Proof.
  intros T sh d strat keep Hd Hsh. destruct (kfoldsplit_spec sh d 2 strat keep Hd ltac:(lia) Hsh) as (parts & r & E & L & Er & Lr & H).
  exists r. split; auto. split; auto. intros tr te Hi. apply In_nth_error in Hi. destruct Hi as (i & Hi).
  assert (i < 2) as Hlt by (rewrite <- Lr; apply nth_error_Some; congruence).
  destruct (H _ _ _ Hi) as (_ & _ & P1 & P2). rewrite P1, P2. cbn [Nat.sub seq flat_map Nat.eqb]. rewrite app_nil_r, Nat.add_0_r, Nat.mod_small; auto.
Qed.

Lemma c55_two_folds_ex : data_ok ex5 /\ exists r, kfoldsplit (fun _ m => seq 0 m) ex5 2 true true = Ok r /\
   map (fun p => (map p_id (d_points (fst p)), map p_id (d_points (snd p)))) r = [([1; 5; 4], [1; 5; 4]); ([3; 2], [3; 2])]%Z.
Proof. split; [exact ex5_ok|]. eexists. split; [vm_compute; reflexivity|]. vm_compute. reflexivity. Qed.

(** C55: one fold is undefined behaviour, whatever the data. *)
Lemma c55_one_fold_refuted : forall (T : Type) (sh : nat -> nat -> list nat) (d : data T) (keepIndex : bool),
  data_ok d -> (forall site m, Permutation (sh site m) (seq 0 m)) -> kfoldsplit sh d 1 true keepIndex = UB.
Proof.
  intros T sh d keep Hd Hsh. unfold kfoldsplit. rewrite (c08_copy_value _ _ Hd).
  destruct (split_total (sh 0 (size d)) d 1 true keep Hd ltac:(lia) (Hsh _ _)) as (parts & -> & _). reflexivity.
Qed.

(** C55: the repeated version returns qtde times k pairs, numbered by execution and fold, each block
    being a k-fold split. *)
Lemma c55_repeated : forall (T : Type) (sh : nat -> nat -> nat -> list nat) (d : data T) (folds qtde : nat) (stratified keepIndex : bool),
  data_ok d -> 2 <= folds -> (forall e site m, Permutation (sh e site m) (seq 0 m)) ->
  exists r, kkfoldsplit sh d folds qtde stratified keepIndex = Ok r /\ length r = qtde * folds /\
    forall e f p, In (e, f, p) r -> 1 <= e <= qtde /\ 1 <= f <= folds /\
      exists ps, kfoldsplit (sh (e - 1)) d folds stratified keepIndex = Ok ps /\ nth_error ps (f - 1) = Some p.
Proof.
  intros T sh d folds qtde strat keep Hd Hf Hsh. unfold kkfoldsplit.
  destruct (map_outcome_all (fun e l => length l = folds /\ forall x f p, In (x, f, p) l -> x = S e /\ 1 <= f <= folds /\
      exists ps, kfoldsplit (sh e) d folds strat keep = Ok ps /\ nth_error ps (f - 1) = Some p)
     (fun e => let* ps := kfoldsplit (sh e) d folds strat keep in Ok (combine (combine (repeat (S e) folds) (seq 1 folds)) ps)) (seq 0 qtde)) as (r & Er & Fr).
  { intros e He. destruct (kfoldsplit_spec (sh e) d folds strat keep Hd Hf (Hsh e)) as (parts & ps & E & L & Ep & Lp & H).
    rewrite Ep. cbn [obind]. eexists. split; [reflexivity|]. split.
    - rewrite !combine_length, repeat_length, seq_length, Lp. lia.
    - intros x f p Hi. apply In_nth_error in Hi. destruct Hi as (i & Hi).
      assert (forall A B (l : list A) (l' : list B) j a b, nth_error (combine l l') j = Some (a, b) -> nth_error l j = Some a /\ nth_error l' j = Some b) as NC.
      { clear. induction l as [|y l IH]; intros [|z l'] [|j] a b X; cbn in X; try discriminate; cbn; [injection X as -> ->; auto|eauto]. }
      apply NC in Hi. destruct Hi as [Hi Hp]. apply NC in Hi. destruct Hi as [Hx Hf'].
      apply nth_error_In, repeat_spec in Hx.
      assert (i < folds) as Hlt by (rewrite <- (seq_length folds 1); apply nth_error_Some; congruence).
      rewrite (nth_error_nth' _ 0) in Hf' by (rewrite seq_length; auto). rewrite seq_nth in Hf' by auto. injection Hf' as <-.
      split; auto. split; [lia|]. exists ps. split; auto. replace (S i - 1) with i by lia. auto. }
  rewrite Er. cbn [obind]. eexists. split; [reflexivity|]. split.
  - assert (length r = qtde) as <- by (rewrite <- (Forall2_len _ _ _ Fr), seq_length; auto).
    clear Er. induction Fr as [|a b l r H Fr IH]; cbn; auto. rewrite app_length, IH. destruct H as [-> _]. lia.
  - intros e f p Hi. apply in_concat in Hi. destruct Hi as (l & Hl & Hi). apply In_nth_error in Hl. destruct Hl as (k & Hl).
    assert (k < qtde) as Hk by (rewrite <- (seq_length qtde 0), (Forall2_len _ _ _ Fr); apply nth_error_Some; congruence).
    assert (nth_error (seq 0 qtde) k = Some k) as Hs.
    { rewrite (nth_error_nth' _ 0) by (rewrite seq_length; auto). rewrite seq_nth by auto. auto. }
    destruct (Forall2_nth _ _ _ _ _ _ Fr Hs Hl) as (_ & X). destruct (X _ _ _ Hi) as (-> & Y & Z). split; [lia|]. split; auto.
    replace (S k - 1) with k by lia. auto.
Qed.

(** Inserting the points of several datasets. *)
Lemma insert_points_ins_all {T} keep (pts : list (point T)) d : insert_points keep pts d = ins_all keep pts d.
Proof. revert d. induction pts as [|p r IH]; intro d; cbn; auto. Qed.

Lemma part_spec {T} sh (d : data T) k strat keep : data_ok d -> 1 <= k -> shuffler sh ->
  exists parts lastf tr te, splitSample (sh 0 (size d)) d k strat keep = Ok parts /\ length parts = k /\
    parts = removelast parts ++ [lastf] /\
    partTrainTest sh d k strat keep = Ok (tr, te) /\
    Permutation (map content (d_points tr)) (flat_map (fun P => map content (d_points P)) (removelast parts)) /\
    Permutation (map content (d_points te)) (map content (d_points lastf)) /\
    (keep = true -> Permutation (d_points tr) (flat_map d_points (removelast parts)) /\ Permutation (d_points te) (d_points lastf)) /\
    class_ok tr /\ class_ok te /\ d_size tr = size tr /\ d_size te = size te.
Proof.
  intros Hd Hk Hsh. destruct (split_total (sh 0 (size d)) d k strat keep Hd ltac:(lia) (Hsh _ _)) as (parts & E & L & B & LE).
  assert (parts <> []) as NE by (destruct parts; cbn in L; [lia|discriminate]).
  destruct (exists_last NE) as (pre & lastf & EP). pose proof EP as EP'.
  assert (removelast parts = pre) as RL by (rewrite EP; rewrite removelast_app by discriminate; cbn; apply app_nil_r).
  exists parts, lastf. unfold partTrainTest. rewrite (c08_copy_value _ _ Hd), E. cbn [obind].
  assert (nth_error parts (length parts - 1) = Some lastf) as NL.
  { rewrite EP, app_length. cbn. rewrite nth_error_app2 by lia. replace (length pre + 1 - 1 - length pre) with 0 by lia. auto. }
  unfold vget. rewrite NL. cbn [obind]. rewrite !insert_points_ins_all, RL.
  assert (length (flat_map d_points parts) = length (flat_map d_points pre) + length (d_points lastf)) as LL.
  { rewrite EP, flat_map_app, app_length. cbn. rewrite app_nil_r. auto. }
  pose proof (ok_cap _ Hd) as Cap.
  destruct (ins_all_spec keep (d_dim d) (flat_map d_points pre) data_empty (built_empty _)) as (tr0 & E1 & B1 & P1).
  { intros p Hp. apply in_flat_map in Hp. destruct Hp as (Q & HQ & Hp). apply (b_dims _ _ (B Q ltac:(rewrite EP; apply in_or_app; auto))). auto. }
  { cbn. lia. }
  rewrite E1. cbn [obind].
  destruct (ins_all_spec keep (d_dim d) (d_points lastf) data_empty (built_empty _)) as (te0 & E2 & B2 & P2).
  { intros p Hp. apply (b_dims _ _ (B lastf ltac:(rewrite EP; apply in_or_app; right; left; auto))). auto. }
  { cbn. lia. }
  rewrite insert_points_ins_all, E2. cbn [obind]. cbn in P1, P2.
  assert (forall (x : data T) s, built (d_dim d) x -> exists y, shuffle (sh s (size x)) x = Ok y /\ Permutation (d_points y) (d_points x) /\ class_ok y /\ d_size y = size y) as SH.
  { intros x s Bx. destruct (shuffled x (sh s (size x))) as (y & Ey & (O1 & O2 & O3) & Py & _); try apply Bx; auto.
    - rewrite (b_size _ _ Bx), (b_index _ _ Bx). unfold iota. rewrite map_length, seq_length. auto.
    - exists y. split; auto. split; auto. split; auto. destruct O2; constructor; auto. }
  destruct (SH tr0 1 B1) as (tr & Etr & Ptr & Ctr & Str). destruct (SH te0 2 B2) as (te & Ete & Pte & Cte & Ste).
  exists tr, te. split; auto. split; auto. split; [auto|]. rewrite Etr, Ete. cbn [obind]. split; auto.
  rewrite Ptr, Pte, P1, P2, !renum_all_content. split.
  { clear. induction pre as [|P r IH]; cbn; auto. rewrite map_app. apply Permutation_app; auto. }
  split; auto. split; [|auto]. intros ->. rewrite !renum_all_keep. auto.
Qed.

(** C56, stratified: every point is in exactly one of train and test; the test part is one fold. *)
Lemma c56_stratified : forall (T : Type) (sh : nat -> nat -> list nat) (d : data T) (k : nat) (keepIndex : bool),
  data_ok d -> 1 <= k -> (forall site m, Permutation (sh site m) (seq 0 m)) ->
  exists tr te, partTrainTest sh d k true keepIndex = Ok (tr, te) /\
    Permutation (map content (d_points tr) ++ map content (d_points te)) (map content (d_points d)) /\
    (keepIndex = true -> Permutation (d_points tr ++ d_points te) (d_points d)) /\
    size d / k <= size te <= size d / k + 1 /\
    class_ok tr /\ class_ok te /\ d_size tr = size tr /\ d_size te = size te.
Proof.
  intros T sh d k keep Hd Hk Hsh. destruct (part_spec sh d k true keep Hd Hk Hsh) as (parts & lf & tr & te & E & L & EP & Ep & P1 & P2 & PK & R).
  destruct (c10_stratified T d k (sh 0 (size d)) keep Hd ltac:(lia) (Hsh _ _)) as (parts' & E' & _ & PC & PKK & BAL & _).
  rewrite E in E'. injection E' as <-. exists tr, te. split; auto. split; [|split; [|split; [|auto]]].
  - rewrite P1, P2, <- PC. rewrite EP at 2. rewrite flat_map_app. cbn. rewrite app_nil_r. auto.
  - intro K. destruct (PK K) as [A B]. rewrite A, B. rewrite <- (PKK K). rewrite EP at 2. rewrite flat_map_app. cbn. rewrite app_nil_r. auto.
  - assert (size te = size lf) as -> by (unfold size; rewrite <- (map_length content), (Permutation_length P2), map_length; auto).
    assert (In lf parts) as Hin by (rewrite EP; apply in_or_app; right; left; auto).
    assert (size d = list_sum (map size parts)) as SZ.
    { unfold size at 1. rewrite <- (map_length content), <- (Permutation_length PC). clear. induction parts as [|P r IH]; cbn; auto.
      rewrite app_length, map_length, IH. auto. }
    assert (forall m, (forall P, In P parts -> size P <= m) -> list_sum (map size parts) <= length parts * m) as UB1.
    { clear. intro m. induction parts as [|P r IH]; cbn; intro H; auto. pose proof (H P (or_introl eq_refl)). specialize (IH (fun Q HQ => H Q (or_intror HQ))). unfold list_sum in IH. lia. }
    assert (forall m, (forall P, In P parts -> m <= size P) -> length parts * m <= list_sum (map size parts)) as LB1.
    { clear. intro m. induction parts as [|P r IH]; cbn; intro H; auto. pose proof (H P (or_introl eq_refl)). specialize (IH (fun Q HQ => H Q (or_intror HQ))). unfold list_sum in IH. lia. }
    assert (length parts * (size lf - 1) <= size d) as A.
    { rewrite SZ. apply LB1. intros P HP. destruct (BAL lf P Hin HP) as [_ X]. lia. }
    assert (size d < k * (size lf + 1)) as B.
    { destruct (Nat.lt_ge_cases (size d) (k * (size lf + 1))) as [|C]; auto. exfalso.
      assert (size d <= k * (size lf + 1) - 1) as D; [|nia].
      rewrite SZ. rewrite EP, map_app. cbn [map]. 
      assert (list_sum (map size (removelast parts)) <= length (removelast parts) * (size lf + 1)) as X.
      { assert (forall P, In P (removelast parts) -> size P <= size lf + 1) as Y.
        { intros P HP. apply BAL; auto. rewrite EP. apply in_or_app. auto. }
        revert Y. clear. generalize (removelast parts) as q. induction q as [|P r IH]; cbn; intro H; auto. pose proof (H P (or_introl eq_refl)). specialize (IH (fun Q HQ => H Q (or_intror HQ))). unfold list_sum in IH. lia. }
      rewrite list_sum_app. cbn. rewrite Nat.add_0_r.
      assert (length (removelast parts) + 1 = k) as Y by (pose proof (f_equal (@length _) EP) as Y0; rewrite app_length in Y0; cbn [length] in Y0; lia). nia. }
    rewrite L in A. split.
    + apply Nat.lt_succ_r. apply Nat.div_lt_upper_bound; lia.
    + assert (size lf - 1 <= size d / k); [|lia]. apply Nat.div_le_lower_bound; lia.
Qed.

Lemma c56_stratified_ex : data_ok ex5 /\ exists tr te, partTrainTest (fun _ m => seq 0 m) ex5 2 true true = Ok (tr, te) /\
  map p_id (d_points tr) = [1; 5; 4]%Z /\ map p_id (d_points te) = [3; 2]%Z.
Proof. split; [exact ex5_ok|]. do 2 eexists. split; [vm_compute; reflexivity|]. split; vm_compute; reflexivity. Qed.

(** C56, unstratified: the same up to the n mod k points that the split leaves out. *)
Lemma c56_unstratified : forall (T : Type) (sh : nat -> nat -> list nat) (d : data T) (k : nat) (keepIndex : bool),
  data_ok d -> 1 <= k -> (forall site m, Permutation (sh site m) (seq 0 m)) ->
  exists tr te left_out, partTrainTest sh d k false keepIndex = Ok (tr, te) /\ length left_out = size d mod k /\
    Permutation (map content (d_points tr) ++ map content (d_points te) ++ map content left_out) (map content (d_points d)) /\
    size te = size d / k /\ class_ok tr /\ class_ok te.
Proof.
  intros T sh d k keep Hd Hk Hsh. destruct (part_spec sh d k false keep Hd Hk Hsh) as (parts & lf & tr & te & E & L & EP & Ep & P1 & P2 & PK & R).
  destruct (c11_unstratified T d k (sh 0 (size d)) keep Hd ltac:(lia) (Hsh _ _)) as (parts' & E' & _ & SZ & lo & Llo & PC & _).
  rewrite E in E'. injection E' as <-. exists tr, te, lo. split; auto. split; auto. split; [|split; [|tauto]].
  - rewrite P1, P2, <- PC. rewrite EP at 2. rewrite flat_map_app. cbn. rewrite app_nil_r, <- app_assoc. auto.
  - assert (size te = size lf) as -> by (unfold size; rewrite <- (map_length content), (Permutation_length P2), map_length; auto).
    apply SZ. rewrite EP. apply in_or_app; right; left; auto.
Qed.

(** C56: unstratified splitting can drop points from both parts. *)
Lemma c56_unstratified_refuted : exists (d tr te : data Z) (p : point Z), data_ok d /\
  partTrainTest (fun _ m => seq 0 m) d 2 false true = Ok (tr, te) /\ In p (d_points d) /\
  ~ In (content p) (map content (d_points tr)) /\ ~ In (content p) (map content (d_points te)).
Proof.
  exists ex5. do 2 eexists. exists (nth 4 (d_points ex5) (mkPoint [] 0%Z 0%Z 0%Z)). split; [exact ex5_ok|]. split; [vm_compute; reflexivity|].
  vm_compute. intuition congruence.
Qed.

(** ** Confusion matrix *)
Definition msum (m : list (list nat)) : nat := list_sum (map (fun row => list_sum row) m).
Definition cell (m : list (list nat)) (i j : nat) : nat := nth j (nth i m []) 0.
Definition mtrace (m : list (list nat)) : nat := list_sum (map (fun i => cell m i i) (seq 0 (length m))).
Definition square (n : nat) (m : list (list nat)) : Prop := length m = n /\ forall row, In row m -> length row = n.

(** position, with absent labels read as class 0 *)
Definition pos0 (c : Z) (l : list Z) : nat := if memZ c l then find_pos c l else 0.

Lemma find_pos_app c a b : In c a -> find_pos c (a ++ b) = find_pos c a.
Proof. induction a as [|x a IH]; cbn; intro H; [destruct H|]. destruct (Z.eqb_spec x c); auto. destruct H; [congruence|]. rewrite IH; auto. Qed.
Lemma find_pos_mid c a b : ~ In c a -> find_pos c (a ++ c :: b) = length a.
Proof. induction a as [|x a IH]; cbn; intro H; [rewrite Z.eqb_refl; auto|]. destruct (Z.eqb_spec x c); [tauto|]. rewrite IH; auto. Qed.

Lemma cm_scan_spec pred y : forall rest pre, NoDup (pre ++ rest) ->
  cm_scan rest (length pre) pred y (pos0 pred pre) (pos0 y pre) = (pos0 pred (pre ++ rest), pos0 y (pre ++ rest)).
Proof.
  induction rest as [|c rest IH]; intros pre N; cbn [cm_scan].
  - rewrite app_nil_r. auto.
  - assert (~ In c pre) as Nc by (apply NoDup_remove_2 in N; rewrite in_app_iff in N; tauto).
    assert (forall x, (if Z.eqb c x then length pre else pos0 x pre) = pos0 x (pre ++ [c])) as S.
    { intro x. unfold pos0. destruct (Z.eqb_spec c x) as [->|ne].
      - assert (memZ x (pre ++ [x]) = true) as -> by (apply memZ_In, in_or_app; right; left; auto). rewrite find_pos_mid; auto.
      - assert (memZ x (pre ++ [c]) = memZ x pre) as -> by (unfold memZ; rewrite existsb_app; cbn; destruct (Z.eqb_spec x c); [congruence|]; rewrite !orb_false_r; auto).
        destruct (memZ x pre) eqn:M; auto. apply memZ_In in M. rewrite find_pos_app; auto. }
    rewrite !S. specialize (IH (pre ++ [c])). rewrite <- app_assoc in IH. cbn [app] in IH. rewrite app_length in IH. cbn [length] in IH. rewrite Nat.add_1_r in IH.
    destruct (negb (Nat.eqb (pos0 pred (pre ++ [c])) 0) && negb (Nat.eqb (pos0 y (pre ++ [c])) 0)) eqn:B; [|auto].
    apply andb_true_iff in B. destruct B as [B1 B2]. apply negb_true_iff, Nat.eqb_neq in B1. apply negb_true_iff, Nat.eqb_neq in B2.
    assert (forall x, pos0 x (pre ++ [c]) <> 0 -> pos0 x (pre ++ [c]) = pos0 x (pre ++ c :: rest)) as F; [|rewrite (F pred), (F y); auto].
    intros x Hx. unfold pos0 in *. destruct (memZ x (pre ++ [c])) eqn:M; [|lia]. apply memZ_In in M.
    replace (pre ++ c :: rest) with ((pre ++ [c]) ++ rest) by (rewrite <- app_assoc; auto).
    assert (memZ x ((pre ++ [c]) ++ rest) = true) as -> by (apply memZ_In, in_or_app; auto). rewrite (find_pos_app x (pre ++ [c]) rest); auto.
Qed.

Lemma lsc x l : list_sum (x :: l) = x + list_sum l. Proof. reflexivity. Qed.

Lemma upd_sum i (l r : list nat) : upd i S l = Some r -> list_sum r = S (list_sum l).
Proof.
  revert i r. induction l as [|x l IH]; intros [|i] r H; cbn in H; try discriminate.
  - injection H as <-. cbn. auto.
  - destruct (upd i S l) as [q|] eqn:E; [|discriminate]. injection H as <-. cbn. specialize (IH _ _ E). unfold list_sum in IH. lia.
Qed.

Lemma upd_nth {A} i (f : A -> A) (l r : list A) d j : upd i f l = Some r -> nth j r d = if Nat.eqb j i then f (nth j l d) else nth j l d.
Proof.
  revert i r j. induction l as [|x l IH]; intros [|i] r j H; cbn in H; try discriminate.
  - injection H as <-. destruct j; cbn; auto.
  - destruct (upd i f l) as [q|] eqn:E; [|discriminate]. injection H as <-. destruct j; cbn; [auto|]. rewrite (IH _ _ _ E). auto.
Qed.

Lemma cm_incr_spec n m i j : square n m -> i < n -> j < n ->
  exists m', cm_incr i j m = Ok m' /\ square n m' /\ msum m' = S (msum m) /\
    forall a b, cell m' a b = if Nat.eqb a i && Nat.eqb b j then S (cell m a b) else cell m a b.
Proof.
  intros [L R] Hi Hj. unfold cm_incr. destruct (vget_lt m i) as (row & E1 & E2); [lia|]. rewrite E2. cbn [obind].
  assert (length row = n) as Lr by (apply R; eapply nth_error_In; eauto).
  destruct (vupd_lt j S row) as (row' & E3 & E4); [lia|]. rewrite E4. cbn [obind].
  destruct (vupd_lt i (fun _ => row') m) as (m' & E5 & E6); [lia|]. rewrite E6. exists m'. split; auto.
  destruct (nth_error_split' m i row E1) as (a & b & -> & La).
  assert (m' = a ++ row' :: b) as ->.
  { destruct (upd_split _ _ _ _ E5) as (a' & x & b' & X & Y & Z). 
    assert (a = a' /\ x = row /\ b = b') as (-> & -> & ->); [|auto].
    revert X. rewrite <- Z in La. revert La. clear. revert a'. induction a as [|u a IH]; intros [|v a'] La X; cbn in *; try discriminate; [injection X; auto|].
    injection X as -> X. destruct (IH a') as (-> & -> & ->); auto. }
  split; [|split].
  - split; [rewrite app_length in *; cbn in *; auto|]. intros q Hq. apply in_app_or in Hq. destruct Hq as [Hq|[<-|Hq]].
    + apply R, in_or_app. auto.
    + rewrite (upd_length _ _ _ _ E3). auto.
    + apply R, in_or_app. right; right; auto.
  - unfold msum. rewrite !map_app, !list_sum_app. cbn [map]. rewrite !lsc, (upd_sum _ _ _ E3). lia.
  - intros x y. unfold cell. rewrite (upd_nth _ _ _ _ [] x E5). destruct (Nat.eqb_spec x i) as [->|]; cbn [andb]; auto.
    rewrite (upd_nth _ _ _ _ 0 y E3). subst i. rewrite app_nth2, Nat.sub_diag by lia. cbn. auto.
Qed.

Definition hits {T} (classes : list Z) (pred : point T -> Z) (pts : list (point T)) (i j : nat) : nat :=
  length (filter (fun p => Nat.eqb (pos0 (pred p) classes) i && Nat.eqb (pos0 (p_y p) classes) j) pts).

Lemma pos0_lt c l : l <> [] -> pos0 c l < length l.
Proof. intro H. unfold pos0. destruct (memZ c l) eqn:M; [apply find_pos_In, memZ_In; auto|]. destruct l; [tauto|cbn; lia]. Qed.

Lemma cm_loop_spec {T} classes (pred : point T -> Z) : NoDup classes -> forall pts m, (pts <> [] -> classes <> []) -> square (length classes) m ->
  exists m', cm_loop classes pred pts m = Ok m' /\ square (length classes) m' /\ msum m' = length pts + msum m /\
    forall a b, cell m' a b = hits classes pred pts a b + cell m a b.
Proof.
  intros N. induction pts as [|p pts IH]; intros m Hne Sq; cbn [cm_loop].
  - exists m. auto.
  - assert (classes <> []) as Hc by (apply Hne; discriminate).
    assert (cm_scan classes 0 (pred p) (p_y p) 0 0 = (pos0 (pred p) classes, pos0 (p_y p) classes)) as SC by exact (cm_scan_spec (pred p) (p_y p) classes [] N).
    rewrite SC.
    destruct (cm_incr_spec _ m (pos0 (pred p) classes) (pos0 (p_y p) classes) Sq) as (m1 & E1 & S1 & M1 & C1); try apply pos0_lt; auto.
    rewrite E1. cbn [obind]. destruct (IH m1) as (m' & E' & S' & M' & C'); auto.
    exists m'. split; auto. split; auto. split; [cbn [length]; lia|]. intros a b. rewrite C', C1. unfold hits. cbn [filter].
    rewrite (Nat.eqb_sym (pos0 (pred p) classes) a), (Nat.eqb_sym (pos0 (p_y p) classes) b).
    destruct (Nat.eqb a (pos0 (pred p) classes) && Nat.eqb b (pos0 (p_y p) classes)); cbn [length]; lia.
Qed.

Lemma square0 n : square n (repeat (repeat 0 n) n) /\ msum (repeat (repeat 0 n) n) = 0 /\ forall a b, cell (repeat (repeat 0 n) n) a b = 0.
Proof.
  split; [|split].
  - split; [apply repeat_length|]. intros row H. apply repeat_spec in H. subst. apply repeat_length.
  - assert (list_sum (repeat 0 n) = 0) as Z by (induction n; auto).
    unfold msum. generalize n at 2. induction n0 as [|k IH]; cbn [repeat map]; auto. unfold list_sum at 1. cbn [fold_right]. fold (list_sum (repeat 0 n)). rewrite Z. exact IH.
  - intros a b. unfold cell. destruct (Nat.lt_ge_cases a n).
    + rewrite (nth_indep _ _ (repeat 0 n)) by (rewrite repeat_length; auto). rewrite nth_repeat. apply nth_repeat.
    + rewrite (nth_overflow (repeat _ n)) by (rewrite repeat_length; auto). destruct b; auto.
Qed.

Lemma cm_spec {T} (d : data T) pred : class_ok d -> exists m, generateConfusionMatrix d pred = Ok m /\ square (length (d_classes d)) m /\
  msum m = size d /\ forall a b, cell m a b = hits (d_classes d) pred (d_points d) a b.
Proof.
  intros H. unfold generateConfusionMatrix. destruct (square0 (length (d_classes d))) as (S0 & M0 & C0).
  destruct (cm_loop_spec (d_classes d) pred (co_nodup _ H) (d_points d) (repeat (repeat 0 (length (d_classes d))) (length (d_classes d)))) as (m & E & S & M & C).
  - intros NE X. destruct (d_points d) as [|p r] eqn:EP; [tauto|]. pose proof (co_listed _ H p) as L. rewrite EP, X in L. cbn in L. tauto.
  - exact S0.
  - exists m. split; auto. split; auto. split; [unfold size; lia|]. intros a b. rewrite C, C0. lia.
Qed.

Lemma pos0_eq l c x i : NoDup l -> nth_error l i = Some c -> In x l -> Nat.eqb (pos0 x l) i = Z.eqb x c.
Proof.
  intros N Hi Hx. unfold pos0. rewrite (proj2 (memZ_In _ _) Hx).
  destruct (Z.eqb_spec x c) as [->|ne].
  - apply Nat.eqb_eq. apply find_pos_unique; auto.
  - apply Nat.eqb_neq. intro E. apply ne. pose proof (find_pos_nth x l Hx) as X. rewrite E, Hi in X. congruence.
Qed.

(** C57: the table is square, sums to the number of samples, and entry (i,j) counts the samples
    predicted as class i whose true class is j (so rows are predictions, the transpose of the documented layout). *)
Lemma c57_counts : forall (T : Type) (d : data T) (pred : point T -> Z),
  class_ok d -> (forall p, In p (d_points d) -> In (pred p) (d_classes d)) ->
  exists m, generateConfusionMatrix d pred = Ok m /\
    length m = length (d_classes d) /\ (forall row, In row m -> length row = length (d_classes d)) /\
    list_sum (map (fun row => list_sum row) m) = size d /\
    forall i j ci cj, nth_error (d_classes d) i = Some ci -> nth_error (d_classes d) j = Some cj ->
      nth j (nth i m []) 0 = length (filter (fun p => Z.eqb (pred p) ci && Z.eqb (p_y p) cj) (d_points d)).
Proof.
  intros T d pred H HP. destruct (cm_spec d pred H) as (m & E & [S1 S2] & M & C). exists m. split; auto. split; auto. split; auto. split; auto.
  intros i j ci cj Hi Hj. change (nth j (nth i m []) 0) with (cell m i j). rewrite C. unfold hits. f_equal. apply filter_ext_in.
  intros p Hp. rewrite (pos0_eq _ ci _ _ (co_nodup _ H) Hi (HP p Hp)). rewrite (pos0_eq _ cj _ _ (co_nodup _ H) Hj (co_listed _ H p Hp)). auto.
Qed.

Lemma c57_counts_ex : class_ok ex5 /\ generateConfusionMatrix ex5 (fun _ => 1%Z) = Ok [[3; 2]; [0; 0]].
Proof. split; [apply ex5_ok|]. vm_compute. reflexivity. Qed.

(** C57: with the documented orientation (rows = true classes) the table is wrong. *)
Lemma c57_orientation_refuted : exists (d : data Z) (pred : point Z -> Z) m i j ci cj,
  class_ok d /\ (forall p, In p (d_points d) -> In (pred p) (d_classes d)) /\ generateConfusionMatrix d pred = Ok m /\
  nth_error (d_classes d) i = Some ci /\ nth_error (d_classes d) j = Some cj /\
  nth j (nth i m []) 0 <> length (filter (fun p => Z.eqb (p_y p) ci && Z.eqb (pred p) cj) (d_points d)).
Proof.
  exists ex5, (fun _ => 1%Z), [[3; 2]; [0; 0]], 0, 1. do 2 eexists. split; [apply ex5_ok|].
  split; [intros p _; vm_compute; auto|]. split; [vm_compute; reflexivity|]. split; [vm_compute; reflexivity|]. split; [vm_compute; reflexivity|].
  vm_compute. discriminate.
Qed.

(** C57: an answer that is not a listed class is booked under the first class. *)
Lemma c57_unlisted_refuted : exists (d : data Z) (pred : point Z -> Z) m c,
  class_ok d /\ (forall p, In p (d_points d) -> ~ In (pred p) (d_classes d)) /\ generateConfusionMatrix d pred = Ok m /\
  nth_error (d_classes d) 0 = Some c /\ nth 0 (nth 0 m []) 0 > 0.
Proof.
  exists ex5, (fun _ => 7%Z). do 2 eexists. split; [apply ex5_ok|]. split; [intros p _; vm_compute; intuition discriminate|].
  split; [vm_compute; reflexivity|]. split; [vm_compute; reflexivity|]. vm_compute. lia.
Qed.
