(** mltk::Data: insertion, removal, features, copies, joins and splits (C01-C14). *)
From Coq Require Import ZArith Bool String Sorted Permutation Lia List.
From Verif Require Import Base ListLib M_Data M_Hist S_Data L_Data L_Data2 L_Insert L_Feat L_Str L_Split L_Join.
Import ListNotations.
Open Scope Z_scope.

(* solves conjunctions of computable facts, the first ones fixing the witnesses *)
Ltac vmr := repeat (split; [vm_compute; reflexivity|]); vm_compute; solve [reflexivity | discriminate | intuition discriminate | auto 10].

(** Concrete datasets for the examples. *)
Definition pt (xs : list Z) (y i : Z) : point Z := mkPoint xs y i 0.
Definition three : list (point Z) := [pt [10; 20; 30] 1 7; pt [11; 21; 31] (-1) 8; pt [12; 22; 32] 1 9].
Definition build (k : bool) (pts : list (point Z)) : data Z :=
  match ins_all k pts data_empty with Ok d => d | _ => data_empty end.
Definition ex3 : data Z := build false three.
Definition five : list (point Z) :=
  [pt [1] 1 0; pt [2] 2 0; pt [3] 1 0; pt [4] 2 0; pt [5] 1 0].
Definition ex5 : data Z := build false five.

Lemma build_ok k n pts : (forall p, In p pts -> length (p_x p) = n) -> pts <> [] -> n <> O ->
  Z.of_nat (length pts) < 2 ^ 63 -> data_ok (build k pts).
Proof.
  intros H Hp Hn Hc. unfold build.
  destruct (ins_all_spec k n pts data_empty) as (d & -> & B & P); auto; [apply built_empty|].
  cbn [data_empty d_points app length] in P.
  apply (built_ok n); auto.
  - rewrite P, renum_all_length. auto.
  - intro X. rewrite P in X. apply (f_equal (@length _)) in X. rewrite renum_all_length in X. destruct pts; [tauto|discriminate].
  - tauto.
Qed.

Lemma ex3_ok : data_ok ex3.
Proof. apply (build_ok false 3); [|discriminate|lia|simpl; lia]. simpl. intros p [<-|[<-|[<-|[]]]]; auto. Qed.
Lemma ex5_ok : data_ok ex5.
Proof. apply (build_ok false 1); [|discriminate|lia|simpl; lia]. simpl. intros p [<-|[<-|[<-|[<-|[<-|[]]]]]]; auto. Qed.

(** C01: insertPoint rejects exactly a point of another dimension (leaving the dataset as it is) and
    otherwise appends it. *)
Lemma c01_insertPoint : forall (T : Type) (d : data T) (p : point T) (keepIndex : bool),
  d_size d = size d -> length (d_dist d) = length (d_classes d) ->
  exists d' b, insertPoint d p keepIndex = Ok (d', b) /\
    (b = false <-> (d_points d <> [] /\ length (p_x p) <> dim d)) /\
    (b = false -> d' = d) /\
    (b = true -> d_points d' = d_points d ++ [if keepIndex then p else with_id (Z.of_nat (size d')) p] /\
                 size d' = S (size d) /\ d_size d' = size d').
Proof.
  intros T d p k Hs Hl. destruct (accepts_dec d p) as [A|A].
  - destruct (insertPoint_accept d p k A Hs Hl) as (d' & E & P & S1 & _). exists d', true. split; auto.
    assert (size d' = S (size d)) as SZ by (unfold size in *; rewrite P, app_length; simpl; lia).
    split; [|split; [discriminate|]].
    + split; [discriminate|]. intros [H1 H2]. destruct A; tauto.
    + intros _. rewrite SZ. split; [exact P|]. split; auto.
  - rewrite insertPoint_reject by auto. exists d, false. split; auto. split; [|split; [auto|discriminate]].
    split; auto. intros _. unfold accepts in A. tauto.
Qed.

Lemma c01_insertPoint_ex :
  d_size ex3 = size ex3 /\ length (d_dist ex3) = length (d_classes ex3) /\
  (exists d', insertPoint ex3 (pt [1; 2; 3] 5 0) false = Ok (d', true)) /\
  insertPoint ex3 (pt [1; 2] 5 0) false = Ok (ex3, false).
Proof. repeat split; vm_compute; eauto. Qed.

(** C01: the guard on the class counters is needed. After classesCopy the counters are shorter than
    the class list and inserting a point of a listed class writes out of bounds. *)
Lemma c01_after_classesCopy_refuted :
  exists (src : data Z) (cls : list Z) (p : point Z),
    data_ok src /\ insertPoint (classesCopy data_empty src cls) p false = UB.
Proof. exists ex3, [1], (pt [1; 2; 3] 1 0). split; [exact ex3_ok|vm_compute; reflexivity]. Qed.

(** C02: every history of allowed calls runs without undefined behaviour and leaves the class list
    and counters (and sizes, dimensions, names) equal to what the points say. *)
Lemma c02_history : forall (T : Type) (ops : list (op T)) (d : data T),
  data_ok d -> allowed_run d ops -> exists d', run d ops = Ok d' /\ data_ok d'.
Proof.
  intros T ops. induction ops as [|o ops IH]; intros d Hd Ha; [exists d; split; auto|].
  destruct Ha as [Ha Hr].
  assert (exists d', step d o = Ok d' /\ data_ok d') as (d' & E & Hd').
  { destruct o as [p k|pid|ids|perm|fs|i v| |]; cbn [step allowed] in *.
    - destruct (accepts_dec d p) as [A|A].
      + destruct (insertPoint_accept d p k A) as (d' & E & _); try apply Hd.
        rewrite E. exists d'. split; auto. eapply insertPoint_ok; eauto.
      + rewrite insertPoint_reject by auto. exists d. auto.
    - assert (exists r, removePoint d pid = Ok r) as ([d' b] & E); [|rewrite E; exists d'; split; auto; eapply removePoint_ok; eauto].
      destruct Ha as [Hne Ha]. unfold removePoint. rewrite (ok_size _ Hd).
      destruct (Nat.eqb_spec (length (d_points d)) 1) as [e|ne]; [eauto|].
      destruct (length (d_points d)) as [|k] eqn:L; [destruct (d_points d); [tauto|discriminate]|].
      destruct (vget_lt (d_points d) k) as (q & Hq & ->); [lia|]. cbn [obind].
      destruct (Z.ltb_spec (p_id q) pid) as [lt|ge]; [cbn [orb]; eauto|].
      destruct (Z.leb_spec pid 0) as [le|gt]; [cbn [orb]; eauto|]. cbn [orb].
      assert (In pid (map p_id (d_points d))) as Hin.
      { destruct Ha as [?|[?|Ha]]; [lia|auto|]. apply nth_error_In in Hq. specialize (Ha _ Hq). lia. }
      destruct (shift_index_ok pid (S k) (d_index d)) as (idx & -> & _); [lia|]. cbn [obind].
      pose proof (find_id_spec pid (d_points d)) as F. rewrite L in F.
      destruct (find_id pid (S k) (d_points d)) as [[[i q']|]| |]; try tauto.
      + cbn [obind]. destruct F as (a & b & Ep & _ & _ & _).
        destruct (vupd_lt (find_pos (p_y q') (d_classes d)) (fun c => wrap64 (c - 1)) (d_dist d)) as (dist & _ & ->).
        { rewrite (co_len _ (ok_class _ Hd)). apply find_pos_In. apply Hd. rewrite Ep. apply in_or_app. right. left. auto. }
        cbn [obind]. eauto.
      + exfalso. apply in_map_iff in Hin. destruct Hin as (z & Hz & Iz). apply (F z); auto.
    - destruct Ha as [H1 H2]. destruct (removePoints_spec d ids Hd H1 H2) as (d' & nf & -> & Hok & _). exists d'. auto.
    - destruct (shuffle_spec d perm) as (d' & E & _); auto.
      + rewrite (ok_size _ Hd). apply Hd.
      + rewrite E. exists d'. split; auto. eapply shuffle_ok; eauto.
    - destruct Ha as [Hne Hnd].
      assert (exists r, removeFeatures d fs = Ok r) as ([d' b] & E); [|rewrite E; exists d'; split; auto; eapply removeFeatures_ok; eauto].
      destruct fs as [|f fs]; [eexists; reflexivity|].
      destruct (Nat.eq_dec (length (d_fnames d)) 1) as [e|ne].
      + unfold removeFeatures. rewrite e. cbn. eexists; reflexivity.
      + destruct (removeFeatures_spec d (f :: fs)) as (d' & E & _); auto; [discriminate|]. eauto.
    - destruct (Nat.le_gt_cases (length (d_points d)) i) as [ge|lt].
      + unfold updatePointValue. rewrite (ok_size _ Hd), (proj2 (Nat.leb_le _ _)) by auto. cbn [obind]. exists d. auto.
      + destruct Ha as [Ha|Ha]; [unfold size in Ha; lia|].
        destruct (updatePointValue_spec d i v Hd lt Ha) as (d' & q & -> & Hok & _). exists d'. auto.
    - assert (exists d', computeClassesDistribution d = Ok d') as (d' & E); [|exists d'; split; auto; eapply computeClassesDistribution_ok; eauto].
      unfold computeClassesDistribution. destruct (d_cdist d); [eauto|].
      destruct (tally_zero (d_classes d) (d_points d)) as (dist & -> & _); try apply Hd. cbn [obind]. eauto.
    - eexists. split; [reflexivity|]. destruct Hd as [H1 H2 H3 H4 H5 H6 H7 H8 H9 H10].
      constructor; cbn; auto. 2: rewrite iota_length; lia. destruct H2; constructor; auto. }
  cbn [run]. rewrite E. cbn [obind]. apply IH; auto.
Qed.

Definition hist : list (op Z) :=
  [ InsertOp (pt [13; 23; 33] 2 0) false; RemoveOp 2; ShuffleOp [2; 0; 1]%nat; RelabelOp 0 1;
    RemoveFeaturesOp [2; 9]; RemoveManyOp [3; 5]; RecountOp ].
Lemma c02_history_ex : data_ok ex3 /\ allowed_run ex3 hist /\ exists d', run ex3 hist = Ok d' /\ d_points d' <> [].
Proof.
  split; [exact ex3_ok|].
  assert (forall d d' o (r : list (op Z)), step d o = Ok d' -> allowed d o -> allowed_run d' r -> allowed_run d (o :: r)) as C.
  { intros d d' o r E A R. split; auto. intros d'' E'. rewrite E in E'. injection E' as <-. auto. }
  split; [|vm_compute; eexists; split; [reflexivity|discriminate]].
  unfold hist.
  eapply C; [vm_compute; reflexivity|vm_compute; reflexivity|].
  eapply C; [vm_compute; reflexivity|vm_compute; split; [discriminate|right; left; auto]|].
  eapply C; [vm_compute; reflexivity|vm_compute|].
  { apply Permutation_trans with (l' := [0; 2; 1]%nat); [constructor|]. constructor. constructor. }
  eapply C; [vm_compute; reflexivity|vm_compute; right; auto|].
  eapply C; [vm_compute; reflexivity|vm_compute; split; [discriminate|]|].
  { constructor; [auto|constructor]. }
  eapply C; [vm_compute; reflexivity|vm_compute; split|].
  { eexists. split; [left; reflexivity|]. vm_compute. intuition discriminate. }
  { intuition subst; simpl; auto. }
  eapply C; [vm_compute; reflexivity|exact I|]. exact I.
Qed.

(** C02, clear(): the counters survive clear(), so the next insertions count wrongly. *)
Lemma c02_clear_refuted :
  exists (d d' : data Z) (p : point Z), data_ok d /\ insertPoint (clear d) p false = Ok (d', true) /\
    nth_error (d_classes d') 0 = Some (p_y p) /\ d_points d' <> [] /\
    nth_error (d_dist d') 0 <> Some (label_count (p_y p) (d_points d')).
Proof. exists ex3. eexists. exists (pt [1; 1; 1] 4 0). split; [exact ex3_ok|]. split; [vm_compute; reflexivity|]. split; [vm_compute; reflexivity|]. split; [vm_compute; discriminate|]. vmr. Qed.

(** C02, relabelling to a label not seen before is undefined behaviour. *)
Lemma c02_relabel_new_refuted : exists (d : data Z) (i : nat) (v : Z), data_ok d /\ (i < size d)%nat /\ updatePointValue d i v = UB.
Proof. exists ex3, 0%nat, 5. split; [exact ex3_ok|]. vm_compute. auto. Qed.

(** C02, removePoints with all ids leaves no points but a size of one; the next insertion is undefined behaviour. *)
Lemma c02_remove_all_refuted : exists (d d' : data Z) (ids : list Z) nf (p : point Z), data_ok d /\
  removePoints d ids = Ok (d', nf) /\ d_points d' = [] /\ d_size d' = 1%nat /\ insertPoint d' p false = UB.
Proof.
  exists ex3. eexists. exists [1; 2; 3]. eexists. exists (pt [1; 1; 1] 1 0). split; [exact ex3_ok|]. vmr.
Qed.

(** C02: relabelling a point to a listed label moves exactly that point's label. *)
Lemma c02_relabel : forall (T : Type) (d : data T) (i : nat) (v : Z),
  data_ok d -> (i < size d)%nat -> In v (d_classes d) ->
  exists d' a q b, updatePointValue d i v = Ok (d', true) /\ data_ok d' /\
    d_points d = a ++ q :: b /\ length a = i /\
    d_points d' = a ++ mkPoint (p_x q) v (p_id q) (p_alpha q) :: b.
Proof.
  intros T d i v Hd Hi Hv. destruct (updatePointValue_spec d i v Hd Hi Hv) as (d' & q & E & Ho & _ & U & _).
  destruct (upd_split _ _ _ _ U) as (a & x & b & E1 & E2 & L). exists d', a, x, b. repeat split; auto; try apply Ho.
Qed.

Lemma c02_relabel_ex : data_ok ex3 /\ (1 < size ex3)%nat /\ In 1 (d_classes ex3).
Proof. split; [exact ex3_ok|]. vm_compute. auto. Qed.

(** C03: with ascending ids (as insertPoint assigns them) removePoint removes exactly the addressed
    point, keeps the order and the bookkeeping. *)
Lemma c03_removePoint : forall (T : Type) (d : data T) (id : Z),
  data_ok d -> (2 <= size d)%nat -> StronglySorted Z.lt (map p_id (d_points d)) ->
  0 < id -> In id (map p_id (d_points d)) ->
  exists d', removePoint d id = Ok (d', true) /\ data_ok d' /\
    d_points d' = filter (fun p => negb (p_id p =? id)) (d_points d) /\
    size d' = (size d - 1)%nat /\ d_size d' = (size d - 1)%nat /\
    d_classes d' = d_classes d /\ d_fnames d' = d_fnames d.
Proof.
  intros T d id Hd H2 Hs H0 Hi. destruct (removePoint_present d id Hd H2 Hs H0 Hi) as (d' & E & P).
  exists d'. split; auto. pose proof (removePoint_ok _ _ _ _ Hd E) as Ho. split; auto. split; auto.
  destruct (removePoint_inv _ _ _ _ Hd E) as [[X _]|(_ & _ & _ & a & q & c & E1 & _ & _ & E2 & E3 & F1 & F2 & F3 & _)]; [discriminate|].
  split; [unfold size; rewrite E1, E2, !app_length; simpl; lia|].
  split; [rewrite E3, (ok_size _ Hd); auto|]. auto.
Qed.

(** C03: whatever the order of ids, if removePoint returns true then exactly the first point with
    that id is gone; if it returns false nothing changed. *)
Lemma c03_removePoint_result : forall (T : Type) (d d' : data T) (id : Z) (b : bool),
  data_ok d -> removePoint d id = Ok (d', b) ->
  (b = false -> d' = d) /\
  (b = true -> data_ok d' /\ exists l q r, d_points d = l ++ q :: r /\ p_id q = id /\
      (forall p, In p l -> p_id p <> id) /\ d_points d' = l ++ r).
Proof.
  intros T d d' id b Hd E. destruct (removePoint_inv _ _ _ _ Hd E) as [[-> ->]|(-> & _ & _ & a & q & c & E1 & E2 & E3 & E4 & _)].
  - split; auto. discriminate.
  - split; [discriminate|]. intros _. split; [eapply removePoint_ok; eauto|]. exists a, q, c. auto.
Qed.

(** C03: an id beyond the last point's id (or not positive) is rejected. *)
Lemma c03_removePoint_reject : forall (T : Type) (d : data T) (id : Z),
  data_ok d -> d_points d <> [] -> (forall p, In p (d_points d) -> p_id p < id) \/ id <= 0 ->
  removePoint d id = Ok (d, false).
Proof.
  intros T d id Hd Hn H. unfold removePoint. rewrite (ok_size _ Hd).
  destruct (Nat.eqb_spec (length (d_points d)) 1) as [e|ne]; auto.
  destruct (length (d_points d)) as [|k] eqn:L; [destruct (d_points d); [tauto|discriminate]|].
  destruct (vget_lt (d_points d) k) as (q & Hq & ->); [lia|]. cbn [obind].
  destruct (Z.ltb_spec (p_id q) id); cbn [orb]; auto. destruct (Z.leb_spec id 0); auto.
  destruct H as [H|H]; [|lia]. apply nth_error_In in Hq. specialize (H _ Hq). lia.
Qed.

Lemma c03_removePoint_ex : data_ok ex3 /\ (2 <= size ex3)%nat /\ StronglySorted Z.lt (map p_id (d_points ex3)) /\
  In 2 (map p_id (d_points ex3)) /\ exists d', removePoint ex3 2 = Ok (d', true) /\ map p_id (d_points d') = [1; 3].
Proof.
  split; [exact ex3_ok|]. vm_compute. repeat split; auto; try (eexists; split; reflexivity).
  repeat constructor.
Qed.

(** C03: an absent id between existing ones reads an uninitialised label: undefined behaviour. *)
Lemma c03_absent_refuted : exists (d : data Z) (id : Z), data_ok d /\ ~ In id (map p_id (d_points d)) /\ removePoint d id = UB.
Proof.
  exists (build true three), 1. split.
  - apply (build_ok true 3); [|discriminate|lia|simpl; lia]. simpl. intros p [<-|[<-|[<-|[]]]]; auto.
  - split; [vm_compute; intuition discriminate|vm_compute; reflexivity].
Qed.

(** C03: after a shuffle a present id can be refused. *)
Lemma c03_shuffled_refuted : exists (d d' : data Z) perm (id : Z), data_ok d /\ Permutation perm (seq 0 (size d)) /\
  shuffle perm d = Ok d' /\ In id (map p_id (d_points d')) /\ removePoint d' id = Ok (d', false).
Proof.
  exists ex3. eexists. exists [2; 1; 0]%nat, 3. split; [exact ex3_ok|]. split.
  - change (size ex3) with (length (d_points ex3)). replace (length (d_points ex3)) with 3%nat by (vm_compute; reflexivity). cbn [seq].
    apply Permutation_trans with (l' := [1; 2; 0]%nat); [constructor|]. apply Permutation_trans with (l' := [1; 0; 2]%nat); constructor; constructor.
  - split; [vm_compute; reflexivity|]. split; [vm_compute; auto|]. vmr.
Qed.

(** C03: removing from a dataset visited in another order (setIndex, as the trainers leave it) puts
    a negative position into the index. *)
Lemma c03_index_refuted : exists (d d' : data Z) (idx : list Z) (id i : Z),
  data_ok d /\ Permutation idx (map Z.of_nat (seq 0 (size d))) /\
  removePoint (setIndex d idx) id = Ok (d', true) /\ In i (d_index d') /\ i < 0.
Proof.
  exists ex3. eexists. exists [2; 0; 1], 1, (-1). split; [exact ex3_ok|]. split.
  - replace (size ex3) with 3%nat by (vm_compute; reflexivity). cbn.
    apply Permutation_trans with (l' := [0; 2; 1]); [constructor|]. constructor. constructor.
  - split; [vm_compute; reflexivity|]. vm_compute. auto.
Qed.

(** C04: removePoints keeps, in order, exactly the points whose id is not listed, keeps the class
    bookkeeping, and reports for each listed id (ascending) whether it was missing - provided some
    point stays. *)
Lemma c04_removePoints : forall (T : Type) (d : data T) (ids : list Z),
  data_ok d -> (exists p, In p (d_points d) /\ ~ In (p_id p) ids) ->
  (forall p, In p (d_points d) -> In (p_id p) ids -> 0 < p_id p) ->
  exists d' missing, removePoints d ids = Ok (d', missing) /\ data_ok d' /\
    d_points d' = filter (fun p => negb (memZ (p_id p) ids)) (d_points d) /\
    d_classes d' = d_classes d /\ d_fnames d' = d_fnames d /\ length missing = length ids /\
    (NoDup ids -> forall i x, nth_error (isort Z.leb ids) i = Some x ->
       nth_error missing i = Some (negb (memZ x (map p_id (d_points d))))).
Proof.
  intros T d ids Hd H1 H2. destruct (removePoints_spec d ids Hd H1 H2) as (d' & nf & E & Ho & P & F1 & F2 & _ & _ & L & M).
  exists d', nf. repeat (split; auto).
Qed.

Lemma c04_removePoints_ex : data_ok ex3 /\ (exists p, In p (d_points ex3) /\ ~ In (p_id p) [5; 3; 1]) /\
  exists d', removePoints ex3 [5; 3; 1] = Ok (d', [false; false; true]) /\ map p_id (d_points d') = [2].
Proof.
  split; [exact ex3_ok|]. split.
  - exists (pt [11; 21; 31] (-1) 2). split; [vm_compute; auto|vm_compute; intuition discriminate].
  - vm_compute. eexists; split; reflexivity.
Qed.

(** C05: removeFeatures keeps, in every point and in order, the values of the features not named,
    and the same names, when no existing feature is named twice. *)
Lemma c05_removeFeatures : forall (T : Type) (d : data T) (feats : list Z),
  data_ok d -> feats <> [] -> length (d_fnames d) <> 1%nat ->
  NoDup (filter (fun f => memZ f (d_fnames d)) feats) ->
  exists d', removeFeatures d feats = Ok (d', true) /\
    d_points d' = map (fun p => mkPoint (keep_features (fun n => negb (memZ n feats)) (d_fnames d) (p_x p))
                                        (p_y p) (p_id p) (p_alpha p)) (d_points d) /\
    d_fnames d' = filter (fun n => negb (memZ n feats)) (d_fnames d) /\
    d_dim d' = length (d_fnames d') /\ d_classes d' = d_classes d /\ d_dist d' = d_dist d /\ d_size d' = d_size d.
Proof.
  intros T d feats Hd Hf Hn Hd'. destruct (removeFeatures_spec d feats Hd Hf Hn Hd') as (d' & E & P & F1 & F2 & _ & _ & F3 & F4 & F5 & _).
  exists d'. repeat split; auto.
Qed.

(** C05: with a single feature, or no request, nothing changes. *)
Lemma c05_removeFeatures_refuse : forall (T : Type) (d : data T) (feats : list Z),
  feats = [] \/ length (d_fnames d) = 1%nat ->
  removeFeatures d feats = Ok (d, if length feats =? 0 then true else false)%nat.
Proof.
  intros T d feats H. destruct feats as [|f r]; [reflexivity|]. destruct H as [H|H]; [discriminate|].
  unfold removeFeatures. rewrite H. reflexivity.
Qed.

Lemma c05_removeFeatures_ex : data_ok ex3 /\ NoDup (filter (fun f => memZ f (d_fnames ex3)) [2; 9; 9]) /\
  exists d', removeFeatures ex3 [2; 9; 9] = Ok (d', true) /\ map p_x (d_points d') = [[10; 30]; [11; 31]; [12; 32]].
Proof.
  split; [exact ex3_ok|]. vm_compute. split; [repeat constructor; simpl; auto|]. eexists; split; reflexivity.
Qed.

(** C05: a feature named twice blocks the removal of later ones from the values but not from the names. *)
Lemma c05_duplicate_refuted : exists (d d' : data Z) (feats : list Z), data_ok d /\
  removeFeatures d feats = Ok (d', true) /\ d_fnames d' = [2] /\ exists p, In p (d_points d') /\ length (p_x p) = 2%nat.
Proof.
  exists ex3. eexists. exists [1; 1; 3]. split; [exact ex3_ok|]. split; [vm_compute; reflexivity|].
  split; [vm_compute; reflexivity|]. eexists. split; [left; reflexivity|reflexivity].
Qed.

(** C05: inserting a point after removing features renames all remaining features. *)
Lemma c05_names_reset_refuted : exists (d d1 d2 : data Z) (p : point Z), data_ok d /\
  removeFeatures d [1] = Ok (d1, true) /\ d_fnames d1 = [2; 3] /\ insertPoint d1 p false = Ok (d2, true) /\ d_fnames d2 = [1; 2].
Proof. exists ex3. do 2 eexists. exists (pt [0; 0] 1 0). split; [exact ex3_ok|]. vmr. Qed.

(** C06: insertFeatures projects every point onto the requested existing features, in name order. *)
Lemma c06_insertFeatures : forall (T : Type) (d : data T) (req : list Z),
  data_ok d -> d_points d <> [] -> req <> [] -> NoDup req -> (forall f, In f req -> In f (d_fnames d)) ->
  exists d', insertFeatures d req true = Ok d' /\
    d_points d' = map (fun p => mkPoint (keep_features (fun n => memZ n req) (d_fnames d) (p_x p)) (p_y p) (p_id p) (p_alpha p))
                      (d_points d) /\
    Permutation (d_fnames d') req /\ StronglySorted Z.lt (d_fnames d') /\
    d_dim d' = length req /\ d_size d' = size d /\ class_ok d'.
Proof.
  intros T d req Hd Hp Hr Hn Hi. destruct (insertFeatures_spec d req true Hd Hr Hn Hi Hp) as (d' & E & P & F1 & F2 & F3 & F4).
  exists d'. rewrite renum_all_keep in P. rewrite F1. split; auto. split; auto.
  split; [apply isort_perm|]. split; [apply Zsort_strict; auto|]. split; auto.
Qed.

(** C06: without keepIndex only the ids differ: they become 1..n. *)
Lemma c06_insertFeatures_renumber : forall (T : Type) (d : data T) (req : list Z),
  data_ok d -> d_points d <> [] -> req <> [] -> NoDup req -> (forall f, In f req -> In f (d_fnames d)) ->
  exists d', insertFeatures d req false = Ok d' /\
    map content (d_points d') = map (fun p => (keep_features (fun n => memZ n req) (d_fnames d) (p_x p), p_y p, p_alpha p)) (d_points d) /\
    map p_id (d_points d') = map (fun i => Z.of_nat (S i)) (seq 0 (size d)).
Proof.
  intros T d req Hd Hp Hr Hn Hi. destruct (insertFeatures_spec d req false Hd Hr Hn Hi Hp) as (d' & E & P & _).
  exists d'. split; auto. rewrite P. split.
  - rewrite map_map.
    assert (forall g : list T * Z * T -> list T * Z * T, map (fun p => g (content p)) (renum_all false 0 (d_points d)) = map (fun p => g (content p)) (d_points d)) as G.
    { intro g. rewrite <- !(map_map content g), renum_all_content. auto. }
    exact (G (fun c => (keep_features (fun n => memZ n req) (d_fnames d) (fst (fst c)), snd (fst c), snd c))).
  - rewrite map_map. cbn [project p_id]. change (map (fun x : point T => p_id x)) with (map (@p_id T)).
    rewrite renum_all_ids. auto.
Qed.

(** C06: a request naming an absent feature, or one twice, yields an empty dataset. *)
Lemma c06_insertFeatures_absent : forall (T : Type) (d : data T) (req : list Z) (keepIndex : bool),
  data_ok d -> d_points d <> [] -> req <> [] -> ~ (NoDup req /\ (forall f, In f req -> In f (d_fnames d))) ->
  exists d', insertFeatures d req keepIndex = Ok d' /\ d_points d' = [] /\ d_dim d' = O /\ d_fnames d' = [].
Proof. intros T d req k Hd Hp Hr H. apply insertFeatures_bad; auto. Qed.

Lemma c06_insertFeatures_ex : data_ok ex3 /\ NoDup [3; 1] /\ (forall f, In f [3; 1] -> In f (d_fnames ex3)) /\
  exists d', insertFeatures ex3 [3; 1] true = Ok d' /\ map p_x (d_points d') = [[10; 30]; [11; 31]; [12; 32]].
Proof.
  split; [exact ex3_ok|]. split; [repeat constructor; simpl; intuition discriminate|]. split.
  - replace (d_fnames ex3) with [1; 2; 3] by (vm_compute; reflexivity). intros f [<-|[<-|[]]]; cbn; auto.
  - vm_compute. eexists; split; reflexivity.
Qed.

(** C07: selectFeatures projects every point onto the requested existing features, in name order. *)
Lemma c07_selectFeatures : forall (T : Type) (y0 id0 : Z) (alpha0 : T) (d : data T) (req : list Z),
  data_ok d -> req <> [] -> NoDup req -> (forall f, In f req -> In f (d_fnames d)) ->
  exists d', selectFeatures y0 id0 alpha0 d req None = Ok d' /\
    d_points d' = map (fun p => mkPoint (keep_features (fun n => memZ n req) (d_fnames d) (p_x p)) (p_y p) (p_id p) (p_alpha p))
                      (d_points d) /\
    d_size d' = size d /\ class_ok d'.
Proof.
  intros T y0 id0 a0 d req Hd Hr Hn Hi. destruct (selectFeatures_spec y0 id0 a0 d req Hd Hr Hn Hi) as (d' & E & P & F).
  exists d'. auto.
Qed.

Lemma c07_selectFeatures_ex : data_ok ex3 /\ NoDup [3; 1] /\ (forall f, In f [3; 1] -> In f (d_fnames ex3)) /\
  exists d', selectFeatures 0 0 0 ex3 [3; 1] None = Ok d' /\ map p_x (d_points d') = [[10; 30]; [11; 31]; [12; 32]].
Proof.
  split; [exact ex3_ok|]. split; [repeat constructor; simpl; intuition discriminate|]. split.
  - replace (d_fnames ex3) with [1; 2; 3] by (vm_compute; reflexivity). intros f [<-|[<-|[]]]; cbn; auto.
  - vm_compute. eexists; split; reflexivity.
Qed.

(** C07: the name 0 silently selects the first feature and drops the last requested one. *)
Lemma c07_zero_refuted : exists (d d' : data Z), data_ok d /\ selectFeatures 0 0 0 d [0; 2; 3] None = Ok d' /\
  map p_x (d_points d') = map (fun p => firstn 2 (p_x p)) (d_points d).
Proof. exists ex3. eexists. split; [exact ex3_ok|]. vmr. Qed.

(** C07: the feature names of the result are 1..m, whatever names were selected. *)
Lemma c07_names_refuted : exists (d d' : data Z), data_ok d /\ selectFeatures 0 0 0 d [2; 3] None = Ok d' /\ d_fnames d' = [1; 2].
Proof. exists ex3. eexists. split; [exact ex3_ok|]. vmr. Qed.

(** C08 (value part): a copy shows the same points, names, classes, counters and index. *)
Lemma c08_copy_value : forall (T : Type) (d : data T), data_ok d -> copy d = d.
Proof.
  intros T d Hd. destruct d as [pts fn ix cn cl ds sz dm em nm cd cs]. unfold copy. cbn [d_points d_fnames d_index d_cnames d_classes d_dist d_isempty d_normalized d_cdist d_class].
  rewrite map_copy_points.
  pose proof (dim_ok' _ Hd) as E. pose proof (ok_size _ Hd) as E2. unfold size. cbn in E, E2 |- *. rewrite E, E2. reflexivity.
Qed.

Lemma c08_copy_value_ex : data_ok ex3 /\ copy ex3 = ex3 /\ d_points ex3 <> [].
Proof. split; [exact ex3_ok|]. split; [vm_compute; reflexivity|vm_compute; discriminate]. Qed.

(** C09: join appends copies of the other dataset's points, unites the class lists and recounts. *)
Lemma c09_join : forall (T : Type) (a b : data T),
  data_ok a -> data_ok b -> d_dim a = d_dim b -> d_cdist a = false ->
  Z.of_nat (size a + size b) < 2 ^ 63 ->
  exists r, join a b = Ok r /\
    d_points r = d_points a ++ d_points b /\ d_size r = size r /\
    class_ok r /\ (forall c, In c (d_classes r) <-> In c (d_classes a) \/ In c (d_classes b)) /\
    (exists more, d_classes r = d_classes a ++ more) /\
    d_index r = map Z.of_nat (seq 0 (size r)) /\
    (d_fnames a <> [] -> d_fnames r = d_fnames a) /\
    (NoDup (d_cnames a) -> NoDup (d_cnames b) ->
       forall n, In n (d_cnames r) <-> In n (d_cnames a) \/ In n (d_cnames b)).
Proof.
  intros T a b Ha Hb Hd Hc Hs. destruct (join_spec a b Ha Hb Hd Hc Hs) as (r & E & P & S & C & CL & M & I & F & _ & N).
  exists r. split; auto. split; auto. split; auto. split; auto. split; auto. split; auto. split; auto. split; auto.
  intro X. rewrite F. destruct (d_fnames a); [tauto|auto].
Qed.

Definition exj : data Z := build false [pt [1; 1; 1] 9 0; pt [2; 2; 2] 10 0; pt [3; 3; 3] 1 0].
Lemma exj_ok : data_ok exj.
Proof. apply (build_ok false 3); [|discriminate|lia|simpl; lia]. simpl. intros p [<-|[<-|[<-|[]]]]; auto. Qed.

Lemma c09_join_ex : data_ok ex3 /\ data_ok exj /\ d_dim ex3 = d_dim exj /\ d_cdist ex3 = false /\
  exists r, join ex3 exj = Ok r /\ d_classes r = [1; -1; 9; 10] /\ d_dist r = [3; 1; 1; 1].
Proof. split; [exact ex3_ok|]. split; [exact exj_ok|]. vm_compute. repeat split; auto. eexists; repeat split; reflexivity. Qed.

(** C09: the class names are sorted as text and the classes as numbers, so they stop matching. *)
Lemma c09_names_refuted : exists a b r : data Z, data_ok a /\ data_ok b /\ join a b = Ok r /\
  nth_error (d_classes r) 2 = Some 9 /\ nth_error (d_cnames r) 2 = Some "10"%string.
Proof. exists ex3, exj. eexists. split; [exact ex3_ok|]. split; [exact exj_ok|]. vmr. Qed.

(** C09: joining onto a dataset whose counters were computed while loading leaves all counters zero. *)
Lemma c09_loaded_refuted : exists a b r : data Z, data_ok a /\ data_ok b /\ d_cdist a = true /\ join a b = Ok r /\
  Forall (fun c => c = 0) (d_dist r) /\ d_points r <> [].
Proof.
  exists (mkData (d_points ex3) (d_fnames ex3) (d_index ex3) (d_cnames ex3) (d_classes ex3) (d_dist ex3)
                 (d_size ex3) (d_dim ex3) (d_isempty ex3) (d_normalized ex3) true (d_class ex3)), exj. eexists.
  split; [|split; [exact exj_ok|]].
  - destruct ex3_ok as [H1 H2 H3 H4 H5 H6 H7 H8 H9 H10]. constructor; auto. destruct H2; constructor; auto.
  - split; [vm_compute; reflexivity|]. split; [vm_compute; reflexivity|]. split; [|vm_compute; discriminate]. vm_compute. repeat constructor.
Qed.

(** C09: joining into an empty dataset leaves its dimension zero; removeFeatures then drops the names
    but no values. *)
Lemma c09_empty_refuted : exists a b r r' : data Z, data_ok a /\ data_ok b /\ join a b = Ok r /\ d_dim r = O /\
  removeFeatures r [1] = Ok (r', true) /\ d_fnames r' = [2; 3] /\ map p_x (d_points r') = map p_x (d_points b).
Proof.
  exists data_empty, ex3. do 2 eexists. split; [|split; [exact ex3_ok|]].
  - constructor; cbn; auto; try constructor; try lia; cbn; auto; try tauto; try constructor. intros [|i]; discriminate.
  - vmr.
Qed.

(** C10: the stratified split partitions the points and balances every label across the parts. *)
Lemma c10_stratified : forall (T : Type) (d : data T) (k : nat) (perm : list nat) (keepIndex : bool),
  data_ok d -> (0 < k)%nat -> Permutation perm (seq 0 (size d)) ->
  exists parts, splitSample perm d k true keepIndex = Ok parts /\ length parts = k /\
    Permutation (flat_map (fun P => map content (d_points P)) parts) (map content (d_points d)) /\
    (keepIndex = true -> Permutation (flat_map d_points parts) (d_points d)) /\
    (forall P Q, In P parts -> In Q parts ->
        (forall c, label_count c (d_points P) <= label_count c (d_points Q) + 1) /\
        (size P <= size Q + 1)%nat) /\
    (forall P, In P parts -> class_ok P /\ d_size P = size P).
Proof.
  intros T d k perm keep Hd Hk Hp. destruct (splitSample_strat d k perm keep Hd Hk Hp) as (parts & dd & E & L & P & H).
  exists parts. split; auto. split; auto.
  assert (Permutation (flat_map (fun i => pick k i 0 (isort label_le dd)) (seq 0 k)) (d_points d)) as PP.
  { eapply Permutation_trans; [apply pick_partition; auto|]. eapply Permutation_trans; [apply isort_perm|auto]. }
  split; [|split; [|split]].
  - rewrite (nth_error_seq_map parts _ (fun i => map content (pick k i 0 (isort label_le dd)))).
    + rewrite L. apply (Permutation_map content) in PP. revert PP. rewrite !flat_map_concat_map, concat_map, map_map. auto.
    + intros i Q HQ. destruct (H _ _ HQ) as [_ ->]. apply renum_all_content.
  - intros ->. rewrite (nth_error_seq_map parts _ (fun i => pick k i 0 (isort label_le dd))).
    + rewrite L. auto.
    + intros i Q HQ. destruct (H _ _ HQ) as [_ ->]. apply renum_all_keep.
  - intros Q R HQ HR. apply In_nth_error in HQ. apply In_nth_error in HR. destruct HQ as (i & HQ). destruct HR as (j & HR).
    assert (i < k)%nat by (rewrite <- L; apply nth_error_Some; congruence).
    assert (j < k)%nat by (rewrite <- L; apply nth_error_Some; congruence).
    destruct (H _ _ HQ) as [_ E1]. destruct (H _ _ HR) as [_ E2]. split.
    + intro c. assert (forall n l, label_count c (renum_all keep n l) = label_count c (T:=T) l) as R0.
      { intros n l. unfold label_count, labels. f_equal. f_equal.
        change (map p_y (renum_all keep n l)) with (map (fun p => p_y p) (renum_all keep n l)).
        assert (forall p : point T, p_y p = snd (fst (content p))) as X by auto.
        rewrite (map_ext _ _ X), <- (map_map content (fun x => snd (fst x))), renum_all_content, map_map. auto. }
      rewrite E1, E2, !R0. apply strat_balanced; auto.
    + unfold size. rewrite E1, E2, !renum_all_length. apply pick_balanced; auto.
  - intros Q HQ. apply In_nth_error in HQ. destruct HQ as (i & HQ). destruct (H _ _ HQ) as [B _].
    split; [apply B|apply (b_size _ _ B)].
Qed.

Lemma c10_stratified_ex : data_ok ex5 /\ Permutation [4; 2; 3; 0; 1]%nat (seq 0 (size ex5)) /\
  exists parts, splitSample [4; 2; 3; 0; 1]%nat ex5 2 true true = Ok parts /\
     map (fun P => map p_id (d_points P)) parts = [[5; 1; 2]; [3; 4]].
Proof.
  split; [exact ex5_ok|]. split; [|vm_compute; eexists; split; reflexivity].
  apply NoDup_Permutation; [repeat constructor; simpl; intuition discriminate|apply seq_NoDup|].
  vm_compute. intuition subst; auto.
Qed.

(** C11: the unstratified split gives k parts of floor(n/k) points, disjoint, leaving n mod k points out. *)
Lemma c11_unstratified : forall (T : Type) (d : data T) (k : nat) (perm : list nat) (keepIndex : bool),
  data_ok d -> (0 < k)%nat -> Permutation perm (seq 0 (size d)) ->
  exists parts, splitSample perm d k false keepIndex = Ok parts /\ length parts = k /\
    (forall P, In P parts -> size P = (size d / k)%nat /\ d_size P = size P /\ class_ok P) /\
    exists left_out, length left_out = (size d mod k)%nat /\
      Permutation (flat_map (fun P => map content (d_points P)) parts ++ map content left_out) (map content (d_points d)) /\
      (keepIndex = true -> Permutation (flat_map d_points parts ++ left_out) (d_points d)).
Proof.
  intros T d k perm keep Hd Hk Hp. destruct (splitSample_plain d k perm keep false Hd Hk Hp eq_refl) as (parts & dd & E & L & P & H).
  unfold size. set (ns := (length (d_points d) / k)%nat) in *. pose proof (Permutation_length P) as LP.
  assert (k * ns <= length (d_points d))%nat as Hle by (unfold ns; apply Nat.mul_div_le; lia).
  exists parts. split; auto. split; auto. split.
  - intros Q HQ. apply In_nth_error in HQ. destruct HQ as (i & HQ). destruct (H _ _ HQ) as [B ->].
    assert (i < k)%nat by (rewrite <- L; apply nth_error_Some; congruence).
    split; [|split; [|apply B]].
    + rewrite renum_all_length, firstn_length, skipn_length, LP. 
      assert (i * ns + ns <= k * ns)%nat by nia. lia.
    + rewrite (b_size _ _ B). destruct (H _ _ HQ) as [_ ->]. auto.
  - exists (skipn (k * ns) dd).
    assert (Permutation (flat_map (fun i => firstn ns (skipn (i * ns) dd)) (seq 0 k) ++ skipn (k * ns) dd) (d_points d)) as PP.
    { rewrite firstn_blocks. simpl. rewrite firstn_skipn. auto. }
    split; [|split].
    + rewrite skipn_length, LP. unfold ns. pose proof (Nat.div_mod (length (d_points d)) k). lia.
    + rewrite (nth_error_seq_map parts _ (fun i => map content (firstn ns (skipn (i * ns) dd)))).
      * rewrite L. apply (Permutation_map content) in PP. revert PP. rewrite map_app, !flat_map_concat_map, concat_map, map_map. auto.
      * intros i Q HQ. destruct (H _ _ HQ) as [_ ->]. apply renum_all_content.
    + intros ->. rewrite (nth_error_seq_map parts _ (fun i => firstn ns (skipn (i * ns) dd))).
      * rewrite L. auto.
      * intros i Q HQ. destruct (H _ _ HQ) as [_ ->]. apply renum_all_keep.
Qed.

Lemma c11_unstratified_ex : data_ok ex5 /\
  exists parts, splitSample [4; 2; 3; 0; 1]%nat ex5 2 false true = Ok parts /\
     map (fun P => map p_id (d_points P)) parts = [[5; 3]; [4; 1]].
Proof. split; [exact ex5_ok|]. vm_compute; eexists; split; reflexivity. Qed.

(** C12: splitByClasses returns, in class order, the points of each class in their original order. *)
Lemma c12_splitByClasses : forall (T : Type) (d : data T) (keepIndex : bool),
  data_ok d ->
  exists parts, splitByClasses d keepIndex = Ok parts /\ length parts = length (d_classes d) /\
    forall i c, nth_error (d_classes d) i = Some c -> exists P, nth_error parts i = Some P /\
      map content (d_points P) = map content (filter (fun p => p_y p =? c) (d_points d)) /\
      (keepIndex = true -> d_points P = filter (fun p => p_y p =? c) (d_points d)) /\
      (keepIndex = false -> map p_id (d_points P) = map (fun j => Z.of_nat (S j)) (seq 0 (size P))) /\
      class_ok P /\ d_size P = size P.
Proof.
  intros T d keep Hd. destruct (splitByClasses_spec d keep Hd) as (parts & E & L & H). exists parts. split; auto. split; auto.
  intros i c Hi. destruct (H i c Hi) as (P & H1 & B & H2). exists P. split; auto. rewrite H2.
  split; [apply renum_all_content|]. split; [intros ->; apply renum_all_keep|].
  split; [intros ->; unfold size; rewrite H2, renum_all_length; apply renum_all_ids|].
  split; [apply B|]. apply (b_size _ _ B).
Qed.

Lemma c12_splitByClasses_ex : data_ok ex5 /\ exists parts, splitByClasses ex5 true = Ok parts /\
     map (fun P => map p_id (d_points P)) parts = [[1; 3; 5]; [2; 4]].
Proof. split; [exact ex5_ok|]. vm_compute; eexists; split; reflexivity. Qed.

(** C13: shuffle permutes the points and nothing else; the index becomes the identity. *)
Lemma c13_shuffle : forall (T : Type) (d : data T) (perm : list nat),
  data_ok d -> Permutation perm (seq 0 (size d)) ->
  exists d', shuffle perm d = Ok d' /\ data_ok d' /\ Permutation (d_points d') (d_points d) /\
    d_fnames d' = d_fnames d /\ d_cnames d' = d_cnames d /\ d_classes d' = d_classes d /\ d_dist d' = d_dist d /\
    d_size d' = d_size d /\ d_dim d' = d_dim d /\
    firstn (size d) (d_index d') = map Z.of_nat (seq 0 (size d)).
Proof.
  intros T d perm Hd Hp. destruct (shuffle_spec d perm) as (d' & E & P & M & F1 & F2 & F3 & F4 & F5 & F6 & _ & _ & _ & _ & LI & NI); auto.
  - rewrite (ok_size _ Hd). apply Hd.
  - exists d'. split; auto. split; [eapply shuffle_ok; eauto|]. repeat split; auto.
    apply nth_error_ext'. intro i. rewrite (ok_size _ Hd) in NI.
    destruct (Nat.lt_ge_cases i (size d)) as [lt|ge].
    + rewrite <- (firstn_skipn (size d) (d_index d')) in NI. specialize (NI i lt).
      rewrite nth_error_app1 in NI.
      * rewrite NI. symmetry. rewrite nth_error_map, nth_error_nth' with (d := O) by (rewrite seq_length; auto).
        rewrite seq_nth by auto. reflexivity.
      * rewrite firstn_length, LI. pose proof (ok_index _ Hd). unfold size in *. lia.
    + rewrite !(proj2 (nth_error_None _ _)); auto.
      * rewrite map_length, seq_length. auto.
      * rewrite firstn_length. lia.
Qed.

Lemma c13_shuffle_ex : data_ok ex3 /\ Permutation [2; 0; 1]%nat (seq 0 (size ex3)) /\
  exists d', shuffle [2; 0; 1]%nat ex3 = Ok d' /\ map p_id (d_points d') = [3; 1; 2].
Proof.
  split; [exact ex3_ok|]. split.
  - vm_compute. apply Permutation_trans with (l' := [0; 2; 1]%nat); [constructor|]. constructor. constructor.
  - vm_compute. eexists; split; reflexivity.
Qed.

(** C14: classesCopy into an empty dataset copies, in order, exactly the points with a listed label. *)
Lemma c14_classesCopy : forall (T : Type) (src : data T) (cls : list Z),
  let r := classesCopy data_empty src cls in
  d_points r = filter (fun p => memZ (p_y p) cls) (d_points src) /\ d_size r = size r /\
  d_classes r = cls /\ d_fnames r = d_fnames src.
Proof.
  intros T src cls. unfold classesCopy. cbn [d_points data_empty app d_size d_classes d_fnames].
  unfold size. cbn [d_points]. rewrite map_copy_points. auto.
Qed.

(** C14: the class counters of the result are not filled. *)
Lemma c14_counts_refuted : exists (src : data Z) (cls : list Z), data_ok src /\ ~ class_ok (classesCopy data_empty src cls).
Proof.
  exists ex3, [1]. split; [exact ex3_ok|]. intro H. pose proof (co_len _ H) as X. vm_compute in X. discriminate.
Qed.

(** C69: the visiting index of a dataset built by insertions enumerates the points once. *)
Lemma c69_index_inserts : forall (T : Type) (pts : list (point T)) (n : nat) (keepIndex : bool),
  (forall p, In p pts -> length (p_x p) = n) -> Z.of_nat (length pts) < 2 ^ 63 ->
  exists d, ins_all keepIndex pts data_empty = Ok d /\ size d = length pts /\ d_index d = map Z.of_nat (seq 0 (size d)).
Proof.
  intros T pts n k H Hc. destruct (ins_all_spec k n pts data_empty) as (d & E & B & P); auto; [apply built_empty|].
  exists d. split; auto. cbn [data_empty d_points app length] in P. split.
  - unfold size. rewrite P, renum_all_length. auto.
  - rewrite (b_index _ _ B). auto.
Qed.

(** C69: after one removal and two insertions the index holds a position twice and omits the last point. *)
Lemma c69_index_refuted : exists (d1 d2 d3 : data Z) (p : point Z), data_ok ex3 /\
  removePoint ex3 3 = Ok (d1, true) /\ insertPoint d1 p false = Ok (d2, true) /\ insertPoint d2 p false = Ok (d3, true) /\
  size d3 = 4%nat /\ firstn 4 (d_index d3) = [0; 1; 2; 2].
Proof. do 3 eexists. exists (pt [1;1;1] 1 0). split; [exact ex3_ok|]. vmr. Qed.
