(** Lemmas about set_difference, join and classesCopy. *)
From Coq Require Import ZArith Bool String Sorted Permutation Lia List.
From Verif Require Import Base ListLib M_Data S_Data L_Data L_Data2 L_Insert L_Str L_Feat L_Split.
Import ListNotations.

Section SD.
Context {A : Type} (ltb : A -> A -> bool).
Hypothesis ltb_irr : forall x, ltb x x = false.
Hypothesis ltb_trans : forall x y z, ltb x y = true -> ltb y z = true -> ltb x z = true.
Hypothesis ltb_total : forall x y, ltb x y = false -> ltb y x = false -> x = y.
Let lt x y := ltb x y = true.

Lemma sorted_cons_notin x l : StronglySorted lt (x :: l) -> ~ In x l.
Proof.
  intros H Hx. inversion H as [|? ? _ Hf]; subst. rewrite Forall_forall in Hf. specialize (Hf _ Hx).
  unfold lt in Hf. rewrite ltb_irr in Hf. discriminate.
Qed.

Lemma set_difference_spec l1 : forall l2, StronglySorted lt l1 -> StronglySorted lt l2 ->
  StronglySorted lt (set_difference ltb l1 l2) /\
  forall x, In x (set_difference ltb l1 l2) <-> In x l1 /\ ~ In x l2.
Proof.
  induction l1 as [|x r1 IH1]; intros l2 H1 H2; [simpl; split; [constructor|tauto]|].
  inversion H1 as [|? ? S1 F1]; subst. rewrite Forall_forall in F1.
  induction l2 as [|y r2 IH2]; [cbn [set_difference]; split; auto; simpl; tauto|].
  inversion H2 as [|? ? S2 F2]; subst. rewrite Forall_forall in F2.
  cbn [set_difference]. destruct (ltb x y) eqn:Exy.
  - destruct (IH1 (y :: r2) S1 H2) as (I1 & I2). split.
    + constructor; auto. rewrite Forall_forall. intros z Hz. apply I2 in Hz. apply F1. tauto.
    + intro z. cbn [In]. rewrite I2. split.
      * intros [<-|[Hz Hn]]; [|split; auto]. split; auto. intros [->|Hx].
        -- rewrite ltb_irr in Exy. discriminate.
        -- specialize (F2 _ Hx). pose proof (ltb_trans _ _ _ Exy F2) as X. rewrite ltb_irr in X. discriminate.
      * intros [[->|Hz] Hn]; auto.
  - destruct (ltb y x) eqn:Eyx.
    + destruct (IH2 S2) as (I1 & I2). cbn [set_difference] in I1, I2. split; [exact I1|].
      intro z. rewrite (I2 z). split; [|simpl; tauto].
      intros [Hz Hn]. split; auto. intros [->|Hz']; auto.
      destruct Hz as [->|Hz]; [rewrite ltb_irr in Eyx; discriminate|].
      pose proof (ltb_trans _ _ _ Eyx (F1 _ Hz)) as X. rewrite ltb_irr in X. discriminate.
    + assert (x = y) as <- by (apply ltb_total; auto).
      destruct (IH1 r2 S1 S2) as (I1 & I2). split; auto. intro z. rewrite I2. simpl. split.
      * intros [Hz Hn]. split; auto. intros [->|Hz']; auto. exact (sorted_cons_notin _ _ H1 Hz).
      * intros [[->|Hz] Hn]; [exfalso; auto|]. split; auto.
Qed.

Lemma sorted_NoDup l : StronglySorted lt l -> NoDup l.
Proof. induction l as [|x l IH]; constructor; [apply sorted_cons_notin; auto|apply IH; inversion H; auto]. Qed.
End SD.

Lemma Zsort_strict l : NoDup l -> StronglySorted Z.lt (isort Z.leb l).
Proof.
  intro H. apply sorted_le_lt; [apply Zsort_sorted|apply isort_NoDup; auto].
Qed.

Lemma String_ltb_iff a b : String.ltb a b = true <-> String.compare a b = Lt.
Proof. unfold String.ltb. destruct (String.compare a b); split; intro; try discriminate; auto. Qed.

Lemma String_ltb_total a b : String.ltb a b = false -> String.ltb b a = false -> a = b.
Proof.
  unfold String.ltb. rewrite (String.compare_antisym a b). destruct (String.compare b a) eqn:E; simpl; try discriminate.
  intros. symmetry. apply String.compare_eq_iff. auto.
Qed.

Lemma Ssort_strict l : NoDup l -> StronglySorted (fun a b => String.ltb a b = true) (isort String.leb l).
Proof.
  intro H. apply (isort_NoDup String.leb) in H. revert H.
  generalize (isort_sorted String.leb String_leb_total String_leb_trans l). generalize (isort String.leb l).
  induction 1 as [|a l' Hs IH Hf]; intro ND; constructor; inversion ND; subst; auto.
  rewrite Forall_forall in *. intros b Hb. specialize (Hf _ Hb). apply String_ltb_iff.
  apply String_leb_iff in Hf. destruct Hf as [|<-]; auto. contradiction.
Qed.

Lemma Zdiff_spec (s d : list Z) : NoDup s -> NoDup d ->
  let diff := set_difference Z.ltb (isort Z.leb s) (isort Z.leb d) in
  NoDup diff /\ forall x, In x diff <-> In x s /\ ~ In x d.
Proof.
  intros Hs Hd. cbv zeta.
  assert (forall l, StronglySorted Z.lt l -> StronglySorted (fun x y => Z.ltb x y = true) l) as Cv.
  { intros l H. induction H as [|a l H IH Hf]; constructor; auto. eapply Forall_impl; [|exact Hf]. intros; apply Z.ltb_lt; auto. }
  destruct (set_difference_spec Z.ltb Z.ltb_irrefl) with (l1 := isort Z.leb s) (l2 := isort Z.leb d) as (I1 & I2).
  - intros x y z. rewrite !Z.ltb_lt. lia.
  - intros x y. rewrite !Z.ltb_ge. lia.
  - apply Cv, Zsort_strict; auto.
  - apply Cv, Zsort_strict; auto.
  - split; [eapply (sorted_NoDup Z.ltb Z.ltb_irrefl); eauto|]. intro x. rewrite I2, !isort_In. tauto.
Qed.

Lemma String_ltb_irr x : String.ltb x x = false.
Proof. unfold String.ltb. rewrite String_compare_refl. auto. Qed.

Lemma Sdiff_spec (s d : list string) : NoDup s -> NoDup d ->
  let diff := set_difference String.ltb (isort String.leb s) (isort String.leb d) in
  NoDup diff /\ forall x, In x diff <-> In x s /\ ~ In x d.
Proof.
  intros Hs Hd. cbv zeta.
  destruct (set_difference_spec String.ltb String_ltb_irr) with (l1 := isort String.leb s) (l2 := isort String.leb d) as (I1 & I2).
  - intros x y z. rewrite !String_ltb_iff. apply String_compare_lt_trans.
  - apply String_ltb_total.
  - apply Ssort_strict; auto.
  - apply Ssort_strict; auto.
  - split; [eapply (sorted_NoDup String.ltb String_ltb_irr); eauto|]. intro x. rewrite I2, !isort_In. tauto.
Qed.

Section D.
Context {T : Type}.
Implicit Types d s : data T.

Lemma map_copy_points (l : list (point T)) : map (fun p => mkPoint (p_x p) (p_y p) (p_id p) (p_alpha p)) l = l.
Proof. rewrite <- (map_id l) at 2. apply map_ext. intros [x y i a]. auto. Qed.

Lemma NoDup_app_intro {A} (a b : list A) : NoDup a -> NoDup b -> (forall x, In x b -> ~ In x a) -> NoDup (a ++ b).
Proof.
  intros Ha Hb H. induction Ha as [|x a Hx Ha IH]; auto. simpl. constructor.
  - intro X. apply in_app_or in X. destruct X as [X|X]; auto. apply (H x); auto. left; auto.
  - apply IH. intros y Hy Hn. apply (H y); auto. right; auto.
Qed.

Lemma dim_ok d : data_ok d -> d_points d <> [] -> dim d = d_dim d.
Proof.
  intros Hd Hn. unfold dim. destruct (d_points d) as [|p l] eqn:E; [tauto|]. apply Hd. rewrite E. left; auto.
Qed.

Lemma dim_ok' d : data_ok d -> dim d = d_dim d.
Proof.
  intros Hd. destruct (d_points d) as [|p l] eqn:E.
  - unfold dim. rewrite E. symmetry. apply (ok_empty _ Hd). auto.
  - apply dim_ok; auto. congruence.
Qed.

Lemma join_spec d s :
  data_ok d -> data_ok s -> d_dim d = d_dim s -> d_cdist d = false ->
  Z.of_nat (length (d_points d) + length (d_points s)) < 2 ^ 63 ->
  exists d', join d s = Ok d' /\
    d_points d' = d_points d ++ d_points s /\ d_size d' = length (d_points d') /\
    class_ok d' /\ (forall c, In c (d_classes d') <-> In c (d_classes d) \/ In c (d_classes s)) /\
    (exists more, d_classes d' = d_classes d ++ more) /\
    d_index d' = iota 0 (length (d_points d')) /\
    d_fnames d' = (match d_fnames d with [] => d_fnames s | _ => d_fnames d end) /\ d_dim d' = d_dim d /\
    (NoDup (d_cnames d) -> NoDup (d_cnames s) ->
       forall n, In n (d_cnames d') <-> In n (d_cnames d) \/ In n (d_cnames s)).
Proof.
  intros Hd Hs Hdim Hcd Hc. unfold join. rewrite (dim_ok' _ Hs), Hdim.
  rewrite (proj2 (Nat.ltb_ge _ _)) by lia. rewrite (ok_size _ Hd), (proj2 (Nat.ltb_ge _ _)) by lia.
  rewrite firstn_all, map_copy_points.
  set (diff := set_difference Z.ltb _ _). set (diffn := set_difference String.ltb _ _).
  destruct (Zdiff_spec (d_classes s) (d_classes d)) as (ND & HI); try apply Hs; try apply Hd. fold diff in ND, HI.
  unfold computeClassesDistribution. cbn [d_cdist]. rewrite Hcd. cbn [d_classes d_points].
  assert (NoDup (d_classes d ++ diff)) as ND'.
  { apply NoDup_app_intro; auto; try apply Hd. intros x Hx. apply HI in Hx. tauto. }
  assert (forall c, In c (d_classes d ++ diff) <-> In c (d_classes d) \/ In c (d_classes s)) as HU.
  { intro c. rewrite in_app_iff, HI. destruct (in_dec Z.eq_dec c (d_classes d)); tauto. }
  destruct (tally_zero (d_classes d ++ diff) (d_points d ++ d_points s)) as (dist & Ht & CO); auto.
  - intros p Hp. apply HU. apply in_app_or in Hp. destruct Hp as [Hp|Hp]; [left|right]; [apply Hd|apply Hs]; auto.
  - rewrite app_length. auto.
  - rewrite Ht. cbn. eexists. split; [reflexivity|]. cbn. split; auto. split; [rewrite app_length; auto|].
    split; [apply class_ok_iff; cbn; split; auto; apply Hd|]. split; auto. split; [eauto|]. split; auto. split; auto. split; auto.
    intros N1 N2 n. destruct (Sdiff_spec (d_cnames s) (d_cnames d) N2 N1) as (_ & HS). fold diffn in HS.
    rewrite in_app_iff, HS. destruct (in_dec string_dec n (d_cnames d)); tauto.
Qed.
End D.
