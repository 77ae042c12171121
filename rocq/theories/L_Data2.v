(** Lemmas about the Data model: removePoints, shuffle, relabelling, tallying, copy, join. *)
From Coq Require Import ZArith Bool String Sorted Permutation Lia List.
From Verif Require Import Base ListLib M_Data S_Data L_Data.
Import ListNotations.
Open Scope Z_scope.

Section D.
Context {T : Type}.
Implicit Types d : data T.
Implicit Types p q : point T.

(** ** removePoints *)
Definition kept (ids : list Z) (pts : list (point T)) : list (point T) :=
  filter (fun p => negb (memZ (p_id p) ids)) pts.

Lemma rp_loop_spec ids classes pts : forall pre s,
  count_ok classes (rp_dist s) (labels (pre ++ pts)) ->
  rp_size s = (length pre + length pts)%nat ->
  Z.of_nat (length pre + length pts) < 2 ^ 63 ->
  (rp_size s <= length (rp_index s))%nat ->
  length (rp_notfound s) = length ids ->
  (exists p, In p (pre ++ pts) /\ ~ In (p_id p) ids) ->
  (forall p, In p pts -> In (p_id p) ids -> 0 < p_id p) ->
  exists s', rp_loop ids classes pts s = Ok (kept ids pts, s') /\
    count_ok classes (rp_dist s') (labels (pre ++ kept ids pts)) /\
    rp_size s' = (length pre + length (kept ids pts))%nat /\
    (rp_size s' <= length (rp_index s'))%nat /\
    length (rp_notfound s') = length ids /\
    (forall i, nth_error (rp_notfound s') i =
       option_map (fun b => b && negb (existsb (fun p => Nat.eqb (find_pos (p_id p) ids) i) pts))%bool (nth_error (rp_notfound s) i)).
Proof.
  induction pts as [|po rest IH]; intros pre s Hc Hs Hcap Hi Hnf Hk Hpos; simpl.
  - exists s. rewrite app_nil_r in *. repeat split; auto; try lia; try apply Hc.
    + intro i. destruct (nth_error (rp_notfound s) i); simpl; rewrite ?andb_true_r; auto.
  - destruct (Nat.eqb (find_pos (p_id po) ids) (length ids)) eqn:E.
    + apply find_pos_eqb_true in E. pose proof (proj2 (memZ_notIn _ _) E) as Em. rewrite Em. simpl.
      destruct (IH (pre ++ [po]) s) as (s' & H1 & H2 & H3 & H4 & H5 & H6).
      * rewrite <- app_assoc. auto.
      * rewrite Hs, app_length. simpl. lia.
      * rewrite app_length. simpl in *. lia.
      * auto.
      * auto.
      * rewrite <- app_assoc. auto.
      * intros; apply Hpos; simpl; auto.
      * rewrite H1. cbn [obind fst snd]. exists s'.
        rewrite <- app_assoc in H2. rewrite app_length in H3. simpl in *.
        split; [reflexivity|]. split; [auto|]. split; [lia|]. split; [auto|]. split; [auto|].
        intro i. rewrite H6. destruct (nth_error (rp_notfound s) i) as [b|] eqn:En; simpl; auto.
        assert (Nat.eqb (find_pos (p_id po) ids) i = false) as ->; auto.
        apply Nat.eqb_neq. intros <-. assert (nth_error (rp_notfound s) (find_pos (p_id po) ids) <> None) as X by congruence.
        apply nth_error_Some in X. apply E, find_pos_In. lia.
    + apply find_pos_eqb in E. pose proof (proj2 (memZ_In _ _) E) as Em. rewrite Em. simpl.
      destruct (vupd_lt (find_pos (p_id po) ids) (fun _ => false) (rp_notfound s)) as (nf & Hn & Hn').
      { rewrite Hnf. apply find_pos_In. auto. }
      rewrite Hn'. cbn [obind].
      destruct (shift_index_ok (p_id po) (rp_size s) (rp_index s)) as (idx & Hx & _ & Hxl).
      { specialize (Hpos po (or_introl eq_refl) E). lia. }
      rewrite Hx. cbn [obind].
      assert (exists p, In p (pre ++ rest) /\ ~ In (p_id p) ids) as (pk & Ik & Nk).
      { destruct Hk as (p & Ip & Np). exists p. split; auto. apply in_app_or in Ip. apply in_or_app.
        destruct Ip as [?|[<-|?]]; auto. contradiction. }
      assert (1 <= length pre + length rest)%nat as Hge.
      { rewrite <- app_length. destruct (pre ++ rest); [destruct Ik|simpl; lia]. }
      simpl in Hs. destruct (Nat.eqb_spec (rp_size s) 1); [lia|].
      assert (In (p_y po) classes) as Iy.
      { apply Hc. rewrite labels_app. apply in_or_app. right. simpl. auto. }
      destruct (vupd_lt (find_pos (p_y po) classes) (fun c => wrap64 (c - 1)) (rp_dist s)) as (ds & Hd & Hd').
      { destruct Hc as (_ & -> & _). apply find_pos_In; auto. }
      rewrite Hd'. cbn [obind]. destruct (rp_size s) as [|k] eqn:Ek; [lia|].
      destruct (IH pre (mkRp idx ds k nf)) as (s' & H1 & H2 & H3 & H4 & H5 & H6); cbn [rp_dist rp_size rp_index rp_notfound].
      * eapply count_ok_drop with (y := p_y po); [ | |exact Hd].
        -- eapply count_ok_perm; [|exact Hc]. rewrite !labels_app. simpl. symmetry. apply Permutation_middle.
        -- unfold labels. rewrite map_length, app_length. simpl in *. lia.
      * lia.
      * simpl in *. lia.
      * rewrite Hxl; [lia|]. intro X. rewrite X in Hi. simpl in Hi. lia.
      * apply upd_length in Hn. lia.
      * eauto.
      * intros; apply Hpos; simpl; auto.
      * exists s'. repeat split; auto; try apply H2.
        intro i. rewrite H6. cbn [rp_notfound].
        destruct (Nat.eq_dec (find_pos (p_id po) ids) i) as [e|ne].
        -- rewrite <- e. rewrite (upd_nth_same _ _ _ _ Hn).
           destruct (nth_error (rp_notfound s) (find_pos (p_id po) ids)); simpl; auto.
           rewrite Nat.eqb_refl. simpl. rewrite andb_false_r. auto.
        -- rewrite (upd_nth_other _ i _ _ _ Hn) by auto.
           apply Nat.eqb_neq in ne. rewrite ne. auto.
Qed.

Lemma kept_sort ids pts : kept (isort Z.leb ids) pts = kept ids pts.
Proof.
  unfold kept. apply filter_ext. intro p. f_equal.
  destruct (memZ (p_id p) ids) eqn:E.
  - apply memZ_In. apply isort_In. apply memZ_In; auto.
  - apply memZ_notIn. rewrite isort_In. apply memZ_notIn; auto.
Qed.

Lemma removePoints_spec d ids :
  data_ok d -> (exists p, In p (d_points d) /\ ~ In (p_id p) ids) ->
  (forall p, In p (d_points d) -> In (p_id p) ids -> 0 < p_id p) ->
  exists d' nf, removePoints d ids = Ok (d', nf) /\ data_ok d' /\
    d_points d' = kept ids (d_points d) /\ d_fnames d' = d_fnames d /\ d_classes d' = d_classes d /\
    d_cnames d' = d_cnames d /\ d_dim d' = d_dim d /\ length nf = length ids /\
    (NoDup ids -> forall i x, nth_error (isort Z.leb ids) i = Some x ->
       nth_error nf i = Some (negb (memZ x (map p_id (d_points d))))).
Proof.
  intros Hd (p0 & I0 & N0) Hpos. unfold removePoints.
  pose proof Hd as [As Acl An Ai Adm Af Aso Afp Ae Ac].
  pose proof (proj1 (class_ok_iff d) Acl) as (A & CO).
  destruct (rp_loop_spec (isort Z.leb ids) (d_classes d) (d_points d) []
              (mkRp (d_index d) (d_dist d) (d_size d) (repeat true (length (isort Z.leb ids)))))
    as (s' & H1 & H2 & H3 & H4 & H5 & H6); simpl; auto; try lia.
  - rewrite repeat_length. auto.
  - exists p0. rewrite isort_In. auto.
  - intros p Ip. rewrite isort_In. auto.
  - rewrite H1. cbn [obind fst snd]. rewrite kept_sort in *.
    eexists _, _. split; [reflexivity|]. cbn. split.
    + constructor; cbn; auto.
      * apply class_ok_iff. cbn. auto.
      * simpl in *. lia.
      * intros p Hp. apply Adm. apply filter_In in Hp. tauto.
      * intro X. assert (In p0 (kept ids (d_points d))) as Y.
        { apply filter_In. split; auto. apply memZ_notIn in N0. rewrite N0. auto. }
        rewrite X in Y. destruct Y.
      * pose proof (filter_length_le' (fun p => negb (memZ (p_id p) ids)) (d_points d)). unfold kept. lia.
    + repeat split; auto.
      * rewrite H5. apply isort_length.
      * intros ND i x Hx. rewrite H6. simpl.
        assert (i < length (isort Z.leb ids))%nat as Hlt by (apply nth_error_Some; congruence).
        rewrite (nth_error_repeat true) by auto. simpl. f_equal. f_equal.
        assert (forall p, Nat.eqb (find_pos (p_id p) (isort Z.leb ids)) i = Z.eqb x (p_id p)) as E.
        { intro p. destruct (Z.eqb_spec x (p_id p)) as [<-|N].
          - apply Nat.eqb_eq. apply find_pos_unique; auto. apply isort_NoDup; auto.
          - apply Nat.eqb_neq. intro E. apply N.
            assert (In (p_id p) (isort Z.leb ids)) as I by (apply find_pos_In; lia).
            apply find_pos_nth in I. rewrite E in I. congruence. }
        unfold memZ. clear -E. induction (d_points d) as [|p l IH]; simpl; auto. rewrite E, IH. auto.
Qed.

(** ** shuffle *)
Lemma permute_spec {A} (l : list A) perm :
  (forall i, In i perm -> (i < length l)%nat) ->
  exists r, permute perm l = Ok r /\ map Some r = map (nth_error l) perm.
Proof.
  induction perm as [|i perm IH]; intro H; [exists []; auto|].
  change (permute (i :: perm) l) with (let* r := permute perm l in let* x := vget l i in Ok (x :: r)).
  destruct IH as (r & Hr & Er); [intros; apply H; right; auto|]. rewrite Hr. cbn [obind].
  destruct (vget_lt l i) as (x & Hx & Hv); [apply H; left; auto|]. rewrite Hv. cbn [obind].
  exists (x :: r). split; auto. simpl. congruence.
Qed.

Lemma map_nth_error_seq {A} (l : list A) : map (nth_error l) (seq 0 (length l)) = map Some l.
Proof.
  induction l as [|x l IH]; simpl; auto. f_equal. rewrite <- seq_shift, map_map. auto.
Qed.

Lemma Permutation_map_inv_Some {A} (l r : list A) : Permutation (map Some l) (map Some r) -> Permutation l r.
Proof.
  intro P. assert (forall (k : list A), flat_map (fun o => match o with Some x => [x] | None => [] end) (map Some k) = k) as F.
  { induction k as [|x k IH]; simpl; congruence. }
  rewrite <- (F l), <- (F r). apply Permutation_flat_map. auto.
Qed.

Lemma permute_perm {A} (l : list A) perm :
  Permutation perm (seq 0 (length l)) -> exists r, permute perm l = Ok r /\ Permutation r l /\ map Some r = map (nth_error l) perm.
Proof.
  intro P. destruct (permute_spec l perm) as (r & Hr & Er).
  - intros i Hi. apply (Permutation_in _ P) in Hi. apply in_seq in Hi. lia.
  - exists r. split; auto. split; auto. apply Permutation_map_inv_Some. rewrite Er, <- map_nth_error_seq.
    apply Permutation_map. auto.
Qed.

Lemma reset_prefix_spec n : forall l, (n <= length l)%nat ->
  exists r, reset_prefix n l = Ok r /\ length r = length l /\
    (forall i, (i < n)%nat -> nth_error r i = Some (Z.of_nat i)) /\
    (forall i, (n <= i)%nat -> nth_error r i = nth_error l i).
Proof.
  induction n as [|n IH]; intros l H.
  - exists l. repeat split; auto; intros; lia.
  - unfold reset_prefix. rewrite seq_S, fold_left_app. simpl.
    destruct (IH l) as (r & Hr & Hl & H1 & H2); [lia|]. unfold reset_prefix in Hr. rewrite Hr. cbn [obind].
    destruct (vupd_lt n (fun _ => Z.of_nat n) r) as (r' & Hu & Hv); [lia|].
    exists r'. split; auto. split; [apply upd_length in Hu; lia|]. split.
    + intros i Hi. destruct (Nat.eq_dec n i) as [<-|Ne].
      * rewrite (upd_nth_same _ _ _ _ Hu). destruct (nth_error r n) eqn:E; auto. apply nth_error_None in E. lia.
      * rewrite (upd_nth_other _ i _ _ _ Hu) by auto. apply H1. lia.
    + intros i Hi. rewrite (upd_nth_other _ i _ _ _ Hu) by lia. apply H2. lia.
Qed.

Lemma shuffle_spec d perm :
  (d_size d <= length (d_index d))%nat ->
  Permutation perm (seq 0 (length (d_points d))) ->
  exists d', shuffle perm d = Ok d' /\
    Permutation (d_points d') (d_points d) /\ map Some (d_points d') = map (nth_error (d_points d)) perm /\
    d_fnames d' = d_fnames d /\ d_cnames d' = d_cnames d /\ d_classes d' = d_classes d /\ d_dist d' = d_dist d /\
    d_size d' = d_size d /\ d_dim d' = d_dim d /\ d_class d' = d_class d /\ d_cdist d' = d_cdist d /\
    d_isempty d' = d_isempty d /\ d_normalized d' = d_normalized d /\
    length (d_index d') = length (d_index d) /\
    (forall i, (i < d_size d)%nat -> nth_error (d_index d') i = Some (Z.of_nat i)).
Proof.
  intros Hi P. unfold shuffle.
  destruct (permute_perm _ _ P) as (r & Hr & Pr & Er). rewrite Hr. cbn [obind].
  destruct (reset_prefix_spec (d_size d) (d_index d) Hi) as (ix & Hx & Lx & H1 & _). rewrite Hx. cbn [obind].
  eexists. split; [reflexivity|]. cbn. repeat split; auto.
Qed.

Lemma data_ok_perm d d' :
  data_ok d -> Permutation (d_points d') (d_points d) ->
  d_fnames d' = d_fnames d -> d_cnames d' = d_cnames d -> d_classes d' = d_classes d -> d_dist d' = d_dist d ->
  d_size d' = d_size d -> d_dim d' = d_dim d -> d_class d' = d_class d -> length (d_index d') = length (d_index d) ->
  data_ok d'.
Proof.
  intros [As Acl An Ai Adm Af Aso Afp Ae Ac] P E1 E2 E3 E4 E5 E6 E7 E8.
  pose proof (proj1 (class_ok_iff d) Acl) as (A & CO).
  pose proof (Permutation_length P) as L.
  constructor; rewrite ?E1, ?E2, ?E3, ?E4, ?E5, ?E6, ?E8; auto; try lia.
  - apply class_ok_iff. rewrite E7, E3, E4. split; auto. eapply count_ok_perm; [|exact CO].
    apply Permutation_map. symmetry. auto.
  - intros p Hp. apply Adm. eapply Permutation_in; eauto.
  - intro X. apply Ae. rewrite X in P. apply Permutation_nil in P. auto.
Qed.

Lemma shuffle_ok d perm d' :
  data_ok d -> Permutation perm (seq 0 (length (d_points d))) -> shuffle perm d = Ok d' -> data_ok d'.
Proof.
  intros Hd P H. destruct (shuffle_spec d perm) as (d1 & H1 & H2); auto.
  - rewrite (ok_size _ Hd). apply Hd.
  - rewrite H in H1. injection H1 as <-. destruct H2 as (A1 & A2 & A3 & A4 & A5 & A6 & A7 & A8 & A9 & A10 & A11 & A12 & A13 & A14).
    eapply data_ok_perm; eauto.
Qed.

(** ** relabelling *)
Lemma nth_error_remove_at {A} i (l : list A) j :
  (i < length l)%nat -> nth_error (remove_at i l) j = nth_error l (if Nat.ltb j i then j else S j).
Proof.
  intro H. unfold remove_at. destruct (Nat.ltb_spec j i).
  - rewrite nth_error_app1 by (rewrite firstn_length; lia).
    rewrite <- (firstn_skipn i l) at 2. rewrite nth_error_app1; auto. rewrite firstn_length; lia.
  - rewrite nth_error_app2; rewrite firstn_length, Nat.min_l by lia; [|lia].
    rewrite <- (firstn_skipn (S i) l) at 2. rewrite nth_error_app2; rewrite firstn_length, Nat.min_l by lia; [|lia]; try (f_equal; lia).
Qed.

Lemma remove_at_length {A} i (l : list A) : (i < length l)%nat -> length (remove_at i l) = (length l - 1)%nat.
Proof. intro H. unfold remove_at. rewrite app_length, firstn_length, skipn_length. lia. Qed.

Lemma count_ok_erase classes dist ys i c :
  count_ok classes dist ys -> nth_error classes i = Some c -> nth_error dist i = Some 0 ->
  count_ok (remove_at i classes) (remove_at i dist) ys.
Proof.
  intros (H1 & H2 & H3 & H4) Hc Hd.
  destruct (nth_error_split' _ _ _ Hc) as (a & b & -> & La).
  assert (i < length (a ++ c :: b))%nat as Hi by (rewrite app_length; simpl; lia).
  rewrite <- La at 1. rewrite remove_at_split.
  repeat split.
  - apply NoDup_remove_1 in H1. auto.
  - rewrite remove_at_length by lia. rewrite H2, !app_length. simpl. lia.
  - intros y Hy. specialize (H3 _ Hy). apply in_app_or in H3. apply in_or_app. simpl in H3.
    destruct H3 as [?|[<-|?]]; auto. exfalso.
    rewrite (H4 _ _ Hc) in Hd. injection Hd as Hd.
    apply (count_occ_In Z.eq_dec) in Hy. lia.
  - intros j c' Hj. rewrite nth_error_remove_at by lia.
    assert (remove_at i (a ++ c :: b) = a ++ b) as E by (rewrite <- La; apply remove_at_split).
    rewrite <- E in Hj. rewrite nth_error_remove_at in Hj by auto. apply H4. auto.
Qed.

Lemma updatePointValue_spec d i v :
  data_ok d -> (i < length (d_points d))%nat -> In v (d_classes d) ->
  exists d' q, updatePointValue d i v = Ok (d', true) /\ data_ok d' /\ nth_error (d_points d) i = Some q /\
    upd i (fun p => mkPoint (p_x p) v (p_id p) (p_alpha p)) (d_points d) = Some (d_points d') /\
    d_fnames d' = d_fnames d /\ d_dim d' = d_dim d /\ d_index d' = d_index d.
Proof.
  intros Hd Hi Hv. pose proof Hd as [As Acl An Ai Adm Af Aso Afp Ae Ac].
  pose proof (proj1 (class_ok_iff d) Acl) as (A & CO).
  unfold updatePointValue. destruct (Nat.leb_spec (d_size d) i); [lia|].
  destruct (vget_lt (d_points d) i Hi) as (q & Hq & Hq'). rewrite Hq'. cbn [obind].
  destruct (vupd_lt i (fun p : point T => mkPoint (p_x p) v (p_id p) (p_alpha p)) (d_points d) Hi) as (pts & Hp & Hp').
  rewrite Hp'. cbn [obind]. rewrite A.
  pose proof (proj2 (find_pos_eqb v (d_classes d)) Hv) as E. rewrite E.
  assert (length (d_dist d) = length (d_classes d)) as Ld by apply CO.
  destruct (vupd_lt (find_pos v (d_classes d)) (fun c => wrap64 (c + 1)) (d_dist d)) as (d1 & H1 & H1').
  { rewrite Ld. apply find_pos_In; auto. }
  rewrite H1'. cbn [obind].
  assert (In (p_y q) (d_classes d)) as Iq by (apply Acl; eapply nth_error_In; eauto).
  destruct (vupd_lt (find_pos (p_y q) (d_classes d)) (fun c => wrap64 (c - 1)) d1) as (d2 & H2 & H2').
  { rewrite (upd_length _ _ _ _ H1), Ld. apply find_pos_In; auto. }
  rewrite H2'. cbn [obind].
  destruct (upd_split _ _ _ _ Hp) as (a & q' & b & Ea & Eb & La).
  assert (q' = q) as -> by (rewrite Ea, <- La, nth_error_app2, Nat.sub_diag in Hq by lia; simpl in Hq; congruence).
  assert (count_ok (d_classes d) d2 (labels pts)) as CO2.
  { assert (count_ok (d_classes d) d1 (v :: labels (d_points d))) as CO1.
    { eapply count_ok_bump; eauto. unfold labels. rewrite map_length. lia. }
    eapply count_ok_drop with (y := p_y q); [| |exact H2].
    - eapply count_ok_perm; [|exact CO1]. rewrite Ea, Eb, !labels_app. simpl.
      rewrite <- Permutation_middle, perm_swap. constructor. rewrite <- Permutation_middle. auto.
    - unfold labels. rewrite map_length, Eb, app_length. rewrite Ea, app_length in Ac. simpl in *. lia. }
  assert (length d2 = length (d_classes d)) as L2 by apply CO2.
  destruct (vget_lt d2 (find_pos (p_y q) (d_classes d))) as (c & Hc & Hc').
  { rewrite L2. apply find_pos_In; auto. }
  rewrite Hc'. cbn [obind].
  assert (forall p, In p pts -> length (p_x p) = d_dim d) as Hdim.
  { intros p Ip. rewrite Eb in Ip. rewrite Ea in Adm. apply in_app_or in Ip.
    destruct Ip as [Ip|[<-|Ip]]; [apply Adm|apply (Adm q)|apply Adm]; apply in_or_app; simpl; auto. }
  assert (length pts = length (d_points d)) as Lp by (eapply upd_length; eauto).
  assert (pts <> []) as Np by (intro X; rewrite X in Lp; simpl in Lp; lia).
  destruct (Z.eqb_spec c 0) as [->|Nc].
  - pose proof (proj1 (find_pos_In _ _) Iq) as Lt.
    destruct (Nat.ltb_spec (find_pos (p_y q) (d_classes d)) (length (d_classes d))); [|lia].
    destruct (Nat.ltb_spec (find_pos (p_y q) (d_classes d)) (length (d_cnames d))); [|lia].
    cbn [andb]. eexists _, q. split; [reflexivity|]. cbn. split; [|repeat split; auto].
    constructor; cbn; auto; try lia.
    + apply class_ok_iff. cbn. split; auto. eapply count_ok_erase; eauto. apply find_pos_nth; auto.
    + rewrite !remove_at_length by lia. lia.
    + congruence.
  - eexists _, q. split; [reflexivity|]. cbn. split; [|repeat split; auto].
    constructor; cbn; auto; try lia.
    + apply class_ok_iff. cbn. auto.
    + congruence.
Qed.

(** ** tallying *)
Lemma tally_spec classes (pts : list (point T)) : forall dist pre,
  count_ok classes dist pre -> (forall p, In p pts -> In (p_y p) classes) ->
  Z.of_nat (length pre + length pts) < 2 ^ 63 ->
  exists dist', tally classes pts dist = Ok dist' /\ count_ok classes dist' (labels pts ++ pre).
Proof.
  induction pts as [|p pts IH]; intros dist pre CO Hin Hcap; simpl; [eauto|].
  destruct (vupd_lt (find_pos (p_y p) classes) (fun c => wrap64 (c + 1)) dist) as (d1 & H1 & H1').
  { destruct CO as (_ & -> & _). apply find_pos_In, Hin. left; auto. }
  rewrite H1'. cbn [obind].
  destruct (IH d1 (p_y p :: pre)) as (d2 & H2 & H3).
  - eapply count_ok_bump; eauto; [apply Hin; left; auto|]. simpl in Hcap. lia.
  - intros; apply Hin; right; auto.
  - simpl in *. lia.
  - exists d2. split; auto. eapply count_ok_perm; [|exact H3]. symmetry. apply Permutation_middle.
Qed.

Lemma count_ok_zero classes : NoDup classes -> count_ok classes (repeat 0 (length classes)) [].
Proof.
  intro ND. repeat split; auto.
  - apply repeat_length.
  - intros y [].
  - intros i c Hi. simpl. apply nth_error_repeat. apply nth_error_Some. congruence.
Qed.

Lemma tally_zero classes (pts : list (point T)) :
  NoDup classes -> (forall p, In p pts -> In (p_y p) classes) -> Z.of_nat (length pts) < 2 ^ 63 ->
  exists dist, tally classes pts (repeat 0 (length classes)) = Ok dist /\ count_ok classes dist (labels pts).
Proof.
  intros ND Hin Hc. destruct (tally_spec classes pts _ [] (count_ok_zero _ ND) Hin) as (d & H1 & H2); [simpl; lia|].
  rewrite app_nil_r in H2. eauto.
Qed.

Lemma computeClassesDistribution_ok d d' : data_ok d -> computeClassesDistribution d = Ok d' -> data_ok d'.
Proof.
  intros Hd. unfold computeClassesDistribution. destruct (d_cdist d); [intro H; injection H as <-; auto|].
  pose proof Hd as [As Acl An Ai Adm Af Aso Afp Ae Ac].
  destruct (tally_zero (d_classes d) (d_points d)) as (dist & H & CO); try apply Acl; auto.
  rewrite H. cbn [obind]. intro E. injection E as <-. constructor; cbn; auto.
  apply class_ok_iff. cbn. split; auto. apply Acl.
Qed.
End D.
