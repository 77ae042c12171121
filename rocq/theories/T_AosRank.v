(** Proofs about the ranking of the features in AOS. *)
From Coq Require Import ZArith Bool Reals Lia Lra List.
From Verif Require Import Base ListLib Loop L_Vec M_Data S_Data M_Point M_Stat S_Stat T_Stat M_Kmeans M_Fs S_Fs T_Fs M_Pq M_Aos S_Aos T_Aos T_Heavy M_AosRank S_AosRank.
Import ListNotations.
Local Open Scope nat_scope.

Lemma find_nth l y : In y l -> nth_error l (aos_find l y) = Some y.
Proof. induction l as [|z l IH]; intros H; [destruct H|]. cbn [aos_find]. destruct (Z.eqb_spec z y) as [->|N]; [reflexivity|]. cbn [nth_error]. apply IH. destruct H; [contradiction|assumption]. Qed.
Lemma count_members (d : data R) y : label_count y (d_points d) = Z.of_nat (length (members d (Z.eqb y))).
Proof.
  unfold label_count, labels, members. f_equal. induction (d_points d) as [|p l IH]; cbn [map count_occ filter]; [reflexivity|].
  destruct (Z.eq_dec (p_y p) y) as [E|N]; destruct (Z.eqb_spec y (p_y p)); try congruence; cbn [length]; congruence.
Qed.
Lemma aos_count_ok (d : data R) y : data_ok d -> (exists p, In p (d_points d) /\ p_y p = y) -> aos_count d y = Ok (Z.of_nat (length (members d (Z.eqb y)))).
Proof.
  intros O (p & Hp & <-). unfold aos_count, vget. pose proof (ok_class _ O) as C.
  rewrite (co_count _ C _ (p_y p)) by (apply find_nth, (co_listed _ C); exact Hp). rewrite count_members. reflexivity.
Qed.
Lemma members_pos (d : data R) y : (exists p, In p (d_points d) /\ p_y p = y) -> 0 < length (members d (Z.eqb y)).
Proof.
  intros (p & Hp & E). assert (In p (members d (Z.eqb y))) as M by (apply filter_In; split; [exact Hp|]; rewrite E; apply Z.eqb_refl).
  destruct (members d (Z.eqb y)); [destruct M|cbn; lia].
Qed.
(** The loop separates label -1 from the others; with two labels these are the points labelled 1. *)
Lemma members_same (d : data R) (f g : Z -> bool) : (forall p, In p (d_points d) -> f (p_y p) = g (p_y p)) -> members d f = members d g.
Proof. intro H. unfold members. apply filter_ext_in. exact H. Qed.
Lemma aos_sum_ok d (ng : bool) y i (f : R -> R) : data_ok (d : data R) -> two_labels d -> i < length (d_fnames d) -> y = (if ng then -1 else 1)%Z ->
  fs_sum d ng i f = Ok (length (members d (Z.eqb y)), sumn (length (members d (Z.eqb y))) (fun k => f (nz (nth k (map p_x (members d (Z.eqb y))) []) i))).
Proof.
  intros O (T & _) Hi Ey. rewrite (fs_sum_ok d ng i f (fun z => Bool.eqb (Z.eqb z (-1)) ng)); [|reflexivity|intros p Hp; rewrite (ok_dim _ O p Hp), <- (ok_fnames _ O); exact Hi].
  rewrite (members_same d (fun z => Bool.eqb (Z.eqb z (-1)) ng) (Z.eqb y)); [reflexivity|].
  intros p Hp. destruct (T p Hp) as [E|E]; rewrite E, Ey; destruct ng; reflexivity.
Qed.
Lemma aos_mean_ok (d : data R) (ng : bool) y i : data_ok d -> two_labels d -> i < length (d_fnames d) -> y = (if ng then -1 else 1)%Z ->
  aos_mean d ng (Z.of_nat (length (members d (Z.eqb y)))) i = Ok (Some (label_mean d (Z.eqb y) i)).
Proof.
  intros O T Hi Ey. unfold aos_mean. rewrite (aos_sum_ok d ng y i _ O T Hi Ey). cbn [obind snd bop_el].
  assert (0 < length (members d (Z.eqb y))) as P by (apply members_pos; destruct T as (_ & A & B); subst y; destruct ng; assumption).
  rewrite <- INR_IZR_INZ. apply lt_0_INR in P as P'. destruct (Req_EM_T _ 0) as [Z|_]; [lra|reflexivity].
Qed.
Lemma aos_scatter_ok (d : data R) (ng : bool) y i : data_ok d -> two_labels d -> i < length (d_fnames d) -> y = (if ng then -1 else 1)%Z ->
  aos_scatter d ng (Some (label_mean d (Z.eqb y) i)) i = Ok (Some (label_scatter d y i)).
Proof. intros O T Hi Ey. unfold aos_scatter. rewrite (aos_sum_ok d ng y i _ O T Hi Ey). reflexivity. Qed.
Lemma scatter_ge0 d y i : (0 <= label_scatter d y i)%R.
Proof. apply sumn_nonneg. intros. apply Rle_0_sqr. Qed.
Lemma aos_score_ok (d : data R) (g : bool) i : data_ok d -> two_labels d -> i < length (d_fnames d) ->
  aos_score g d i = Ok (if g then aos_golub (Some (label_mean d (Z.eqb 1) i)) (Some (label_scatter d 1 i)) (Some (label_scatter d (-1) i))
                                   (Z.of_nat (length (members d (Z.eqb 1)))) (Z.of_nat (length (members d (Z.eqb (-1)))))
                        else aos_fisher (Some (label_mean d (Z.eqb 1) i)) (Some (label_mean d (Z.eqb (-1)) i)) (Some (label_scatter d 1 i)) (Some (label_scatter d (-1) i))).
Proof.
  intros O T Hi. pose proof T as (_ & A & B). unfold aos_score. rewrite (aos_count_ok d 1 O A), (aos_count_ok d (-1) O B). cbn [obind].
  rewrite (aos_mean_ok d true (-1) i O T Hi eq_refl), (aos_mean_ok d false 1 i O T Hi eq_refl). cbn [obind].
  rewrite (aos_scatter_ok d true (-1) i O T Hi eq_refl), (aos_scatter_ok d false 1 i O T Hi eq_refl). reflexivity.
Qed.
Lemma name_get (d : data R) i : i < length (d_fnames d) -> vget (d_fnames d) i = Ok (nth i (d_fnames d) 0%Z).
Proof. intro H. unfold vget. rewrite (nth_error_nth' _ 0%Z H). reflexivity. Qed.

(** C147: sorting shape 6 compares the absolute weight times the square of the difference of the class means over the sum of the scatters. *)
Lemma c147_fisher : forall (q w : R) (d : data R) (i : nat), data_ok d -> two_labels d -> i < length (d_fnames d) -> (label_scatter d 1 i + label_scatter d (-1) i <> 0)%R ->
  aos_key 6 q d w i = Ok (Some (Rabs w * (Rsqr (label_mean d (Z.eqb 1) i - label_mean d (Z.eqb (-1)) i) / (label_scatter d 1 i + label_scatter d (-1) i))))%R.
Proof.
  intros q w d i O T Hi N. unfold aos_key. rewrite name_get by exact Hi. cbn [obind Z.eqb Pos.eqb]. rewrite (aos_score_ok d false i O T Hi). cbn [obind aos_fisher lift1 lift2 bop_el uop_el].
  destruct (Req_EM_T _ 0) as [Z|_]; [contradiction|]. cbn [lift1]. do 2 f_equal. rewrite Rabs_mult. f_equal. apply Rabs_pos_eq.
  pose proof (scatter_ge0 d 1 i). pose proof (scatter_ge0 d (-1) i). apply Rmult_le_pos; [apply Rle_0_sqr|]. apply Rlt_le, Rinv_0_lt_compat. lra.
Qed.
Lemma root_ok d y i : (exists p, In p (d_points d) /\ p_y p = y) ->
  aos_root (Some (label_scatter d y i)) (Z.of_nat (length (members d (Z.eqb y)))) = if Rle_dec 0 (label_var d y i - 1) then Some (sqrt (label_var d y i - 1)) else None.
Proof.
  intro H. apply members_pos in H. apply lt_0_INR in H as H'. unfold aos_root. cbn [lift1 bop_el]. rewrite <- INR_IZR_INZ. destruct (Req_EM_T _ 0) as [Z|_]; [lra|]. reflexivity.
Qed.
(** C147: sorting shape 5 looks at neither mean: the value is |w| sqrt(variance of the class -1, less 1), and not a number unless both variances exceed 1 (that of class -1 may be 1). *)
Lemma c147_golub_refuted : forall (q w : R) (d : data R) (i : nat), data_ok d -> two_labels d -> i < length (d_fnames d) ->
  ((1 < label_var d 1 i)%R -> (1 <= label_var d (-1) i)%R -> aos_key 5 q d w i = Ok (Some (Rabs w * sqrt (label_var d (-1) i - 1))%R)) /\
  (~ ((1 < label_var d 1 i)%R /\ (1 <= label_var d (-1) i)%R) -> aos_key 5 q d w i = Ok None).
Proof.
  intros q w d i O T Hi. pose proof T as (_ & A & B). unfold aos_key. rewrite name_get by exact Hi. cbn [obind Z.eqb Pos.eqb]. rewrite (aos_score_ok d true i O T Hi). unfold aos_golub.
  rewrite (root_ok d 1 i A), (root_ok d (-1) i B). cbn [obind lift1 lift2 bop_el uop_el]. split.
  - intros V W. destruct (Rle_dec 0 (label_var d 1 i - 1)) as [_|X]; [|exfalso; lra]. destruct (Rle_dec 0 (label_var d (-1) i - 1)) as [_|X]; [|exfalso; lra]. cbn [lift2 bop_el].
    destruct (Req_EM_T (sqrt (label_var d 1 i - 1)) 0) as [Z|_]; [exfalso; pose proof (sqrt_lt_R0 (label_var d 1 i - 1)); lra|]. cbn [lift2 lift1 bop_el]. do 2 f_equal.
    rewrite Rminus_eq_0, Rabs_R0. unfold Rdiv at 1. rewrite Rmult_0_l, Rplus_0_l, Rabs_mult. f_equal. apply Rabs_pos_eq, sqrt_pos.
  - intro N. destruct (Rle_dec 0 (label_var d 1 i - 1)) as [V|V]; [|reflexivity]. cbn [lift2 bop_el]. destruct (Req_EM_T (sqrt (label_var d 1 i - 1)) 0) as [Z|Z]; [reflexivity|].
    destruct (Rle_dec 0 (label_var d (-1) i - 1)) as [W|W]; [|reflexivity]. exfalso. apply N. split; [|lra]. destruct (Req_dec (label_var d 1 i - 1) 0) as [E|E]; [rewrite E, sqrt_0 in Z; lra|lra].
Qed.
Lemma mean_between d y j lo hi : (exists p, In p (d_points d) /\ p_y p = y) -> (forall p, In p (d_points d) -> lo <= nz (p_x p) j <= hi)%R -> (lo <= label_mean d (Z.eqb y) j <= hi)%R.
Proof.
  intros E H. apply members_pos in E. apply lt_0_INR in E as E'. unfold label_mean. set (n := length (members d (Z.eqb y))) in *.
  assert (forall k, (k < n)%nat -> lo <= nz (nth k (map p_x (members d (Z.eqb y))) []) j <= hi)%R as G.
  { intros k Hk. subst n. assert (In (nth k (map p_x (members d (Z.eqb y))) []) (map p_x (members d (Z.eqb y)))) as I by (apply nth_In; rewrite map_length; exact Hk).
    apply in_map_iff in I as (p & <- & Ip). apply H. apply filter_In in Ip. tauto. }
  assert (sumn n (fun _ => lo) <= sumn n (fun i => nz (nth i (map p_x (members d (Z.eqb y))) []) j))%R as A by (apply sumn_le; intros; apply G; assumption).
  assert (sumn n (fun i => nz (nth i (map p_x (members d (Z.eqb y))) []) j) <= sumn n (fun _ => hi))%R as B by (apply sumn_le; intros; apply G; assumption).
  rewrite sumn_const in A, B. split; apply (Rmult_le_reg_r (INR n)); try assumption; unfold Rdiv; rewrite Rmult_assoc, Rinv_l by lra; lra.
Qed.
(** C147: when the values of a feature lie within an interval of length 1, as after scaling to [0, 1], its value is not a number. *)
Lemma c147_scaled_refuted : forall (q w lo : R) (d : data R) (i : nat), data_ok d -> two_labels d -> i < length (d_fnames d) ->
  (forall p, In p (d_points d) -> lo <= nz (p_x p) i <= lo + 1)%R -> aos_key 5 q d w i = Ok None.
Proof.
  intros q w lo d i O T Hi H. pose proof T as (_ & A & B). apply (c147_golub_refuted q w d i O T Hi). intros [V _].
  pose proof (mean_between d 1 i lo (lo + 1)%R A H) as M. apply members_pos in A. apply lt_0_INR in A as A'. unfold label_var in V.
  assert (label_scatter d 1 i <= INR (length (members d (Z.eqb 1))) * 1)%R as L.
  { rewrite <- sumn_const. apply sumn_le. intros k Hk. assert (In (nth k (map p_x (members d (Z.eqb 1))) []) (map p_x (members d (Z.eqb 1)))) as I by (apply nth_In; rewrite map_length; exact Hk).
    apply in_map_iff in I as (p & <- & Ip). assert (lo <= nz (p_x p) i <= lo + 1)%R as Hp by (apply H; apply filter_In in Ip; tauto).
    set (t := (nz (p_x p) i - label_mean d (Z.eqb 1) i)%R). assert (-1 <= t <= 1)%R by (unfold t; lra). unfold Rsqr. nra. }
  apply (Rmult_lt_compat_r (INR (length (members d (Z.eqb 1))))) in V; [|exact A']. unfold Rdiv in V. rewrite Rmult_assoc, Rinv_l in V by lra. lra.
Qed.
Lemma fx_two : two_labels fx.
Proof. split; [intros p Hp; cbn in Hp; intuition (subst; cbn; auto)|]. split; [exists (nth 2 (d_points fx) (mkPoint [] 0%Z 0%Z 0%R))|exists (nth 0 (d_points fx) (mkPoint [] 0%Z 0%Z 0%R))]; (split; [cbn; tauto|reflexivity]). Qed.
Lemma c147_fisher_ex : data_ok fx /\ two_labels fx /\ 0 < length (d_fnames fx) /\ (label_scatter fx 1 0 + label_scatter fx (-1) 0 = 4)%R /\ (label_mean fx (Z.eqb 1) 0 - label_mean fx (Z.eqb (-1)) 0 = 4)%R.
Proof. split; [exact fx_ok|]. split; [exact fx_two|]. split; [cbn; lia|]. unfold label_scatter, label_mean, nz, Rsqr. cbn. split; lra. Qed.
Lemma c147_golub_refuted_ex : data_ok fx /\ two_labels fx /\ label_var fx 1 0 = 1%R /\ label_var fx (-1) 0 = 1%R.
Proof. split; [exact fx_ok|]. split; [exact fx_two|]. unfold label_var, label_scatter, label_mean, nz, Rsqr. cbn. split; lra. Qed.
(** C147: the other sorting shapes, on a dataset with features named by positive numbers and points labelled 1 and not 1. *)
Lemma rect_of (d : data R) : data_ok d -> rectangular d (length (d_points d)) (length (d_fnames d)).
Proof. intro O. split; [reflexivity|]. split; [|reflexivity]. intros p Hp. rewrite (ok_dim _ O p Hp), (ok_fnames _ O). reflexivity. Qed.
Lemma both_of (d : data R) : two_labels d -> both_labels d.
Proof. intros (_ & A & (p & Hp & E)). split; [exact A|]. exists p. split; [exact Hp|]. rewrite E. discriminate. Qed.
Lemma c147_shapes : forall (w : R) (d : data R) (i : nat), data_ok d -> two_labels d -> i < length (d_fnames d) ->
  let f := nth i (d_fnames d) 0%Z in
  (forall (q : R) shape, (shape < 2 \/ 6 < shape)%Z -> aos_key shape q d w i = Ok (Some (Rabs w))) /\
  (forall q : R, aos_key 2 q d w i = Ok (if Req_EM_T (gap_without d f) 0 then None else Some (Rabs w / gap_without d f)%R)) /\
  exists r, radius_without d f r /\ aos_key 4 2 d w i = Ok (Some (Rabs w * r)%R) /\
    aos_key 3 2 d w i = Ok (if Req_EM_T (gap_without d f) 0 then None else Some (Rabs w * r / gap_without d f)%R).
Proof.
  intros w d i O T Hi f. pose proof (rect_of d O) as Rc. pose proof (both_of d T) as Bt.
  assert (0 < length (d_points d)) as Np. { destruct T as (_ & (p & Hp & _) & _). destruct (d_points d); [destruct Hp|cbn; lia]. }
  assert (0 <= gap_without d f)%R as Gp by apply sqrt_pos. split; [|split].
  - intros q shape Hs. unfold aos_key. rewrite name_get by exact Hi. cbn [obind].
    destruct (Z.eqb_spec shape 6); [lia|]. destruct (Z.eqb_spec shape 5); [lia|]. destruct (Z.eqb_spec shape 4); [lia|]. destruct (Z.eqb_spec shape 3); [lia|]. destruct (Z.eqb_spec shape 2); [lia|]. reflexivity.
  - intro q. unfold aos_key. rewrite name_get by exact Hi. cbn [obind Z.eqb Pos.eqb]. fold f. rewrite (c88_distance d _ _ f Rc Bt). cbn [obind lift1 bop_el]. fold (gap_without d f).
    destruct (Req_EM_T (gap_without d f) 0) as [_|N]; [reflexivity|]. cbn [lift1 uop_el]. do 2 f_equal. unfold Rdiv. rewrite Rabs_mult. f_equal. apply Rabs_pos_eq. apply Rlt_le, Rinv_0_lt_compat. lra.
  - destruct (c65_radius d _ _ f Rc Np) as (r & E & A & B). exists r. split; [split; [exact A|exact B]|].
    assert (0 <= r)%R as Rp by (destruct B as (k & _ & ->); apply sqrt_pos). unfold aos_key. rewrite name_get by exact Hi. cbn [obind Z.eqb Pos.eqb]. fold f. rewrite E. cbn [obind]. split.
    + do 2 f_equal. rewrite Rabs_mult. f_equal. apply Rabs_pos_eq, Rp.
    + rewrite (c88_distance d _ _ f Rc Bt). cbn [obind lift1 bop_el]. fold (gap_without d f).
      destruct (Req_EM_T (gap_without d f) 0) as [_|N]; [reflexivity|]. cbn [lift1 uop_el]. do 2 f_equal. unfold Rdiv. rewrite !Rabs_mult. f_equal; [f_equal; apply Rabs_pos_eq, Rp|]. apply Rabs_pos_eq. apply Rlt_le, Rinv_0_lt_compat. lra.
Qed.
Lemma c147_shapes_ex : data_ok fx /\ two_labels fx /\ (gap_without fx 1 = sqrt 4)%R.
Proof.
  split; [exact fx_ok|]. split; [exact fx_two|]. unfold gap_without. f_equal. unfold sum_over, centre_gap, label_mean, nz. cbn. lra.
Qed.
(** C147: on values that are numbers the comparison is what std::sort needs, and what it leaves is in decreasing order. *)
Lemma before_some a b : aos_before (Some a) (Some b) = if Rlt_dec b a then true else false.
Proof. unfold aos_before, aos_gt. destruct (Rlt_dec b a), (Rlt_dec a b); try reflexivity. lra. Qed.
Lemma c147_order : weak_order (fun a => a <> None) aos_before /\
  forall (l : list (option R)) (i j : nat) (a b : R), (forall i j, i < j < length l -> aos_before (nth j l None) (nth i l None) = false) -> i < j ->
    nth_error l i = Some (Some a) -> nth_error l j = Some (Some b) -> (b <= a)%R.
Proof.
  split; [repeat split|].
  - intros [a|] H; [|congruence]. rewrite before_some. destruct (Rlt_dec a a); [lra|reflexivity].
  - intros [a|] [b|] [c|] Ha Hb Hc; try congruence. rewrite !before_some. destruct (Rlt_dec b a); [|discriminate]. destruct (Rlt_dec c b); [|discriminate]. destruct (Rlt_dec c a); [reflexivity|lra].
  - destruct a as [a|], b as [b|], c as [c|]; try congruence. rewrite !before_some in *. destruct (Rlt_dec b a); [discriminate|]. destruct (Rlt_dec a b); [discriminate|]. destruct (Rlt_dec c b); [discriminate|]. destruct (Rlt_dec b c); [discriminate|]. destruct (Rlt_dec c a); [lra|reflexivity].
  - destruct a as [a|], b as [b|], c as [c|]; try congruence. rewrite !before_some in *. destruct (Rlt_dec b a); [discriminate|]. destruct (Rlt_dec a b); [discriminate|]. destruct (Rlt_dec c b); [discriminate|]. destruct (Rlt_dec b c); [discriminate|]. destruct (Rlt_dec a c); [lra|reflexivity].
  - intros l i j a b H L Ei Ej. assert (j < length l) as Lj by (apply nth_error_Some; congruence). specialize (H i j (conj L Lj)).
    rewrite (nth_error_nth _ _ None Ei), (nth_error_nth _ _ None Ej), before_some in H. destruct (Rlt_dec a b); [discriminate|lra].
Qed.
Lemma c147_order_ex : aos_before (Some 2%R) (Some 1%R) = true.
Proof. rewrite before_some. destruct (Rlt_dec 1 2); [reflexivity|lra]. Qed.
(** C147: as soon as one value is not a number and two others differ it is not: std::sort is then undefined. *)
Lemma c147_nan_refuted : forall (P : option R -> Prop) (a b : R), P None -> P (Some a) -> P (Some b) -> a <> b -> ~ weak_order P aos_before.
Proof.
  intros P a b N A B D (_ & _ & H). destruct (H (Some a) None (Some b) A N B eq_refl eq_refl eq_refl eq_refl) as [X Y]. rewrite before_some in X, Y.
  destruct (Rlt_dec b a); [discriminate|]. destruct (Rlt_dec a b); [discriminate|]. lra.
Qed.
Lemma c147_nan_refuted_ex : (1 <> 2)%R.
Proof. lra. Qed.

(** C147: with any other choice the children are those of C114. *)
Lemma c147_choice : forall (choice : Z) (c : aos_cfg) level ofnames dim (ws : list (Z * R * R)) (wnorm margin : R) (s : front), choice <> 2%Z ->
  aos_children choice c level ofnames dim ws wnorm margin s = ofold (aos_branch c level ofnames dim (map fst ws) wnorm margin) (seq 0 (a_breadth c)) s.
Proof.
  intros choice c level ofnames dim ws wnorm margin s N. unfold aos_children. generalize (seq 0 (a_breadth c)) as l. revert s. 
  intros s l. revert s. induction l as [|i l IH]; intro s; cbn [ofold]; [reflexivity|].
  assert (aos_branch_choice choice c level ofnames dim ws wnorm margin s i = aos_branch c level ofnames dim (map fst ws) wnorm margin s i) as ->.
  { destruct s as [[[st tab] q] nw]. unfold aos_branch_choice, aos_branch. unfold vget. rewrite nth_error_map. destruct (nth_error ws i) as [[[f w] dc]|]; cbn [option_map obind fst snd]; [|reflexivity].
    destruct (Z.eqb_spec choice 2); [contradiction|]. reflexivity. }
  destruct (aos_branch c level ofnames dim (map fst ws) wnorm margin s i); cbn [obind]; [apply IH| |]; reflexivity.
Qed.
Lemma skip_one choice c level ofnames dim ws wnorm margin st tab q nw i s' f w dc :
  nth_error ws i = Some (f, w, dc) -> i <> 0 -> (forall v, v = (if Z.eqb choice 2 then aos_projected dim i w wnorm margin * dc else aos_projected dim i w wnorm margin)%R -> (v < (1 - 5 / 100) * a_gm c)%R) ->
  aos_branch_choice choice c level ofnames dim ws wnorm margin (st, tab, q, nw) i = Ok s' -> snd (fst s') = q.
Proof.
  intros E Ni V H. unfold aos_branch_choice in H. unfold vget in H. rewrite E in H. cbn [obind fst snd] in H.
  destruct (aos_names level ofnames f) as [names| |]; cbn [obind] in H; try discriminate.
  match type of H with context [vis_add ?x ?y ?z] => destruct (vis_add x y z) as [[[b st1] tab1]| |] end; cbn [obind] in H; try discriminate.
  specialize (V _ eq_refl). destruct (Rlt_dec _ _) as [_|X]; [|contradiction]. destruct (Nat.eqb_spec i 0); [contradiction|]. cbn [negb andb] in H. injection H as <-. reflexivity.
Qed.
(** C147: with choice 2 and a sorting shape other than 2 and 3 the distance by which the margin is multiplied is -1: no child but the first enters the queue. *)
Lemma c147_choice_refuted : forall (shape : Z) (d : data R) (c : aos_cfg) level ofnames dim (ws : list (Z * R * R)) (wnorm margin : R) (s s' : front),
  shape <> 2%Z -> shape <> 3%Z -> (forall x, In x ws -> aos_dcents shape d (fst (fst x)) = Ok (Some (snd x)) /\ snd (fst x) <> 0%R) ->
  1 < dim -> length ws <= dim -> (wnorm <> 0)%R -> (margin <> 0)%R -> (0 <= a_gm c)%R -> 1 <= a_breadth c ->
  aos_children 2 c level ofnames dim ws wnorm margin s = Ok s' ->
  exists s1, aos_branch_choice 2 c level ofnames dim ws wnorm margin s 0 = Ok s1 /\ snd (fst s') = snd (fst s1).
Proof.
  intros shape d c level ofnames dim ws wnorm margin s s' N2 N3 W Hd Lw Nw Nm G Hb H. unfold aos_children in H. destruct (a_breadth c) as [|b]; [lia|]. cbn [seq ofold] in H.
  destruct (aos_branch_choice 2 c level ofnames dim ws wnorm margin s 0) as [s1| |]; cbn [obind] in H; try discriminate. exists s1. split; [reflexivity|].
  assert (forall l, (forall i, In i l -> i <> 0) -> forall s1, ofold (aos_branch_choice 2 c level ofnames dim ws wnorm margin) l s1 = Ok s' -> snd (fst s') = snd (fst s1)) as K.
  2: { apply (K (seq 1 b)); [intros i Hi; apply in_seq in Hi; lia|exact H]. }
  clear H s s1. induction l as [|i l IH]; intros Hl s1 H; cbn [ofold] in H; [injection H as <-; reflexivity|].
  destruct (aos_branch_choice 2 c level ofnames dim ws wnorm margin s1 i) as [s2| |] eqn:E; cbn [obind] in H; try discriminate.
  rewrite (IH (fun i Hi => Hl i (or_intror Hi)) s2 H). destruct s1 as [[[st tab] q] nw]. cbn [fst snd].
  destruct (nth_error ws i) as [[[f w] dc]|] eqn:En.
  - apply (skip_one 2 c level ofnames dim ws wnorm margin st tab q nw i s2 f w dc En); [apply Hl; left; reflexivity| |exact E].
    intros v ->. cbn [Z.eqb Pos.eqb]. assert (i < length ws) as Hi by (apply nth_error_Some; congruence).
    destruct (W (f, w, dc) (nth_error_In _ _ En)) as [D0 W0]. cbn [fst snd] in D0, W0. unfold aos_dcents in D0. destruct (Z.eqb_spec shape 2); [contradiction|]. destruct (Z.eqb_spec shape 3); [contradiction|]. cbn [orb] in D0. injection D0 as <-.
    rewrite c116_value by (lia || assumption). assert (0 < sqrt (INR (dim - 1)) * (Rabs w / Rabs wnorm) * Rabs margin)%R as P.
    { apply Rmult_lt_0_compat; [|apply Rabs_pos_lt; exact Nm]. apply Rmult_lt_0_compat; [apply sqrt_lt_R0, lt_0_INR; lia|]. apply Rmult_lt_0_compat; [apply Rabs_pos_lt; exact W0|]. apply Rinv_0_lt_compat, Rabs_pos_lt. exact Nw. }
    lra.
  - unfold aos_branch_choice, vget in E. rewrite En in E. discriminate.
Qed.
Definition cws : list (Z * R * R) := [(1%Z, 3, -1); (2%Z, 2, -1); (3%Z, 1, -1)]%R.
Definition ccfg : aos_cfg := mkCfg 2 1 0 0%R 4 7 3.
Lemma c147_choice_refuted_ex : (forall x, In x cws -> aos_dcents 1 fx (fst (fst x)) = Ok (Some (snd x)) /\ snd (fst x) <> 0%R) /\
  exists s', aos_children 2 ccfg 0 [] 3 cws 4%R 1%R ([], vis_new 7 3, pq_new 4, []) = Ok s' /\ length (fst (fst (fst s'))) = 2 /\ pq_size (snd (fst s')) = 1.
Proof.
  split; [intros x Hx; cbn in Hx; intuition (subst; try reflexivity; cbn in *; lra)|].
  unfold aos_children, ccfg, cws, aos_branch_choice. cbn [a_breadth seq ofold vget nth_error obind fst snd Z.eqb Pos.eqb]. cbn -[aos_projected Rlt_dec Rmult].
  match goal with |- context [Rlt_dec ?a ?b] => destruct (Rlt_dec a b) as [X|X] end.
  - eexists. split; [reflexivity|]. split; reflexivity.
  - exfalso. apply X. rewrite c116_value by (lia || lra). replace (3 - 1) with 2 by lia. 
    assert (0 < sqrt (INR 2) * (Rabs 2 / Rabs 4) * Rabs 1)%R; [|lra]. rewrite !Rabs_pos_eq by lra. pose proof (sqrt_lt_R0 (INR 2) ltac:(cbn; lra)). nra.
Qed.
Definition ux : data R := mkData [fmk 0 0 0 (-1) 1; fmk 1 0 1 (-1) 2; fmk 1 1 0 1 3; fmk 1 1 1 1 4] [1; 2; 3]%Z [0; 1; 2; 3]%Z (d_cnames fx) [-1; 1]%Z [2; 2]%Z 4 3 false false false true.
Lemma c147_scaled_refuted_ex : data_ok ux /\ two_labels ux /\ 2 < length (d_fnames ux) /\ (forall p, In p (d_points ux) -> 0 <= nz (p_x p) 2 <= 0 + 1)%R.
Proof.
  split; [|split; [|split; [cbn; lia|]]].
  - constructor; [reflexivity| |reflexivity|cbn; lia| |reflexivity| | |discriminate|cbn; lia].
    + constructor; [reflexivity|repeat constructor; cbn; intuition discriminate|intros p Hp; cbn in Hp; intuition (subst; cbn; auto)|reflexivity|intros [|[|[|i]]] c E; cbn in E; try discriminate; injection E as <-; reflexivity].
    + intros p Hp. cbn in Hp. intuition (subst; reflexivity).
    + repeat constructor.
    + intros f [<-|[<-|[<-|[]]]]; lia.
  - split; [intros p Hp; cbn in Hp; intuition (subst; cbn; auto)|]. split; [exists (nth 2 (d_points ux) (mkPoint [] 0%Z 0%Z 0%R))|exists (nth 0 (d_points ux) (mkPoint [] 0%Z 0%Z 0%R))]; (split; [cbn; tauto|reflexivity]).
  - intros p Hp. cbn in Hp. unfold nz. intuition (subst; cbn; lra).
Qed.
Lemma c147_choice_ex : (1 <> 2)%Z.
Proof. discriminate. Qed.
(** C147: with one child per node, trainings that succeed, and values that are numbers, the search with any sorting shape is an elimination: train, take away a feature of
    the greatest value, and so on. *)
Lemma c147_search : forall (fuel : nat) (shape : Z) (q : R) (c : aos_cfg) srt tr (d : data R) (key : data R -> Z * R -> R), searchable d c srt tr -> willing d tr -> a_breadth c = 1 -> levels d c + 3 <= fuel ->
  (forall keep e i w, restricted keep d e -> i < length (d_fnames e) -> aos_key shape q e w i = Ok (Some (key e (nth i (d_fnames e) 0%Z, w)))) -> ranked d key srt ->
  exists e, aos_select fuel c srt tr d = Ok (Done e) /\
    heaviest (fun e x => match aos_key shape q e (snd x) (aos_find (d_fnames e) (fst x)) with Ok (Some v) => v | _ => 0%R end) tr d (levels d c) e.
Proof.
  intros fuel shape q c srt tr d key Hs Hw Hb Hf Hk Hr. pose proof Hs as (Od & _). destruct (eliminates fuel c srt tr d key Hs Hr Hw Hb Hf) as (e & E & H). exists e. split; [exact E|].
  assert (forall k e, heaviest key tr d k e -> (exists keep, restricted keep d e) /\
    heaviest (fun e x => match aos_key shape q e (snd x) (aos_find (d_fnames e) (fst x)) with Ok (Some v) => v | _ => 0%R end) tr d k e) as G.
  2: { apply (G _ _ H). }
  clear e E H. intros k e H. induction H as [|k e i e' H [(keep & Re) IH] Hi Hm Rr]; [split; [exists (fun _ => true); apply restricted_all, Od|constructor]|]. split.
  - exists (fun n => keep n && without [nth i (d_fnames e) 0%Z] n). destruct Re as (F & P & C1 & C2 & C3). destruct Rr as (F' & P' & C1' & C2' & C3').
    split; [rewrite F', F; apply filter_and|]. split; [|split; [congruence|split; congruence]]. rewrite P', P, map_map. apply map_ext_in. intros p Ip. cbn [p_x p_y p_id p_alpha]. f_equal. rewrite F. apply keep_twice. rewrite (ok_fnames _ Od). symmetry. apply (ok_dim _ Od). exact Ip.
  - apply (heaviest_S _ tr d k e i e'); [exact IH|exact Hi| |exact Rr]. intros j Hj.
    assert (forall j w, j < length (d_fnames e) -> aos_key shape q e w (aos_find (d_fnames e) (nth j (d_fnames e) 0%Z)) = Ok (Some (key e (nth j (d_fnames e) 0%Z, w)))) as V.
    { intros m w Hm'. assert (In (nth m (d_fnames e) 0%Z) (d_fnames e)) as I by (apply nth_In; exact Hm'). pose proof (find_nth _ _ I) as N. pose proof (nth_error_nth _ _ 0%Z N) as N'. rewrite (Hk keep e _ w Re) by (apply nth_error_Some; congruence). rewrite N'. reflexivity. }
    cbn [fst snd]. rewrite !V by assumption. apply Hm. exact Hj.
Qed.
Lemma c147_search_ex : exists key, (forall keep e i w, restricted keep fx e -> i < length (d_fnames e) -> aos_key 4 3 e w i = Ok (Some (key e (nth i (d_fnames e) 0%Z, w)))) /\
  ranked fx key (fun _ => fsort (fun x => - Rabs x)%R) /\ searchable fx (aos_new fx 1 1 0 0) (fun _ => fsort (fun x => - Rabs x)%R) (even_train 1) /\ levels fx (aos_new fx 1 1 0 0) = 2.
Proof.
  exists by_weight. split; [|split; [apply ranked_fsort|split; [apply fx_searchable|reflexivity]]].
  intros keep e i w _ Hi. unfold aos_key. rewrite name_get by exact Hi. cbn [obind Z.eqb Pos.eqb]. rewrite c65_radius_other_refuted by lra. cbn [obind by_weight snd]. rewrite Rmult_1_r. reflexivity.
Qed.
Lemma upd_const {A} i (v : A) : forall l r, upd i (fun _ => v) l = Some r -> nth_error r i = Some v.
Proof.
  induction i as [|i IH]; intros [|x l] r H; cbn [upd] in H; try discriminate; [injection H as <-; reflexivity|].
  destruct (upd i (fun _ => v) l) as [r'|] eqn:E; cbn in H; try discriminate. injection H as <-. cbn [nth_error]. apply (IH l r' E).
Qed.
Lemma search_released st e : forall row st', add_search st e row = Ok (Some st') -> nth_error st' e = Some None.
Proof.
  induction row as [|p row IH]; intros st' H; cbn [add_search] in H; [discriminate|].
  destruct (deref st e) as [n| |]; cbn [obind] in H; try discriminate. destruct (deref st p) as [o| |]; cbn [obind] in H; try discriminate.
  destruct (node_equal n o) as [[|]| |]; cbn [obind] in H; try discriminate; [|apply IH; exact H].
  match type of H with obind ?x _ = _ => destruct x as [st1| |] end; cbn [obind] in H; try discriminate.
  destruct (release st1 e) as [st2| |] eqn:E; cbn [obind] in H; try discriminate. injection H as <-. unfold release in E. destruct (deref st1 e); cbn [obind] in E; try discriminate. apply vupd_Ok in E. apply (upd_const _ _ _ _ E).
Qed.
Lemma add_new st tab e b st' tab' : vis_add st tab e = Ok (b, st', tab') -> nth_error st' e = Some None \/ st' = st.
Proof.
  unfold vis_add. destruct (deref st e); cbn [obind]; try discriminate. destruct (hash_index _ _); cbn [obind]; try discriminate. destruct (vget _ _) as [row| |]; cbn [obind]; try discriminate.
  destruct (add_search st e row) as [[st1|]| |] eqn:E; cbn [obind]; try discriminate.
  - intro H. injection H as <- <- <-. left. apply (search_released _ _ _ _ E).
  - destruct (Nat.leb _ _); [discriminate|]. destruct (vupd _ _ _); cbn [obind]; try discriminate. intro H. injection H as <- <- <-. right. reflexivity.
Qed.
(** C147: with choice 2 a child that is kept is worth its projected margin, as in C116, times the distance that goes with its feature. *)
Lemma c147_value : forall (c : aos_cfg) level ofnames dim (ws : list (Z * R * R)) (wnorm margin : R) (s s' : front) (i : nat) (f : Z) (w dc : R) (n : node),
  i < dim -> (wnorm <> 0)%R -> nth_error ws i = Some (f, w, dc) -> aos_branch_choice 2 c level ofnames dim ws wnorm margin s i = Ok s' ->
  nth_error (fst (fst (fst s'))) (length (fst (fst (fst s)))) = Some (Some n) ->
  n_pgamma n = (sqrt (INR (dim - 1)) * (Rabs w / Rabs wnorm) * Rabs margin)%R /\ n_value n = (n_pgamma n * dc)%R /\ n_level n = S level /\ n_rgamma n = (-1)%R.
Proof.
  intros c level ofnames dim ws wnorm margin [[[st tab] q] nw] s' i f w dc n Hi Nw En H Hn. cbn [fst] in Hn. unfold aos_branch_choice, vget in H. rewrite En in H. cbn [obind fst snd Z.eqb Pos.eqb] in H.
  destruct (aos_names level ofnames f) as [names| |]; cbn [obind] in H; try discriminate.
  match type of H with context [vis_add ?x ?y ?z] => destruct (vis_add x y z) as [[[b st1] tab1]| |] eqn:E end; cbn [obind] in H; try discriminate.
  assert (fst (fst (fst s')) = st1) as S1.
  { destruct (_ && _); [injection H as <-; reflexivity|]. destruct b; [|injection H as <-; reflexivity]. match type of H with obind ?x _ = _ => destruct x end; cbn [obind] in H; try discriminate. injection H as <-. reflexivity. }
  rewrite S1 in Hn. destruct (add_new _ _ _ _ _ _ E) as [X|X]; [congruence|]. rewrite X, nth_error_app2, Nat.sub_diag in Hn by lia. cbn [nth_error] in Hn. injection Hn as <-. cbn [n_pgamma n_value n_level n_rgamma].
  rewrite c116_value by assumption. repeat split; reflexivity.
Qed.
Lemma c147_value_ex : exists s' n, aos_branch_choice 2 ccfg 0 [] 3 cws 4%R 1%R ([], vis_new 7 3, pq_new 4, []) 0 = Ok s' /\ nth_error (fst (fst (fst s'))) 0 = Some (Some n).
Proof. unfold ccfg, cws, aos_branch_choice. cbn -[aos_projected Rlt_dec Rmult]. do 2 eexists. split; reflexivity. Qed.
