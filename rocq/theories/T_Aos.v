(** C114: the admissible ordered search. *)
From Coq Require Import ZArith Bool List Reals Permutation Sorted Lia Lra.
From Verif Require Import Base ListLib Loop M_Data S_Data L_Data L_Data2 L_Feat L_Join M_Point L_Vec M_Kmeans S_Fs T_Fs M_Pq S_Pq L_Pq T_Pq T_Prune T_Vis M_Aos S_Aos L_Aos L_Aos2 L_Aos3 L_Aos4.
Import ListNotations.
Local Open Scope nat_scope.

Lemma clamp_depth d c : data_ok d -> d_points d <> [] -> Z.to_nat (a_depth (aos_clamp d c)) = levels d c.
Proof.
  intros Od Nd. unfold aos_clamp, levels. cbn [a_depth]. rewrite (data_dim d Od Nd). destruct (Z.ltb_spec (Z.of_nat (length (d_fnames d)) - 1) (a_depth c)); f_equal; lia.
Qed.
Lemma clamp_breadth d c : data_ok d -> d_points d <> [] -> a_breadth (aos_clamp d c) = children d c.
Proof. intros Od Nd. unfold aos_clamp, children. cbn [a_breadth]. rewrite (data_dim d Od Nd). auto. Qed.
Lemma levels_lt d c : 2 <= length (d_fnames d) -> levels d c < length (d_fnames d).
Proof. unfold levels. lia. Qed.
Lemma children_pos d c : 2 <= length (d_fnames d) -> 1 <= a_breadth c -> 1 <= children d c.
Proof. unfold children. lia. Qed.
Lemma select_ok fuel c srt tr d : searchable d c srt tr -> 1 <= a_breadth c ->
  (aos_select fuel c srt tr d = Ok Running /\ fuel <= children d c * turns (children d c) (levels d c)) \/
  (exists lool part, aos_select fuel c srt tr d = Ok (Done part) /\ recorded d tr lool part /\ lool <= levels d c /\ lool + children d c <= length (d_fnames d) /\
     (all_ok d tr -> children d c * turns (children d c) (levels d c) <= a_cap c -> lool = levels d c)) \/
  (aos_select fuel c srt tr d = UB /\ length (d_fnames d) < levels d c + children d c).
Proof.
  intros (Od & Nd & Nl & Ab & So & Gm & Hc & Hl & Ap & Ro) Hb. pose proof So as Hs.
  pose proof (levels_lt d c Nl) as Ll. pose proof (children_pos d c Nl Hb) as B1. set (c' := aos_clamp d c). assert (Nn : d_fnames d <> []) by (intro E; rewrite E in Nl; cbn in Nl; lia).
  assert (Aw : length (fst (snd (tr 0 d))) = length (d_fnames d) /\ exists x, In x (fst (snd (tr 0 d))) /\ x <> 0%R) by (destruct (Ab 0 _ d (restricted_all d Od) Nn) as (A1 & A2 & _); auto).
  assert (Bl : children d c <= length (d_fnames d)) by (unfold children; lia).
  destruct (start_ok d tr srt (a_len c) (a_width c) (a_cap c) (levels d c) (a_cut c) (children d c) c' eq_refl eq_refl (clamp_breadth d c Od Nd) (clamp_depth d c Od Nd) Gm Hl Hc Ap Ro Hs Od Nd Nl Ll Aw eq_refl eq_refl Bl) as (s & gs & ps & St & Fi & Mu & Ne & Nx & _).
  unfold aos_select. fold c'. rewrite St. cbn [obind]. assert (Sz : pq_size (s_q s) = length ps) by (destruct (f_holds _ _ _ _ _ _ _ _ _ _ _ _ _ _ (i_fo _ _ _ _ _ _ _ _ _ _ _ Fi)) as (_ & H0); auto). rewrite Sz. destruct (Nat.eqb_spec (length ps) 0) as [E0 | E0]; [destruct ps; [exfalso; apply Ne; auto | cbn in E0; lia]|].
  destruct (loop_ok d tr srt (a_len c) (a_width c) (a_cap c) (levels d c) (a_cut c) (children d c) c' eq_refl eq_refl (clamp_breadth d c Od Nd) (clamp_depth d c Od Nd) Gm Hl Hc Ap Ro Hs Od Nd Nl Ll Ab fuel s gs ps Fi) as [(A & B) | [(lool & part & A & A2 & A3 & A4 & A5) | (A & B)]].
  - left. split; [auto | lia].
  - right. left. exists lool, part. split; [auto|]. split; [auto|]. split; [auto|]. split; [auto|]. intros H1 H2. apply A5; auto. lia.
  - right. right. auto.
Qed.

(** C114: what a search returns, if it ever does: [d] without some of its features, no more than were to be taken away, and the classifier was trained on it with success, unless it is [d] itself. No other outcome but to go on is possible. *)
Lemma c114_sound : forall (fuel : nat) (c : aos_cfg) srt tr (d : data R), searchable d c srt tr -> 1 <= a_breadth c -> children d c + levels d c <= length (d_fnames d) ->
  aos_select fuel c srt tr d = Ok Running \/
  exists e fs, aos_select fuel c srt tr d = Ok (Done e) /\ restricted (without fs) d e /\ NoDup fs /\ incl fs (d_fnames d) /\ length fs <= levels d c /\ (fs = [] \/ exists k, fst (tr k e) = true).
Proof.
  intros fuel c srt tr d Hs Hb Hf. destruct (select_ok fuel c srt tr d Hs Hb) as [(A & _) | [(lool & part & A & (fs & R1 & R2 & R3 & R4 & R5) & A3 & _) | (_ & B)]]; [auto | | lia].
  right. exists part, fs. split; [auto|]. split; [auto|]. split; [apply desc_NoDup; auto|]. split; [auto|]. split; [lia | auto].
Qed.
(** C114: the search ends, within a number of turns given by the breadth and the number of features to take away. *)
Lemma c114_ends : forall (fuel : nat) (c : aos_cfg) srt tr (d : data R), searchable d c srt tr -> 1 <= a_breadth c -> children d c + levels d c <= length (d_fnames d) ->
  children d c * turns (children d c) (levels d c) < fuel -> exists e, aos_select fuel c srt tr d = Ok (Done e).
Proof.
  intros fuel c srt tr d Hs Hb Hf Hn. destruct (select_ok fuel c srt tr d Hs Hb) as [(A & B) | [(lool & part & A & _) | (_ & B)]]; [lia | eauto | lia].
Qed.
(** C114: when every training succeeds and no node is lost from the queue, the result has the number of features asked for. *)
Lemma c114_reach : forall (fuel : nat) (c : aos_cfg) srt tr (d : data R), searchable d c srt tr -> willing d tr -> 1 <= a_breadth c -> children d c + levels d c <= length (d_fnames d) ->
  children d c * turns (children d c) (levels d c) <= a_cap c -> children d c * turns (children d c) (levels d c) < fuel ->
  exists e, aos_select fuel c srt tr d = Ok (Done e) /\ length (d_fnames e) = length (d_fnames d) - levels d c.
Proof.
  intros fuel c srt tr d Hs Hw Hb Hf Hq Hn. pose proof Hs as (Od & _). destruct (select_ok fuel c srt tr d Hs Hb) as [(A & B) | [(lool & part & A & (fs & R1 & R2 & R3 & R4 & R5) & A3 & A4 & A5) | (_ & B)]]; [lia | | lia].
  exists part. split; [auto|]. specialize (A5 Hw Hq). destruct R1 as (F & _). rewrite F. pose proof (without_length (d_fnames d) fs (names_NoDup d Od) (desc_NoDup fs R2) R3). lia.
Qed.
(** C114: with more children than the features that are to be left, a search in which every training succeeds goes beyond the end of the weights. The default of three children does so when one or two features are asked for. *)
Lemma c114_breadth_refuted : forall (fuel : nat) (c : aos_cfg) srt tr (d : data R), searchable d c srt tr -> willing d tr -> 1 <= a_breadth c -> length (d_fnames d) < children d c + levels d c ->
  children d c * turns (children d c) (levels d c) <= a_cap c -> children d c * turns (children d c) (levels d c) < fuel -> aos_select fuel c srt tr d = UB.
Proof.
  intros fuel c srt tr d Hs Hw Hb Hf Hq Hn. destruct (select_ok fuel c srt tr d Hs Hb) as [(A & B) | [(lool & part & A & A2 & A3 & A4 & A5) | (A & B)]]; [lia | | auto]. specialize (A5 Hw Hq). lia.
Qed.
(** C114: with no children the search answers an empty dataset. *)
Lemma c114_zero_refuted : forall (fuel : nat) (c : aos_cfg) srt tr (d : data R), searchable d c srt tr -> a_breadth c = 0 -> aos_select fuel c srt tr d = Ok (Done data_empty).
Proof.
  intros fuel c srt tr d (Od & Nd & Nl & Ab & So & Gm & Hc & Hl & Ap & Ro) Hb. pose proof So as Hs.
  pose proof (levels_lt d c Nl) as Ll. set (c' := aos_clamp d c). assert (Nn : d_fnames d <> []) by (intro E; rewrite E in Nl; cbn in Nl; lia).
  assert (Aw : length (fst (snd (tr 0 d))) = length (d_fnames d) /\ exists x, In x (fst (snd (tr 0 d))) /\ x <> 0%R) by (destruct (Ab 0 _ d (restricted_all d Od) Nn) as (A1 & A2 & _); auto).
  assert (B0 : children d c = 0) by (unfold children; rewrite Hb; reflexivity). assert (Bl : children d c <= length (d_fnames d)) by lia.
  destruct (start_empty d tr srt (a_len c) (a_width c) (a_cap c) (levels d c) (a_cut c) (children d c) c' eq_refl eq_refl (clamp_breadth d c Od Nd) (clamp_depth d c Od Nd) Gm Hl Hc Ap Ro Hs Od Nd Nl Ll Aw eq_refl eq_refl Bl B0) as (s & gs & ps & St & Fi & ->).
  unfold aos_select. fold c'. rewrite St. cbn [obind]. assert (Sz : pq_size (s_q s) = 0) by (destruct (f_holds _ _ _ _ _ _ _ _ _ _ _ _ _ _ (i_fo _ _ _ _ _ _ _ _ _ _ _ Fi)) as (_ & H0); auto). rewrite Sz. auto.
Qed.

(** ** The settings of the constructor and a dataset of three features *)
Fixpoint subs (m : list Z) : list (list Z) := match m with [] => [[]] | x :: m => subs m ++ map (cons x) (subs m) end.
Lemma subs_nil m : In [] (subs m).
Proof. induction m; cbn [subs]; [left; auto | apply in_or_app; auto]. Qed.
Lemma desc_subs m : desc m -> forall f, desc f -> incl f m -> In f (subs m).
Proof.
  induction 1 as [|x m Dm IH F]; intros f Df I; [destruct f as [|y f]; [left; auto | destruct (I y); left; auto]|]. rewrite Forall_forall in F. cbn [subs]. apply in_or_app. destruct f as [|y f]; [left; apply subs_nil|].
  inversion Df as [|? ? Df' Fy]; subst. rewrite Forall_forall in Fy. destruct (I y ltac:(left; auto)) as [<- | Iy].
  - right. apply in_map, IH; [auto|]. intros z Zi. destruct (I z ltac:(right; auto)) as [<- | J]; [specialize (Fy _ Zi); lia | auto].
  - left. apply IH; [auto|]. specialize (F _ Iy). intros z Zi. destruct (I z Zi) as [<- | J]; [|auto]. destruct Zi as [-> | Zi]; [lia | specialize (Fy _ Zi); lia].
Qed.
Lemma three_subs k f : choice [1; 2; 3]%Z k f -> In f (subs [3; 2; 1]%Z).
Proof.
  intros (Df & I & _). apply desc_subs; [repeat constructor; lia | auto|]. intros x X. specialize (I x X). cbn in I |- *. tauto.
Qed.
Lemma three_apart k : apart (Z.to_nat 161387) [1; 2; 3]%Z k.
Proof.
  intros f f' F F' L1 L2. apply three_subs in F, F'. unfold same_row. rewrite Z2Nat.id by lia. cbn in F, F'.
  repeat match goal with H : _ \/ _ |- _ => destruct H as [<- | H] end; try contradiction; cbn in L1, L2; try lia; vm_compute; discriminate.
Qed.
Lemma three_roomy k : roomy (Z.to_nat 161387) (Z.to_nat 100) [1; 2; 3]%Z k.
Proof.
  intros fs ND C _. transitivity (length (subs [3; 2; 1]%Z)); [|cbn; lia]. apply NoDup_incl_length; [auto|]. intros f F. apply (three_subs k). auto.
Qed.
Definition even_train (margin : R) (n : nat) (e : data R) : bool * (list R * R) := (true, (repeat 1%R (length (d_fnames e)), margin)).
Lemma even_able d margin : (0 < margin)%R -> able d (even_train margin).
Proof.
  intros M n keep e _ Ne. cbn. split; [apply repeat_length|]. split; [|auto]. exists 1%R. split; [|lra]. destruct (d_fnames e); [congruence | left; auto].
Qed.
Lemma fx_searchable final breadth cut : searchable fx (aos_new fx final breadth cut 0) (fun _ => fsort (fun x => - Rabs x)%R) (even_train 1).
Proof.
  split; [apply fx_ok|]. split; [discriminate|]. split; [cbn; lia|]. split; [apply even_able; lra|]. split; [intros e l; apply fsort_ok|]. split; [cbn; lra|].
  unfold aos_new. cbn [a_cap a_len a_width]. split; [lia|]. split; [lia|]. split; [apply three_apart | apply three_roomy].
Qed.
(** C114: an AOS constructed to keep [final] of the features keeps that many, when every training succeeds, each node has no more than [final] children and the queue of
    500000 places has room. *)
Lemma c114_keep : forall (fuel final breadth cut : nat) (gm : R) srt tr (d : data R),
  searchable d (aos_new d (Z.of_nat final) breadth cut gm) srt tr -> willing d tr -> 1 <= final <= length (d_fnames d) -> 1 <= breadth <= final ->
  (Z.of_nat (length (d_fnames d)) <= 99999)%Z -> (Z.of_nat (breadth * turns breadth (length (d_fnames d) - final)) <= 500000)%Z ->
  breadth * turns breadth (length (d_fnames d) - final) < fuel ->
  exists e, aos_select fuel (aos_new d (Z.of_nat final) breadth cut gm) srt tr d = Ok (Done e) /\ length (d_fnames e) = final.
Proof.
  intros fuel final breadth cut gm srt tr d S W F B M T Fu.
  assert (D : Z.of_nat (dim d) = Z.of_nat (length (d_fnames d))) by (destruct S as (O & N & _); rewrite (ok_fnames _ O); unfold dim; destruct (d_points d) as [|p r] eqn:Ep; [congruence|]; rewrite (ok_dim _ O p); auto; rewrite Ep; left; auto).
  assert (L : levels d (aos_new d (Z.of_nat final) breadth cut gm) = length (d_fnames d) - final) by (unfold levels, aos_new; cbn [a_depth]; lia).
  assert (C : children d (aos_new d (Z.of_nat final) breadth cut gm) = breadth) by (unfold children, aos_new; cbn [a_breadth]; lia).
  destruct (c114_reach fuel _ srt tr d S W) as (e & E & N); rewrite ?C, ?L; auto; try lia; try (cbn [aos_new a_breadth a_cap]; lia).
  exists e. split; auto. rewrite L in N. lia.
Qed.
(** The constructor, asked for two of three features with two children, and for one with one child. *)
Lemma c114_reach_ex : searchable fx (aos_new fx 2 2 0 0) (fun _ => fsort (fun x => - Rabs x)%R) (even_train 1) /\ willing fx (even_train 1) /\
  children fx (aos_new fx 2 2 0 0) = 2 /\ levels fx (aos_new fx 2 2 0 0) = 1 /\ children fx (aos_new fx 1 1 0 0) = 1 /\ levels fx (aos_new fx 1 1 0 0) = 2 /\ 2 * turns 2 1 <= a_cap (aos_new fx 2 2 0 0).
Proof. split; [apply fx_searchable|]. split; [intros k keep e _; auto|]. split; [reflexivity|]. split; [reflexivity|]. split; [reflexivity|]. split; [reflexivity|]. unfold aos_new. cbn [a_cap turns]. lia. Qed.
Lemma c114_reach_ex2 : exists e, aos_select 9 (aos_new fx 2 2 0 0) (fun _ => fsort (fun x => - Rabs x)%R) (even_train 1) fx = Ok (Done e) /\ length (d_fnames e) = 2.
Proof. destruct c114_reach_ex as (A & B & C & D & _ & _ & E). apply (c114_reach 9 _ _ _ _ A B); rewrite ?C, ?D; auto; cbn; lia. Qed.
(** Keeping two of three features, with the constructor. *)
Lemma c114_keep_ex : searchable fx (aos_new fx (Z.of_nat 2) 2 0 0) (fun _ => fsort (fun x => - Rabs x)%R) (even_train 1) /\ willing fx (even_train 1) /\
  length (d_fnames fx) = 3 /\ 2 * turns 2 (3 - 2) = 8.
Proof. split; [apply fx_searchable|]. split; [intros k keep e _; auto|]. split; reflexivity. Qed.
(** Three children, the default, and one feature asked for. *)
Lemma c114_breadth_refuted_ex : exists fuel, aos_select fuel (aos_new fx 1 3 0 0) (fun _ => fsort (fun x => - Rabs x)%R) (even_train 1) fx = UB.
Proof.
  exists (S (3 * turns 3 2)). assert (C : children fx (aos_new fx 1 3 0 0) = 3) by reflexivity. assert (L : levels fx (aos_new fx 1 3 0 0) = 2) by reflexivity.
  apply c114_breadth_refuted; [apply fx_searchable | intros k keep e _; auto | cbn; lia | rewrite C, L; cbn; lia | rewrite C, L; unfold aos_new; cbn [a_cap turns]; lia | rewrite C, L; lia].
Qed.
