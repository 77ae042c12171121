(** Property lemmas for RSM and the artificial datasets: C62, C64, C89. *)
From Coq Require Import String ZArith Bool List Reals Lra Lia Permutation Sorted.
From Verif Require Import Base ListLib M_Data S_Data L_Data L_Data2 L_Insert L_Vec Loop L_Smo L_Knn T_Data M_Gen S_Gen.
Import ListNotations.
Local Open Scope nat_scope.

(** *** RSM *)
Lemma ceil_ok x : (0 <= x)%R -> exists n, ceil x = Z.of_nat n /\ is_ceil x n.
Proof.
  intro H. unfold ceil. destruct (base_Int_part (- x)) as [A B]. set (z := Int_part (- x)) in *.
  assert (0 <= - z)%Z as P. { apply le_IZR. rewrite opp_IZR. lra. }
  exists (Z.to_nat (- z)). rewrite Z2Nat.id by auto. split; [auto|]. unfold is_ceil. rewrite INR_IZR_INZ, Z2Nat.id, opp_IZR by auto. lra.
Qed.
Lemma ceil_unique x n m : is_ceil x n -> is_ceil x m -> n = m.
Proof.
  unfold is_ceil. intros A B. destruct (Nat.lt_total n m) as [C|[C|C]]; [|auto|]; exfalso.
  - apply le_INR in C. rewrite S_INR in C. lra.
  - apply le_INR in C. rewrite S_INR in C. lra.
Qed.
Lemma read_first {A} (l : list A) n : n <= length l -> map_outcome (vget l) (seq 0 n) = Ok (firstn n l).
Proof.
  intro H. destruct l as [|a l]; [replace n with 0 by (cbn in H; lia); reflexivity|].
  rewrite (map_outcome_ok _ (fun i => nth i (a :: l) a)).
  - f_equal. clear -H. apply (nth_ext _ _ a a); [rewrite map_length, seq_length, firstn_length; lia|]. intros i Hi. rewrite map_length, seq_length in Hi.
    rewrite (nth_indep _ a (nth 0 (a :: l) a)) by now rewrite map_length, seq_length. rewrite (map_nth (fun i => nth i (a :: l) a)), seq_nth by auto. cbn [Nat.add].
    rewrite <- (firstn_skipn n (a :: l)) at 1. rewrite app_nth1; [auto|]. rewrite firstn_length. lia.
  - intros i Hi. apply in_seq in Hi. unfold vget. destruct (nth_error (a :: l) i) eqn:E; [|apply nth_error_None in E; lia]. now rewrite (nth_error_nth _ _ _ E).
Qed.
Lemma c62_run : forall r dims perms, (0 <= r <= 1)%R -> (forall p, In p perms -> Permutation p (seq 0 dims)) ->
  exists s outs, rsm_make r dims = Ok s /\ rsm_run perms s = Ok outs /\ length outs = length perms /\
    forall out, In out outs -> NoDup out /\ (forall f, In f out -> f < dims) /\ is_ceil (r * INR dims) (length out).
Proof.
  intros r dims perms Hr Hp. pose proof (pos_INR dims) as Pd. destruct (ceil_ok (r * INR dims)) as (n & E & C); [nra|]. unfold rsm_make. rewrite E. destruct (Z.ltb_spec (Z.of_nat n) 0); [lia|]. rewrite Nat2Z.id.
  eexists. assert (n <= dims) as L. { destruct (Nat.le_gt_cases n dims) as [|Q]; [auto|]. exfalso. unfold is_ceil in C. apply le_INR in Q. rewrite S_INR in Q. nra. }
  assert (forall fs, Permutation fs (seq 0 dims) -> exists outs, rsm_run perms (mkRsm n fs) = Ok outs /\ length outs = length perms /\ forall out, In out outs -> NoDup out /\ (forall f, In f out -> f < dims) /\ is_ceil (r * INR dims) (length out)) as G.
  2: { destruct (G (seq 0 dims) (Permutation_refl _)) as (outs & H1). exists outs. split; [reflexivity|exact H1]. }
  clear E. induction perms as [|p perms IH]; intros fs Pf; cbn [rsm_run].
  - exists []. split; [auto|]. split; [auto|]. intros out [].
  - unfold rsm_call. cbn [rsm_feats rsm_dims]. pose proof (Permutation_length Pf) as Lf. rewrite seq_length in Lf.
    destruct (permute_perm fs p) as (fs' & Ef & Pf' & _); [rewrite Lf; apply Hp; now left|]. rewrite Ef. cbn [obind]. pose proof (Permutation_length Pf') as Lf'. rewrite read_first by lia. cbn [obind].
    destruct (IH ltac:(intros; apply Hp; now right) fs') as (outs & Eo & Lo & Fo); [now rewrite Pf'|]. rewrite Eo. cbn [obind]. exists (firstn n fs' :: outs). split; [auto|]. split; [cbn; lia|]. intros out [<-|I]; [|auto].
    assert (Permutation fs' (seq 0 dims)) as Q by now rewrite Pf'. assert (NoDup fs') as N by (eapply Permutation_NoDup; [symmetry; exact Q|apply seq_NoDup]). rewrite <- (firstn_skipn n fs') in N, Q.
    split; [eapply NoDup_left; eauto|]. split; [|rewrite firstn_length; replace (Nat.min n (length fs')) with n by lia; auto].
    intros f Hf. assert (In f (seq 0 dims)) as I by (apply (Permutation_in _ Q), in_or_app; now left). apply in_seq in I. lia.
Qed.
Lemma permute_self l n : (forall i, In i l -> i < n) -> permute l (seq 0 n) = Ok l.
Proof.
  induction l as [|i l IH]; intro H; [reflexivity|]. unfold permute in *. cbn [fold_right]. rewrite IH by (intros; apply H; now right). cbn [obind]. unfold vget. rewrite nth_error_nth' with (d := 0) by (rewrite seq_length; apply H; now left). rewrite seq_nth by (apply H; now left). reflexivity.
Qed.
(** C62: every choice of the right size is drawn for some shuffle. *)
Lemma c62_any : forall r dims out, (0 <= r <= 1)%R -> NoDup out -> (forall f, In f out -> f < dims) -> is_ceil (r * INR dims) (length out) ->
  exists s perm, Permutation perm (seq 0 dims) /\ rsm_make r dims = Ok s /\ rsm_run [perm] s = Ok [out].
Proof.
  intros r dims out Hr N B C. pose proof (pos_INR dims) as Pd. destruct (ceil_ok (r * INR dims)) as (n & E & C'); [nra|]. assert (n = length out) as -> by (eapply ceil_unique; eauto).
  set (rest := filter (fun i => negb (if in_dec Nat.eq_dec i out then true else false)) (seq 0 dims)).
  assert (Permutation (out ++ rest) (seq 0 dims)) as P.
  { apply NoDup_Permutation; [|apply seq_NoDup|].
    - apply L_Join.NoDup_app_intro; [auto|apply NoDup_filter, seq_NoDup|]. intros x Hy Hx. apply filter_In in Hy as [_ Hy]. destruct (in_dec _ _ _); [discriminate|contradiction].
    - intro x. rewrite in_app_iff. unfold rest. rewrite filter_In, in_seq. split.
      + intros [I|[I _]]; [apply B in I; lia|lia].
      + intro I. destruct (in_dec Nat.eq_dec x out); [now left|right; split; [lia|auto]]. }
  exists (mkRsm (length out) (seq 0 dims)), (out ++ rest). split; [exact P|]. unfold rsm_make. rewrite E. destruct (Z.ltb_spec (Z.of_nat (length out)) 0); [lia|]. rewrite Nat2Z.id. split; [auto|].
  cbn [rsm_run]. unfold rsm_call. cbn [rsm_feats rsm_dims]. rewrite permute_self by (intros i Hi; apply (Permutation_in _ P), in_seq in Hi; lia). cbn [obind]. rewrite read_first by (rewrite app_length; lia). cbn [obind]. rewrite firstn_app, Nat.sub_diag, firstn_all. cbn [firstn]. now rewrite app_nil_r.
Qed.
(** C62: with a ratio above 1 the call reads past the end of the features. *)
Lemma c62_ratio_refuted : forall r dims s perm, (1 < r)%R -> 0 < dims -> Permutation perm (seq 0 dims) -> rsm_make r dims = Ok s -> rsm_call perm s = UB.
Proof.
  intros r dims s perm Hr Hd P M. assert (0 < INR dims)%R as Pd by now apply lt_0_INR. destruct (ceil_ok (r * INR dims)) as (n & E & C); [nra|]. unfold rsm_make in M. rewrite E in M. destruct (Z.ltb_spec (Z.of_nat n) 0); [lia|]. rewrite Nat2Z.id in M. injection M as <-.
  unfold rsm_call. cbn [rsm_feats rsm_dims]. destruct (permute_perm (seq 0 dims) perm) as (fs & Ef & Pf & _); [now rewrite seq_length|]. rewrite Ef. cbn [obind]. pose proof (Permutation_length Pf) as L. rewrite seq_length in L.
  assert (dims < n) as Q. { destruct (Nat.lt_ge_cases dims n) as [|Q]; [auto|]. exfalso. unfold is_ceil in C. apply le_INR in Q. nra. }
  assert (forall k, k < n -> map_outcome (vget fs) (seq k (n - k)) = UB \/ k < dims) as G by (intros k Hk; destruct (Nat.lt_ge_cases k dims); [now right|left]; replace (n - k) with (S (n - k - 1)) by lia; cbn [seq map_outcome]; unfold vget at 1; rewrite (proj2 (nth_error_None _ _)) by lia; reflexivity).
  assert (forall m k, n = k + m -> k <= dims -> map_outcome (vget fs) (seq k m) = UB) as W.
  { induction m as [|m IH]; intros k Hn Hk; [lia|]. destruct (G k ltac:(lia)) as [U|U]; [replace (n - k) with (S m) in U by lia; exact U|]. cbn [seq map_outcome]. unfold vget at 1. destruct (nth_error fs k) eqn:Q1; [|reflexivity]. cbn [obind]. rewrite IH by lia. reflexivity. }
  rewrite (W n 0) by lia. reflexivity.
Qed.
(** C62: what is drawn are positions, not the names of features: 0 is no name. *)
Lemma c62_names_refuted : exists (d : data Z) s out f, data_ok d /\ rsm_make 1 (dim d) = Ok s /\ rsm_run [seq 0 (dim d)] s = Ok [out] /\ In f out /\ ~ In (Z.of_nat f) (d_fnames d).
Proof.
  destruct (c62_any 1 3 [0; 1; 2]) as (s & perm & _ & E & _); [lra|repeat constructor; cbn; intuition lia|cbn; intuition lia|unfold is_ceil; cbn; lra|].
  exists ex3. assert (s = mkRsm 3 (seq 0 3)) as ->. { unfold rsm_make in E. destruct (ceil_ok (1 * INR 3)) as (n & Ec & C); [cbn; lra|]. rewrite Ec in E. assert (n = 3) as -> by (eapply ceil_unique; [exact C|unfold is_ceil; cbn; lra]). cbn in E. injection E as <-. reflexivity. }
  exists (mkRsm 3 (seq 0 3)), [0; 1; 2], 0. split; [apply ex3_ok|]. split; [exact E|]. split; [reflexivity|]. split; [now left|]. vm_compute. intuition discriminate.
Qed.
Lemma c62_run_ex : (0 <= / 2 <= 1)%R /\ (forall p, In p [[2; 0; 1]; [1; 2; 0]] -> Permutation p (seq 0 3)) /\ is_ceil (/ 2 * INR 3) 2 /\ (1 < 2)%R.
Proof.
  split; [lra|]. split; [|split; [unfold is_ceil; cbn; lra|lra]]. intros p [<-|[<-|[]]]; apply NoDup_Permutation; try (repeat constructor; cbn; intuition lia); intro x; cbn; intuition lia.
Qed.
(** *** artificial datasets *)
Lemma push_ins {T} (pts : list (point T)) : forall d, ofold push pts d = ins_all false pts d.
Proof. induction pts as [|p r IH]; intro d; cbn [ofold ins_all]; [auto|]. unfold push. destruct (insertPoint d p false) as [[d1 b]| |]; cbn [obind fst]; auto. Qed.
Definition start {T} (hc : bool) : data T := mkData [] [] [] [] [] [] 0 0 true false false hc.
Lemma push_plain {T} m (pts : list (point T)) : forall d, d_class d = false -> d_size d = length (d_points d) -> length (d_index d) = length (d_points d) -> d_classes d = [] -> d_dist d = [] -> (forall p, In p (d_points d) -> length (p_x p) = m) -> (forall p, In p pts -> length (p_x p) = m) ->
  exists d', ofold push pts d = Ok d' /\ d_points d' = d_points d ++ renum_all false (length (d_points d)) pts /\ d_size d' = length (d_points d') /\ length (d_index d') = length (d_points d') /\ d_class d' = false /\ d_classes d' = [] /\ d_dist d' = [].
Proof.
  induction pts as [|p r IH]; intros d Hc Hs Hi Hl Hd Hm Hp; cbn [ofold].
  - exists d. cbn [renum_all]. rewrite app_nil_r. repeat split; auto.
  - unfold push at 1. destruct (insertPoint_accept d p false) as (d1 & E & P1 & S1 & I1 & _ & _ & C1 & _ & _ & _ & F1 & _); [|auto|now rewrite Hl, Hd|].
    { unfold accepts, dim. destruct (d_points d) as [|q l] eqn:Q; [now left|right]. rewrite (Hp p), (Hm q); [auto|now left|now left]. }
    rewrite E. cbn [obind fst]. destruct (F1 Hc) as (F2 & F3 & _). destruct (IH d1) as (d' & E' & P' & R').
    + congruence.
    + rewrite S1, P1, app_length. cbn. lia.
    + rewrite I1, P1, !app_length. cbn. lia.
    + congruence.
    + congruence.
    + intros q Hq. rewrite P1 in Hq. apply in_app_or in Hq as [Hq|[<-|[]]]; [auto|]. cbn. apply Hp. now left.
    + intros q Hq. apply Hp. now right.
    + exists d'. split; [exact E'|]. split; [|exact R']. rewrite P', P1, <- app_assoc, app_length. cbn [app renum_all length]. rewrite Nat.add_1_r. reflexivity.
Qed.
Lemma labels_content {T} (l l' : list (point T)) : map content l = map content l' -> labels l = labels l'.
Proof. intro E. unfold labels. rewrite (map_ext p_y (fun p => snd (fst (content p)))) by reflexivity. rewrite <- (map_map content (fun c => snd (fst c))), E, map_map. reflexivity. Qed.
Lemma push_all {T} hc m (pts : list (point T)) : 0 < m -> (forall p, In p pts -> length (p_x p) = m) -> (Z.of_nat (length pts) < 2 ^ 63)%Z ->
  exists d, ofold push pts (start hc) = Ok d /\ map content (d_points d) = map content pts /\ d_size d = length (d_points d) /\ length (d_index d) = length (d_points d) /\ d_class d = hc /\
    (hc = true -> data_ok d /\ forall c, In c (d_classes d) <-> In c (labels pts)) /\ (hc = false -> d_classes d = [] /\ d_dist d = []).
Proof.
  intros Hm Hp Hc. destruct hc.
  - rewrite push_ins. change (start true) with (@data_empty T). destruct (ins_all_spec false m pts data_empty (built_empty m) Hp) as (d & E & B & P); [exact Hc|]. cbn [data_empty d_points app length] in P.
    exists d. rewrite E. split; [auto|]. assert (map content (d_points d) = map content pts) as Ec by (rewrite P; apply renum_all_content). split; [exact Ec|]. pose proof B as [B1 B2 B3 B4 B5 B6 B7 B8 B9 B10]. split; [auto|]. split; [rewrite B4; apply iota_length|]. split; [apply B2|]. split; [|discriminate]. intros _.
    assert (length (d_points d) = length pts) as L by (rewrite P; apply renum_all_length). split.
    + apply (built_ok m); [auto|now rewrite L| |lia]. intro Z. rewrite Z in L. destruct pts; [|discriminate]. cbn in E. injection E as <-. auto.
    + intro c. rewrite <- (labels_content _ _ Ec). split; [apply B10|]. intro I. apply in_map_iff in I as (p & <- & I). apply (co_listed _ B2 p I).
  - destruct (push_plain m pts (start false)) as (d & E & P & S1 & I1 & C1 & K1 & D1); auto. { intros p []. } exists d. split; [exact E|]. cbn [start d_points app length] in P. split; [rewrite P; apply renum_all_content|]. repeat split; auto; discriminate.
Qed.
Lemma renum_content {T} (l : list (point T)) : forall a, map content (map (fun p : nat * point T => mkPoint (p_x (snd p)) (p_y (snd p)) (Z.of_nat (fst p) + 1) (p_alpha (snd p))) (combine (seq a (length l)) l)) = map content l.
Proof. induction l as [|p l IH]; intro a; cbn [length seq combine map]; [auto|]. rewrite IH. reflexivity. Qed.
Lemma renum_ids {T} (l : list (point T)) : forall a, map p_id (map (fun p : nat * point T => mkPoint (p_x (snd p)) (p_y (snd p)) (Z.of_nat (fst p) + 1) (p_alpha (snd p))) (combine (seq a (length l)) l)) = map (fun i => Z.of_nat (S i)) (seq a (length l)).
Proof. induction l as [|p l IH]; intro a; cbn [length seq combine map]; [auto|]. rewrite IH. cbn [p_id fst]. f_equal. lia. Qed.
Lemma content_ok {T} (d d' : data T) : data_ok d -> map content (d_points d') = map content (d_points d) -> d_fnames d' = d_fnames d -> d_cnames d' = d_cnames d -> d_classes d' = d_classes d -> d_dist d' = d_dist d ->
  d_size d' = d_size d -> d_dim d' = d_dim d -> d_class d' = d_class d -> length (d_points d) <= length (d_index d') -> data_ok d'.
Proof.
  intros D E E1 E2 E3 E4 E5 E6 E7 E8. assert (length (d_points d') = length (d_points d)) as L by (rewrite <- (map_length content (d_points d')), E; apply map_length).
  pose proof (labels_content _ _ E) as Ly. destruct D as [A1 A2 A3 A4 A5 A6 A7 A8 A9 A10]. constructor; rewrite ?E1, ?E2, ?E3, ?E4, ?E5, ?E6, ?L; auto.
  - destruct A2 as [C1 C2 C3 C4 C5]. constructor; rewrite ?E3, ?E4, ?E7; auto.
    + intros p I. assert (In (p_y p) (labels (d_points d'))) as J by now apply in_map. rewrite Ly in J. apply in_map_iff in J as (q & <- & J). auto.
    + intros i c Ei. unfold label_count. rewrite Ly. apply (C5 i c Ei).
  - intros p I. apply (in_map content) in I. rewrite E in I. apply in_map_iff in I as (q & Eq & I). injection Eq as <- _ _. auto.
  - intro Z. apply A9. rewrite Z in L. now destruct (d_points d).
Qed.
Lemma finish_ok {T} (d : data T) perm : d_size d = length (d_points d) -> length (d_index d) = length (d_points d) -> perm_ok perm (length (d_points d)) ->
  exists d', finish perm d = Ok d' /\ Permutation (map content (d_points d')) (map content (d_points d)) /\ fresh_numbers d' /\ d_classes d' = d_classes d /\ d_class d' = d_class d /\ (data_ok d -> data_ok d').
Proof.
  intros Hs Hi Hp. assert (forall d1 : data T, Permutation (d_points d1) (d_points d) -> d_classes d1 = d_classes d -> d_class d1 = d_class d -> (data_ok d -> data_ok d1) ->
    Permutation (map content (d_points (renumber d1))) (map content (d_points d)) /\ fresh_numbers (renumber d1) /\ d_classes (renumber d1) = d_classes d /\ d_class (renumber d1) = d_class d /\ (data_ok d -> data_ok (renumber d1))) as G.
  { intros d1 P C1 C2 Ok1. assert (map content (d_points (renumber d1)) = map content (d_points d1)) as Ec by (unfold renumber; cbn [d_points setIndex]; apply renum_content). split; [rewrite Ec; now apply Permutation_map|].
    assert (length (d_points (renumber d1)) = length (d_points d1)) as L by (rewrite <- (map_length content (d_points (renumber d1))), Ec; apply map_length).
    split; [split; [rewrite L; unfold renumber; cbn [d_points setIndex]; apply renum_ids|rewrite L; unfold renumber; cbn [d_index setIndex]; unfold iota; apply map_ext; intro; lia]|]. split; [auto|]. split; [auto|]. intro D. specialize (Ok1 D).
    eapply content_ok; [exact Ok1|exact Ec|..]; try reflexivity. unfold renumber. cbn [d_index setIndex]. rewrite iota_length. lia. }
  unfold finish. destruct perm as [p|]; cbn [obind].
  - destruct (shuffle_spec d p) as (d1 & E & P & Rest); [lia|exact Hp|]. rewrite E. cbn [obind]. eexists. split; [reflexivity|]. apply G; [auto|apply Rest|apply Rest|]. intro D. eapply shuffle_ok; eauto.
  - eexists. split; [reflexivity|]. apply G; auto.
Qed.
Lemma ofold_map {S A B} (f : S -> B -> outcome S) (g : A -> B) l : forall s, ofold f (map g l) s = ofold (fun s x => f s (g x)) l s.
Proof. induction l as [|x l IH]; intro s; cbn [map ofold]; [auto|]. destruct (f s (g x)); cbn [obind]; auto. Qed.
Lemma ofold_flat_map {S A B} (f : S -> B -> outcome S) (h : A -> list B) l : forall s, ofold f (flat_map h l) s = ofold (fun s x => ofold f (h x) s) l s.
Proof. induction l as [|x l IH]; intro s; cbn [flat_map ofold]; [auto|]. rewrite ofold_app. destruct (ofold f (h x) s); cbn [obind]; auto. Qed.
Lemma ofold_in_ext {S A} (f g : S -> A -> outcome S) l : (forall s x, In x l -> f s x = g s x) -> forall s, ofold f l s = ofold g l s.
Proof. induction l as [|x l IH]; intros H s; cbn [ofold]; [auto|]. rewrite H by now left. destruct (g s x); cbn [obind]; auto. apply IH. intros; apply H. now right. Qed.
Lemma ofold_repeat {S A} (f : S -> A -> outcome S) c n : forall a s, ofold f (repeat c n) s = ofold (fun s (_ : nat) => f s c) (seq a n) s.
Proof. induction n as [|n IH]; intros a s; cbn [repeat seq ofold]; [auto|]. destruct (f s c); cbn [obind]; auto. Qed.
Lemma label_fun k i y : class_label k i y <-> i < k /\ y = gen_label k i.
Proof.
  unfold class_label, gen_label. destruct (Nat.eqb_spec k 2); destruct (Nat.eqb_spec i 0); intuition (subst; lia).
Qed.
Lemma label_inj k i j : i < k -> j < k -> gen_label k i = gen_label k j -> i = j.
Proof. unfold gen_label. intros. destruct (Nat.eqb_spec k 2); destruct (Nat.eqb_spec i 0); destruct (Nat.eqb_spec j 0); lia. Qed.
Lemma count_flat k n c l : c < k -> (forall i, In i l -> i < k) -> NoDup l ->
  count_occ Z.eq_dec (flat_map (fun i => repeat (gen_label k i) n) l) (gen_label k c) = if in_dec Nat.eq_dec c l then n else 0.
Proof.
  intros Hc. induction l as [|i l IH]; intros B N; [reflexivity|]. inversion N as [|? ? N1 N2]; subst. cbn [flat_map]. rewrite count_occ_app, IH by (auto; intros; apply B; now right).
  destruct (Nat.eq_dec i c) as [->|Q].
  - rewrite count_occ_repeat_eq by auto. destruct (in_dec Nat.eq_dec c l); [contradiction|]. destruct (in_dec Nat.eq_dec c (c :: l)) as [|M]; [lia|]. elim M. now left.
  - rewrite count_occ_repeat_neq by (intro Z; apply Q; symmetry; apply (label_inj k); auto; apply B; now left). destruct (in_dec Nat.eq_dec c l) as [I|I]; destruct (in_dec Nat.eq_dec c (i :: l)) as [J|J]; auto; [elim J; now right|destruct J; [contradiction|contradiction]].
Qed.
Lemma count_blobs k ns c : c < k -> count_occ Z.eq_dec (flat_map (fun n => flat_map (fun i => repeat (gen_label k i) n) (seq 0 k)) ns) (gen_label k c) = list_sum ns.
Proof.
  intro Hc. induction ns as [|n ns IH]; [reflexivity|]. cbn [flat_map]. rewrite count_occ_app, IH, (count_flat k) by (auto using seq_NoDup; intros i Hi; apply in_seq in Hi; lia). destruct (in_dec Nat.eq_dec c (seq 0 k)) as [|M]; [reflexivity|]. elim M. apply in_seq. lia.
Qed.
Lemma with_label_count {T} (d : data T) (l : list (point T)) y : Permutation (map content (d_points d)) (map content l) -> with_label d y = count_occ Z.eq_dec (map p_y l) y.
Proof.
  intro P. assert (Permutation (map p_y (d_points d)) (map p_y l)) as Q.
  { assert (forall r : list (point T), map p_y r = map (fun c => snd (fst c)) (map content r)) as G by (intro r; rewrite map_map; reflexivity). rewrite !G. now apply Permutation_map. }
  rewrite (Permutation_count_occ Z.eq_dec) in Q. rewrite <- Q. unfold with_label. clear P Q. induction (d_points d) as [|p r IH]; [reflexivity|]. cbn [filter map count_occ]. destruct (Z.eqb_spec (p_y p) y); destruct (Z.eq_dec (p_y p) y); try contradiction; cbn [length]; auto.
Qed.
Lemma flat_len {A B} (h : A -> list B) l n : (forall x, In x l -> length (h x) = n) -> length (flat_map h l) = length l * n.
Proof. induction l as [|x l IH]; intro H; cbn [flat_map length]; [auto|]. rewrite app_length, (H x (or_introl eq_refl)), (IH (fun y I => H y (or_intror I))). lia. Qed.
Lemma map_flat {A B C} (f : B -> C) (h : A -> list B) l : map f (flat_map h l) = flat_map (fun x => map f (h x)) l.
Proof. induction l as [|x l IH]; cbn [flat_map map]; [auto|]. now rewrite map_app, IH. Qed.
Lemma map_const {A B} (b : B) (l : list A) : map (fun _ => b) l = repeat b (length l).
Proof. induction l; cbn; congruence. Qed.
(** C64: make_spirals gives n_classes * floor(n / n_classes) points, floor(n / n_classes) for each class, on the spirals when there is no noise. *)
Lemma c64_spirals : forall u v w n k perm noise loops margin, 0 < k -> (Z.of_nat n < 2 ^ 63)%Z -> perm_ok perm (k * (n / k)) ->
  exists d, make_spirals u v w n k perm noise loops margin = Ok d /\ data_ok d /\ length (d_points d) = k * (n / k) /\ fresh_numbers d /\
    (forall i y, class_label k i y -> with_label d y = n / k) /\ (forall p, In p (d_points d) -> exists i, class_label k i (p_y p)) /\
    (k <= n -> length (d_classes d) = k) /\
    (noise = 0%R -> forall p, In p (d_points d) -> exists i phi, class_label k i (p_y p) /\ p_x p = [phi * margin * INR k * cos (phi + INR i * 2 * PI / INR k); phi * margin * INR k * sin (phi + INR i * 2 * PI / INR k)]%R).
Proof.
  intros u v w n k perm noise loops margin Hk Hn Hp. unfold make_spirals. destruct (Nat.eqb_spec k 0); [lia|]. cbv zeta. set (m := n / k) in *.
  set (P := fun i j => mkPoint [u j * loops * 360 * PI / 180 * margin * INR k * cos (u j * loops * 360 * PI / 180 + INR i * 2 * PI / INR k) + v i j * noise; u j * loops * 360 * PI / 180 * margin * INR k * sin (u j * loops * 360 * PI / 180 + INR i * 2 * PI / INR k) + w i j * noise]%R (gen_label k i) 0%Z 0%R).
  set (pts := flat_map (fun i => map (P i) (seq 0 m)) (seq 0 k)).
  assert (length pts = k * m) as L. { unfold pts. rewrite (flat_len _ _ m), seq_length; [auto|]. intros. now rewrite map_length, seq_length. }
  assert (k * m <= n) as Lm by (unfold m; apply Nat.mul_div_le; lia).
  destruct (push_all true 2 pts) as (d & E & Ec & Es & Ei & _ & Hok & _).
  { lia. } { intros p I. apply in_flat_map in I as (i & _ & I). apply in_map_iff in I as (j & <- & _). reflexivity. } { rewrite L. lia. }
  destruct (Hok eq_refl) as [D Cl]. assert (length (d_points d) = k * m) as Ld by (rewrite <- L, <- (map_length content pts), <- Ec; now rewrite map_length).
  destruct (finish_ok d perm Es Ei) as (d' & E' & P' & F' & C' & _ & D'). { rewrite Ld. exact Hp. }
  exists d'. assert (Permutation (map content (d_points d')) (map content pts)) as Q by now rewrite <- Ec.
  assert (map p_y pts = flat_map (fun i => repeat (gen_label k i) m) (seq 0 k)) as Ey.
  { unfold pts. rewrite map_flat. apply flat_map_ext. intro i. rewrite map_map. unfold P. cbn [p_y]. now rewrite map_const, seq_length. }
  assert (forall p, In p (d_points d') -> exists i j, i < k /\ content p = content (P i j)) as Src.
  { intros p I. apply (in_map content) in I. apply (Permutation_in _ Q), in_map_iff in I. destruct I as (q & Eq & I). apply in_flat_map in I as (i & Hi & I). apply in_map_iff in I as (j & <- & _). apply in_seq in Hi. exists i, j. split; [lia|auto]. }
  split. { erewrite <- E'. change (@data_empty R) with (@start R true). unfold pts in E. rewrite ofold_flat_map in E. erewrite ofold_in_ext; [rewrite E; reflexivity|]. intros s x _. cbv beta. rewrite ofold_map. reflexivity. }
  split; [auto|]. split; [rewrite <- L, <- (map_length content pts); rewrite <- (Permutation_length Q); now rewrite map_length|]. split; [auto|]. split; [|split; [|split]].
  - intros i y Hy. apply label_fun in Hy as [Hi ->]. rewrite (with_label_count _ pts _ Q), Ey, (count_flat k) by (auto using seq_NoDup; intros j Hj; apply in_seq in Hj; lia). destruct (in_dec Nat.eq_dec i (seq 0 k)) as [|M]; [reflexivity|]. elim M. apply in_seq. lia.
  - intros p I. destruct (Src p I) as (i & j & Hi & Eq). injection Eq as _ Eq _. exists i. apply label_fun. auto.
  - intro Kn. assert (0 < m) as Pm by (apply Nat.div_str_pos; lia). rewrite C'. transitivity (length (map (gen_label k) (seq 0 k))); [|now rewrite map_length, seq_length]. apply Permutation_length, NoDup_Permutation; [apply (co_nodup _ (ok_class _ D))| |].
    + apply L_Valid.NoDup_map_in; [|apply seq_NoDup]. intros a b Ha Hb. apply in_seq in Ha, Hb. apply (label_inj k); lia.
    + intro y. rewrite Cl. unfold labels. rewrite Ey, in_flat_map, in_map_iff. split.
      * intros (i & Hi & I). apply repeat_spec in I. eauto.
      * intros (i & <- & Hi). exists i. split; [auto|]. destruct m; [lia|]. now left.
  - intros -> p I. destruct (Src p I) as (i & j & Hi & Eq). injection Eq as Ex Eq _. exists i, (u j * loops * 360 * PI / 180)%R. split; [apply label_fun; auto|]. rewrite Ex. now rewrite !Rmult_0_r, !Rplus_0_r.
Qed.

(** *** blobs *)
Section Blobs.
Context (nrm : R -> R -> nat -> R) (centers : list (list R)) (stds : list R) (m : nat) (hc : bool).
Let k := length centers.
Let lab (c : nat) : Z := if hc then gen_label k c else 0%Z.
Definition blob_x (c t : nat) : list R := map (fun j => nrm (nth j (nth c centers []) 0%R) (nth c stds 0%R) (t + j)) (seq 0 m).
Definition blob_point (c t : nat) : point R := mkPoint (blob_x c t) (if hc then gen_label (length centers) c else 0%Z) 0%Z 0%R.
Fixpoint blob_list (cls : list nat) (t : nat) : list (point R) := match cls with [] => [] | c :: r => blob_point c t :: blob_list r (t + m) end.
Definition blob_step (s : data R * nat) (c : nat) : outcome (data R * nat) :=
  let* center := vget centers c in
  let* x := map_outcome (fun j => let* a := vget center j in let* b := vget stds c in Ok (nrm a b (snd s + j))) (seq 0 m) in
  let* d := push (fst s) (mkPoint x (if hc then gen_label (length centers) c else 0%Z) 0%Z 0%R) in
  Ok (d, snd s + m).
Hypothesis (Hd : forall c, In c centers -> m <= length c) (Hs : length centers <= length stds).
Lemma blob_step_ok s c : c < k -> blob_step s c = let* d := push (fst s) (blob_point c (snd s)) in Ok (d, snd s + m).
Proof.
  intro Hc. unfold blob_step. destruct (nth_error centers c) as [ce|] eqn:E; [|apply nth_error_None in E; unfold k in Hc; lia]. unfold vget at 1. rewrite E. cbn [obind].
  rewrite (map_outcome_ok _ (fun j => nrm (nth j (nth c centers []) 0%R) (nth c stds 0%R) (snd s + j))); [reflexivity|].
  intros j Hj. apply in_seq in Hj. rewrite (nth_error_nth _ _ [] E). unfold vget. rewrite (nth_error_nth' ce 0%R) by (assert (m <= length ce) by (apply Hd; eapply nth_error_In; eauto); lia). cbn [obind]. rewrite (nth_error_nth' stds 0%R) by (unfold k in Hc; lia). reflexivity.
Qed.
Lemma blob_fold cls : (forall c, In c cls -> c < k) -> forall d t, ofold blob_step cls (d, t) = let* d' := ofold push (blob_list cls t) d in Ok (d', t + length cls * m).
Proof.
  induction cls as [|c r IH]; intros H d t; cbn [ofold blob_list length]; [now rewrite Nat.add_0_r|]. rewrite blob_step_ok by (apply H; now left). cbn [fst snd]. destruct (push d (blob_point c t)); cbn [obind]; auto.
  rewrite IH by (intros; apply H; now right). destruct (ofold push (blob_list r (t + m)) a); cbn [obind]; auto. do 2 f_equal. lia.
Qed.
Definition blob_classes (ns : list nat) : list nat := flat_map (fun n => flat_map (fun c => repeat c n) (seq 0 k)) ns.
Lemma blob_classes_in ns c : In c (blob_classes ns) -> c < k.
Proof. clear Hd Hs. intro I. apply in_flat_map in I as (n & _ & I). apply in_flat_map in I as (i & Hi & I). apply repeat_spec in I. subst. apply in_seq in Hi. lia. Qed.
Lemma blob_loops ns s : ofold (fun s n => ofold (fun s c =>
      let* center := vget centers c in
      ofold (fun s (_ : nat) =>
        let* x := map_outcome (fun j => let* a := vget center j in let* b := vget stds c in Ok (nrm a b (snd s + j))) (seq 0 m) in
        let* d := push (fst s) (mkPoint x (if hc then gen_label (length centers) c else 0%Z) 0 0%R) in
        Ok (d, snd s + m)) (seq 0 n) s) (seq 0 (length centers)) s) ns s = ofold blob_step (blob_classes ns) s.
Proof. clear Hd Hs.
  unfold blob_classes. rewrite ofold_flat_map. apply ofold_in_ext. intros t n _. rewrite ofold_flat_map. apply ofold_in_ext. intros t' c Hc. apply in_seq in Hc. rewrite (ofold_repeat _ c n 0).
  unfold blob_step. destruct (nth_error centers c) as [ce|] eqn:E; [|apply nth_error_None in E; lia]. unfold vget at 1. rewrite E. cbn [obind]. apply ofold_in_ext. intros t2 j _. assert (vget centers c = Ok ce) as -> by (unfold vget; now rewrite E). reflexivity.
Qed.
Lemma blob_list_len cls : forall t, length (blob_list cls t) = length cls.
Proof. clear Hd Hs. induction cls; intro t; cbn; auto. Qed.
Lemma blob_list_labels cls : forall t, map p_y (blob_list cls t) = map (fun c => if hc then gen_label (length centers) c else 0%Z) cls.
Proof. clear Hd Hs. induction cls; intro t; cbn; congruence. Qed.
Lemma blob_list_in cls p : forall t, In p (blob_list cls t) -> exists c q, In c cls /\ p = blob_point c q.
Proof. clear Hd Hs. induction cls as [|c r IH]; intros t I; cbn in I; [destruct I|]. destruct I as [<-|I]; [exists c, t; split; [now left|auto]|]. destruct (IH _ I) as (c' & q & I' & E). exists c', q. split; [now right|auto]. Qed.
Lemma blob_classes_len ns : length (blob_classes ns) = k * list_sum ns.
Proof. clear Hd Hs.
  unfold blob_classes. induction ns as [|n ns IH]; [cbn; lia|]. cbn [flat_map]. rewrite app_length, IH, (flat_len _ _ n) by (intros; apply repeat_length). rewrite seq_length. cbn [list_sum fold_right]. change (fold_right Nat.add 0 ns) with (list_sum ns). lia.
Qed.
End Blobs.

(** C64: make_blobs with a list of sizes gives, for every center, the SUM of the sizes. *)
Lemma c64_blobs : forall nrm t0 ns centers stds m perm, 0 < m -> (forall c, In c centers -> m <= length c) -> length centers <= length stds ->
  (Z.of_nat (length centers * list_sum ns) < 2 ^ 63)%Z -> perm_ok perm (length centers * list_sum ns) ->
  exists d, make_blobs nrm t0 ns centers stds m perm true = Ok d /\ data_ok d /\ length (d_points d) = length centers * list_sum ns /\ fresh_numbers d /\
    (forall i y, class_label (length centers) i y -> with_label d y = list_sum ns) /\
    (forall p, In p (d_points d) -> exists i, class_label (length centers) i (p_y p) /\ from_center nrm centers stds m i (p_x p)) /\ (0 < list_sum ns -> length (d_classes d) = length centers).
Proof.
  intros nrm t0 ns centers stds m perm Hm Hd Hs Hc Hp. unfold make_blobs. cbv zeta. pose proof (blob_loops nrm centers stds m true ns (start true, t0)) as BL. cbv iota in BL. unfold start in BL. rewrite BL. clear BL. rewrite (blob_fold nrm centers stds m true Hd Hs) by (intros c I; eapply blob_classes_in; eauto). set (k := length centers) in *.
  set (cls := blob_classes centers ns). set (pts := blob_list nrm centers stds m true cls t0). assert (length pts = k * list_sum ns) as L by (unfold pts; rewrite blob_list_len; unfold cls; now rewrite blob_classes_len).
  assert (forall p, In p pts -> exists c q, c < k /\ p = blob_point nrm centers stds m true c q) as Src. { intros p I. apply blob_list_in in I as (c & q & I & E). exists c, q. split; [eapply blob_classes_in; eauto|auto]. }
  destruct (push_all true m pts Hm) as (d & E & Ec & Es & Ei & _ & Hok & _).
  { intros p I. destruct (Src p I) as (c & q & _ & ->). cbn. unfold blob_x. now rewrite map_length, seq_length. } { rewrite L. lia. }
  destruct (Hok eq_refl) as [D Cl]. assert (length (d_points d) = k * list_sum ns) as Ld by (rewrite <- L, <- (map_length content pts), <- Ec; now rewrite map_length).
  destruct (finish_ok d perm Es Ei) as (d' & E' & P' & F' & C' & _ & D'). { rewrite Ld. exact Hp. }
  assert (Permutation (map content (d_points d')) (map content pts)) as Q by now rewrite <- Ec.
  assert (map p_y pts = flat_map (fun n => flat_map (fun i => repeat (gen_label k i) n) (seq 0 k)) ns) as Ey.
  { unfold pts. rewrite blob_list_labels. unfold cls, blob_classes. rewrite map_flat. apply flat_map_ext. intro n. rewrite map_flat. apply flat_map_ext. intro i. induction n as [|n IHn]; cbn [repeat map]; [auto|now rewrite IHn]. }
  exists d'. split; [change (mkData [] [] [] [] [] [] 0 0 true false false true) with (@start R true); rewrite E; cbn [obind fst]; exact E'|]. split; [auto|]. split; [rewrite <- L, <- (map_length content pts); rewrite <- (Permutation_length Q); now rewrite map_length|]. split; [auto|]. split; [|split].
  - intros i y Hy. apply label_fun in Hy as [Hi ->]. rewrite (with_label_count _ pts _ Q), Ey. now apply count_blobs.
  - intros p I. apply (in_map content) in I. apply (Permutation_in _ Q), in_map_iff in I. destruct I as (q & Eq & I). destruct (Src q I) as (c & t & Hi & ->). injection Eq as Ex Ely _. exists c. split; [apply label_fun; split; [auto|]; now rewrite <- Ely|].
    rewrite <- Ex. exists (nth c centers []), (nth c stds 0%R), t. split; [apply nth_error_nth'; auto|]. split; [apply nth_error_nth'; lia|]. unfold blob_x. split; [now rewrite map_length, seq_length|]. intros j x Hx.
    assert (j < m) as Hj by (assert (j < length (map (fun j => nrm (nth j (nth c centers []) 0%R) (nth c stds 0%R) (t + j)) (seq 0 m))) as X by (apply nth_error_Some; congruence); now rewrite map_length, seq_length in X).
    exists (nth j (nth c centers []) 0%R). assert (m <= length (nth c centers [])) by (apply Hd, nth_In; auto). split; [apply nth_error_nth'; lia|]. apply (nth_error_nth _ _ 0%R) in Hx. rewrite <- Hx. now rewrite nth_map_seq.
  - intro Pn. rewrite C'. transitivity (length (map (gen_label k) (seq 0 k))); [|now rewrite map_length, seq_length]. apply Permutation_length, NoDup_Permutation; [apply (co_nodup _ (ok_class _ D))| |].
    + apply L_Valid.NoDup_map_in; [|apply seq_NoDup]. intros a b Ha Hb. apply in_seq in Ha, Hb. apply (label_inj k); lia.
    + intro y. rewrite Cl. unfold labels. rewrite Ey, in_map_iff. split.
      * intro I. apply in_flat_map in I as (n & _ & I). apply in_flat_map in I as (i & Hi & I). apply repeat_spec in I. eauto.
      * intros (i & <- & Hi). apply (count_occ_In Z.eq_dec). rewrite count_blobs by (apply in_seq in Hi; lia). lia.
Qed.
(** C64: without classes: the points only, no class recorded. *)
Lemma c64_unlabelled : forall nrm t0 ns centers stds m perm, 0 < m -> (forall c, In c centers -> m <= length c) -> length centers <= length stds ->
  (Z.of_nat (length centers * list_sum ns) < 2 ^ 63)%Z -> perm_ok perm (length centers * list_sum ns) ->
  exists d, make_blobs nrm t0 ns centers stds m perm false = Ok d /\ length (d_points d) = length centers * list_sum ns /\ fresh_numbers d /\ d_classes d = [] /\ d_class d = false /\
    forall p, In p (d_points d) -> exists i, from_center nrm centers stds m i (p_x p).
Proof.
  intros nrm t0 ns centers stds m perm Hm Hd Hs Hc Hp. unfold make_blobs. cbv zeta. pose proof (blob_loops nrm centers stds m false ns (start false, t0)) as BL. cbv iota in BL. unfold start in BL. rewrite BL. clear BL. rewrite (blob_fold nrm centers stds m false Hd Hs) by (intros c I; eapply blob_classes_in; eauto). set (k := length centers) in *.
  set (cls := blob_classes centers ns). set (pts := blob_list nrm centers stds m false cls t0). assert (length pts = k * list_sum ns) as L by (unfold pts; rewrite blob_list_len; unfold cls; now rewrite blob_classes_len).
  assert (forall p, In p pts -> exists c q, c < k /\ p = blob_point nrm centers stds m false c q) as Src. { intros p I. apply blob_list_in in I as (c & q & I & E). exists c, q. split; [eapply blob_classes_in; eauto|auto]. }
  destruct (push_all false m pts Hm) as (d & E & Ec & Es & Ei & Ek & _ & Hn).
  { intros p I. destruct (Src p I) as (c & q & _ & ->). cbn. unfold blob_x. now rewrite map_length, seq_length. } { rewrite L. lia. }
  destruct (Hn eq_refl) as [Cl _]. assert (length (d_points d) = k * list_sum ns) as Ld by (rewrite <- L, <- (map_length content pts), <- Ec; now rewrite map_length).
  destruct (finish_ok d perm Es Ei) as (d' & E' & P' & F' & C' & K' & _). { rewrite Ld. exact Hp. }
  assert (Permutation (map content (d_points d')) (map content pts)) as Q by now rewrite <- Ec.
  exists d'. split; [change (mkData [] [] [] [] [] [] 0 0 true false false false) with (@start R false); rewrite E; cbn [obind fst]; exact E'|]. split; [rewrite <- L, <- (map_length content pts); rewrite <- (Permutation_length Q); now rewrite map_length|]. split; [auto|]. split; [congruence|]. split; [congruence|].
  intros p I. apply (in_map content) in I. apply (Permutation_in _ Q), in_map_iff in I. destruct I as (q & Eq & I). destruct (Src q I) as (c & t & Hi & ->). injection Eq as Ex Ely _. exists c.
    rewrite <- Ex. exists (nth c centers []), (nth c stds 0%R), t. split; [apply nth_error_nth'; auto|]. split; [apply nth_error_nth'; lia|]. unfold blob_x. split; [now rewrite map_length, seq_length|]. intros j x Hx.
    assert (j < m) as Hj by (assert (j < length (map (fun j => nrm (nth j (nth c centers []) 0%R) (nth c stds 0%R) (t + j)) (seq 0 m))) as X by (apply nth_error_Some; congruence); now rewrite map_length, seq_length in X).
    exists (nth j (nth c centers []) 0%R). assert (m <= length (nth c centers [])) by (apply Hd, nth_In; auto). split; [apply nth_error_nth'; lia|]. apply (nth_error_nth _ _ 0%R) in Hx. rewrite <- Hx. now rewrite nth_map_seq.
Qed.
Lemma sum_repeat a n : list_sum (repeat a n) = n * a.
Proof. induction n as [|n IH]; [reflexivity|]. cbn [repeat]. change (list_sum (a :: repeat a n)) with (a + list_sum (repeat a n)). lia. Qed.
(** C64: make_blobs(n, n_centers) gives n_centers^2 * floor(n / n_centers) points: n_centers times as many as asked for when n_centers divides n. *)
Lemma c64_blobs_n : forall uni nrm n k m std perm, 0 < m -> 0 < k -> (Z.of_nat (k * n) < 2 ^ 63)%Z -> perm_ok perm (k * (k * (n / k))) ->
  exists d centers, make_blobs_n uni nrm n k m std perm true = Ok (d, centers) /\ data_ok d /\ length (d_points d) = k * (k * (n / k)) /\ fresh_numbers d /\ length centers = k /\
    (forall i y, class_label k i y -> with_label d y = k * (n / k)) /\ (forall p, In p (d_points d) -> exists i, class_label k i (p_y p) /\ from_center nrm centers (repeat std k) m i (p_x p)) /\ (k <= n -> length (d_classes d) = k).
Proof.
  intros uni nrm n k m std perm Hm Hk Hc Hp. unfold make_blobs_n. destruct (Nat.eqb_spec k 0); [lia|]. cbv zeta. set (centers := map (fun c => map (fun j => uni (c * m + j)) (seq 0 m)) (seq 0 k)). assert (length centers = k) as Lk by (unfold centers; now rewrite map_length, seq_length).
  assert (k * (n / k) <= n) as Lm by (apply Nat.mul_div_le; lia).
  destruct (c64_blobs nrm (k * m) (repeat (n / k) k) centers (repeat std k) m perm Hm) as (d & E & D & L & F & A & B & C).
  - intros c I. unfold centers in I. apply in_map_iff in I as (i & <- & _). now rewrite map_length, seq_length.
  - rewrite repeat_length. lia.
  - rewrite sum_repeat, Lk. nia.
  - rewrite sum_repeat, Lk. exact Hp.
  - rewrite E. cbn [obind]. rewrite sum_repeat, Lk in *. exists d, centers. split; [auto|]. split; [auto|]. split; [auto|]. split; [auto|]. split; [auto|]. split; [auto|]. split; [auto|]. intro Kn. apply C. assert (0 < n / k) by (apply Nat.div_str_pos; lia). nia.
Qed.
(** C64 fails: 100 samples in 2 blobs are 200; 100 samples in 3 spirals are 99; two blobs of 10 and 20 samples are two of 30. *)
Lemma c64_number_refuted : (forall uni nrm m std, 0 < m -> exists d centers, make_blobs_n uni nrm 100 2 m std None true = Ok (d, centers) /\ length (d_points d) = 200) /\
  (forall u v w noise loops margin, exists d, make_spirals u v w 100 3 None noise loops margin = Ok d /\ length (d_points d) = 99) /\
  (forall nrm c1 c2 s1 s2, exists d, make_blobs nrm 0 [10; 20] [[c1]; [c2]] [s1; s2] 1 None true = Ok d /\ with_label d (-1) = 30 /\ with_label d 1 = 30).
Proof.
  split; [|split].
  - intros uni nrm m std Hm. destruct (c64_blobs_n uni nrm 100 2 m std None Hm ltac:(lia)) as (d & ce & E & _ & L & _); [lia|exact I|]. exists d, ce. split; [auto|exact L].
  - intros u v w noise loops margin. destruct (c64_spirals u v w 100 3 None noise loops margin ltac:(lia)) as (d & E & _ & L & _); [lia|exact I|]. exists d. split; [auto|exact L].
  - intros nrm c1 c2 s1 s2. destruct (c64_blobs nrm 0 [10; 20] [[c1]; [c2]] [s1; s2] 1 None) as (d & E & _ & _ & _ & A & _); [lia|intros c [<-|[<-|[]]]; cbn; lia|cbn; lia|cbn; lia|exact I|]. exists d. split; [auto|]. split; [apply (A 0)|apply (A 1)]; unfold class_label; cbn; lia.
Qed.
Lemma c64_spirals_ex : 0 < 3 /\ (Z.of_nat 7 < 2 ^ 63)%Z /\ perm_ok (Some (seq 0 6)) (3 * (7 / 3)) /\ 7 / 3 = 2 /\ class_label 3 1 2 /\ class_label 2 1 1.
Proof. unfold perm_ok, class_label. split; [lia|]. split; [lia|]. split; [reflexivity|]. split; [reflexivity|]. split; lia. Qed.
Lemma c64_blobs_ex : (forall c, In c [[1; 2]; [3; 4]]%R -> 2 <= length c) /\ length [[1; 2]; [3; 4]]%R <= length [1; 1]%R /\ perm_ok None (length [[1; 2]; [3; 4]]%R * list_sum [3; 4]) /\ 0 < list_sum [3; 4].
Proof. split; [intros c [<-|[<-|[]]]; cbn; lia|]. split; [cbn; lia|]. split; [exact I|cbn; lia]. Qed.
(** C89: with no noise every Y of make_regression is the product with the coefficients plus the bias; the coefficients past n_informative are 0; n points of n_dims values. *)
Lemma c89_regression : forall x0 noise_of n m bias noise inf perm, perm_ok perm n ->
  exists rows coef, make_regression x0 noise_of n m bias noise inf perm = Ok (rows, coef) /\ length rows = n /\ length coef = m /\ (forall j, inf <= j -> nth j coef 0%R = 0%R) /\
    (forall x y, In (x, y) rows -> length x = m /\ exists e, y = (sumn m (fun j => nth j x 0 * nth j coef 0) + bias + e)%R /\ ((noise <= 0)%R -> e = 0%R)).
Proof.
  intros x0 nzf n m bias noise inf perm Hp. unfold make_regression. cbv zeta. set (coef := map (fun j => x0 (n * m + j)) (seq 0 (Nat.min m inf)) ++ repeat 0%R (m - Nat.min m inf)).
  assert (length coef = m) as Lc by (unfold coef; rewrite app_length, map_length, seq_length, repeat_length; lia).
  set (xs := map (fun i => map (fun j => x0 (i * m + j)) (seq 0 m)) (seq 0 n)). set (F := fun ix : nat * list R => (snd ix, (if Rlt_dec 0 noise then sumn m (fun j => nth j (snd ix) 0 * nth j coef 0) + bias + nzf (fst ix) else sumn m (fun j => nth j (snd ix) 0 * nth j coef 0) + bias)%R)).
  assert (forall ix, In ix (combine (seq 0 n) xs) -> length (snd ix) = m) as Lx. { intros [i x] I. apply in_combine_r in I. unfold xs in I. apply in_map_iff in I as (q & <- & _). cbn [snd]. now rewrite map_length, seq_length. }
  rewrite (map_outcome_ok _ F).
  2: { intros ix I. rewrite (osum_ok _ _ (fun j => (nth j (snd ix) 0 * nth j coef 0)%R)); [reflexivity|]. intros j Hj. unfold vget. rewrite (nth_error_nth' (snd ix) 0%R) by (rewrite Lx; auto). cbn [obind]. rewrite (nth_error_nth' coef 0%R) by lia. reflexivity. }
  cbn [obind]. set (rows := map F (combine (seq 0 n) xs)). assert (length rows = n) as Lr by (unfold rows, xs; rewrite map_length, combine_length, map_length, seq_length; lia).
  assert (exists rows', match perm with None => Ok rows | Some p => permute p rows end = Ok rows' /\ Permutation rows' rows) as (rows' & E & P). { destruct perm as [p|]; [|exists rows; auto]. destruct (permute_perm rows p) as (r & E & P & _); [rewrite Lr; exact Hp|]. eauto. }
  rewrite E. cbn [obind]. exists rows', coef. split; [auto|]. split; [now rewrite (Permutation_length P)|]. split; [auto|]. split.
  - intros j Hj. unfold coef. destruct (Nat.lt_ge_cases j m) as [Q|Q]; [|apply nth_overflow; fold coef; lia]. rewrite app_nth2 by (rewrite map_length, seq_length; lia). apply nth_repeat.
  - intros x y I. apply (Permutation_in _ P), in_map_iff in I. destruct I as (ix & Eq & I). unfold F in Eq. injection Eq as <- <-. split; [auto|]. destruct (Rlt_dec 0 noise); [exists (nzf (fst ix)); split; [reflexivity|lra]|exists 0%R; split; [lra|auto]].
Qed.
Lemma c89_regression_ex : perm_ok (Some [1; 0; 2]) 3 /\ (0 <= 0)%R.
Proof. split; [|lra]. cbn. apply perm_swap. Qed.
