(** Lemmas on the admissible ordered search. *)
From Coq Require Import ZArith Bool List Reals Permutation Sorted Lia Lra.
From Verif Require Import Base ListLib Loop M_Data S_Data L_Data L_Data2 L_Feat L_Join M_Point L_Vec M_Kmeans S_Fs T_Fs M_Pq S_Pq L_Pq T_Pq T_Prune T_Vis M_Aos S_Aos.
Import ListNotations.
Local Open Scope nat_scope.

(** ** Lists of features *)
Lemma SS_snoc {A} (Rr : A -> A -> Prop) l x : StronglySorted Rr l -> Forall (fun y => Rr y x) l -> StronglySorted Rr (l ++ [x]).
Proof.
  induction 1 as [|y l S1 IH F]; intro H; cbn [app]; [repeat constructor|]. inversion H as [|? ? H1 H2]; subst. constructor; [auto|]. apply Forall_app. split; auto.
Qed.
Lemma SS_rev l : StronglySorted Z.lt l -> desc (rev l).
Proof.
  induction 1 as [|x l S1 IH F]; cbn [rev]; [constructor|]. apply SS_snoc; [auto|]. apply Forall_rev. apply (Forall_impl _ (P := Z.lt x)); [intros; lia | auto].
Qed.
Lemma desc_NoDup f : desc f -> NoDup f.
Proof. induction 1 as [|x l S1 IH F]; constructor; auto. intro I. rewrite Forall_forall in F. specialize (F _ I). lia. Qed.
Lemma names_ok of f : NoDup of -> ~ In f of -> exists r, aos_names (length of) of f = Ok r /\ desc r /\ Permutation r (f :: of) /\ length r = S (length of).
Proof.
  intros N I. unfold aos_names. destruct (Nat.ltb _ _) eqn:E; [apply Nat.ltb_lt in E; lia|]. rewrite firstn_all. eexists. split; [reflexivity|].
  assert (P : Permutation (rev (isort Z.leb (of ++ [f]))) (f :: of)) by (rewrite <- Permutation_rev, isort_perm; symmetry; apply Permutation_cons_append).
  split; [|split; [auto | apply Permutation_length in P; auto]]. apply SS_rev, sorted_le_lt; [apply Zsort_sorted|]. rewrite isort_NoDup. apply (Permutation_NoDup (Permutation_cons_append of f)). constructor; auto.
Qed.
Lemma without_mem f n : without f n = negb (memZ n f).
Proof. auto. Qed.
Lemma without_length names f : NoDup names -> NoDup f -> incl f names -> length (filter (without f) names) + length f = length names.
Proof.
  intros N1 N2 I. assert (P : Permutation (filter (fun n => memZ n f) names) f).
  { apply NoDup_Permutation; [apply NoDup_filter; auto | auto|]. intro x. rewrite filter_In, memZ_In. split; [tauto | auto]. }
  apply Permutation_length in P. rewrite <- P. clear. induction names as [|x l IH]; [auto|]. cbn [filter]. rewrite without_mem. destruct (memZ x f); cbn [negb length]; lia.
Qed.

(** ** The sample of a node *)
Section Sub.
Context (d : data R) (Od : data_ok d) (Nd : d_points d <> []).
Lemma names_NoDup : NoDup (d_fnames d).
Proof. apply sorted_lt_NoDup, (ok_sorted _ Od). Qed.
Lemma sub_ok f : f <> [] -> NoDup f -> incl f (d_fnames d) -> length (d_fnames d) <> 1 ->
  exists e, removeFeatures (copy d) f = Ok (e, true) /\ copy e = e /\ data_ok e /\ restricted (without f) d e /\ dim e = length (d_fnames e) /\ length (d_fnames e) + length f = length (d_fnames d).
Proof.
  intros Nf ND I L. rewrite (copy_ok d Od Nd). destruct (rm_ok d d (fun _ => true) f Od Od Nd (restricted_all d Od) Nf L) as (e & R & Oe & Re). { apply NoDup_filter. auto. }
  cbn [andb] in Re. assert (Ne : d_points e <> []) by (destruct Re as (_ & P & _); rewrite P; intro Z; apply map_eq_nil in Z; auto).
  exists e. split; [auto|]. split; [apply copy_ok; auto|]. split; [auto|]. split; [auto|]. split; [apply data_dim; auto|]. destruct Re as (F & _). rewrite F. apply without_length; auto. apply names_NoDup.
Qed.
End Sub.

(** ** The queue without its order *)
Definition pqstr (cap : nat) (h : pq) : Prop := length (pq_el h) = cap + 1 /\ pq_size h <= cap /\ g (pq_el h) 0 = None.
Lemma pqok_of cap st h ps : pqstr cap h -> holds h ps -> (forall p, In p ps -> live st p) -> pqok cap st h.
Proof.
  intros (L & S1 & Z0) H Lv. unfold pqok. split; [auto|]. split; [auto|]. split; [auto|]. apply holds_row in H; [|lia]. apply (row_alive st _ _ ps H). auto.
Qed.
Lemma insert_safe cap st h p f ps : 1 <= cap -> pqstr cap h -> holds h ps -> NoDup ps -> (forall x, In x ps -> live st x) -> live st p -> ~ In p ps ->
  exists b h' ps', pq_insert cap st h p f = Ok (b, h') /\ pqstr cap h' /\ holds h' ps' /\ NoDup ps' /\ incl ps' (p :: ps) /\ (pq_size h < cap -> Permutation ps' (p :: ps)) /\ ps' <> [].
Proof.
  intros Hc Ks H ND Lv Lp Np. pose proof (pqok_of cap st h ps Ks H Lv) as (_ & _ & _ & A). destruct Ks as (L & Sz & Z0). destruct (deref_live _ _ Lp) as (n & N & D). unfold pq_insert. rewrite D. cbn [obind].
  assert (Hr : row (pq_el h) 1 (pq_size h) = map Some ps) by (apply holds_row; auto; lia).
  destruct (Nat.eqb (pq_size h) cap) eqn:Q.
  - apply Nat.eqb_eq in Q. rewrite value_at_g by (try lia; apply A; lia). cbn [obind]. destruct (Rlt_dec _ _) as [Lt | Ge].
    + destruct (sift_ok st p (n_value n) cap cap (pq_el h) cap) as (el & R & Le & O & P); auto; try lia. { intros; apply A; lia. }
      rewrite R. cbn [obind]. rewrite Q in *.
      assert (Al : forall j, 1 <= j <= cap -> alive st (g el j)).
      { intros j J. assert (I : In (g el j) (g (pq_el h) cap :: row el 1 cap)) by (right; apply in_map, in_seq; lia). apply (Permutation_in _ P) in I. destruct I as [<- | I]; [exists p; auto|]. unfold row in I. apply in_map_iff in I as (k & <- & K). apply in_seq in K. apply A. lia. }
      destruct (alive_row st el cap Al) as (ps' & Er & Ln). rewrite Hr, Er in P. destruct (A cap ltac:(lia)) as (l & El & _). rewrite El in P. change (Some l :: map Some ps') with (map Some (l :: ps')) in P. change (Some p :: map Some ps) with (map Some (p :: ps)) in P. apply perm_map_some in P.
      eexists true, _, ps'. split; [reflexivity|]. split; [unfold pqstr; cbn [pq_el pq_size]; split; [lia|]; split; [lia|]; rewrite O by lia; auto|]. split; [apply holds_row; cbn [pq_el pq_size]; [lia | auto]|].
      split; [assert (N2 : NoDup (l :: ps')) by (apply (Permutation_NoDup (Permutation_sym P)); constructor; auto); inversion N2; auto|]. split; [intros x X; apply (Permutation_in _ P); right; auto|]. split; [lia|]. intros ->. cbn [length] in Ln. lia.
    + eexists false, h, ps. split; [reflexivity|]. repeat (split; [auto; fail|]). split; [split; auto with zarith|]. split; [auto|]. split; [auto|]. split; [intros x X; right; auto|]. split; [lia|]. intros ->. destruct H as (_ & Hln). cbn [length] in Hln. lia.
  - apply Nat.eqb_neq in Q. cbn [obind]. set (k := S (pq_size h)) in *.
    destruct (sift_ok st p (n_value n) k k (pq_el h) k) as (el & R & Le & O & P); auto; try lia. { intros; apply A; lia. }
    rewrite R. cbn [obind].
    assert (P2 : Permutation (row el 1 k) (Some p :: row (pq_el h) 1 (pq_size h))).
    { subst k. rewrite (row_snoc (pq_el h)) in P. apply Permutation_cons_inv with (a := g (pq_el h) (S (pq_size h))). etransitivity; [exact P|]. change (1 + pq_size h) with (S (pq_size h)). etransitivity; [|apply perm_swap]. apply perm_skip. apply Permutation_sym, Permutation_cons_append. }
    assert (Al : forall j, 1 <= j <= k -> alive st (g el j)).
    { intros j J. assert (I : In (g el j) (row el 1 k)) by (apply in_map, in_seq; lia). apply (Permutation_in _ P2) in I. destruct I as [<- | I]; [exists p; auto|]. unfold row in I. apply in_map_iff in I as (i & <- & K). apply in_seq in K. apply A. lia. }
    destruct (alive_row st el k Al) as (ps' & Er & Ln). rewrite Hr, Er in P2. change (Some p :: map Some ps) with (map Some (p :: ps)) in P2. apply perm_map_some in P2.
    eexists true, _, ps'. split; [reflexivity|]. split; [unfold pqstr; cbn [pq_el pq_size]; split; [lia|]; split; [lia|]; rewrite O by lia; auto|]. split; [apply holds_row; cbn [pq_el pq_size]; [lia | auto]|].
    split; [apply (Permutation_NoDup (Permutation_sym P2)); constructor; auto|]. split; [intros x X; apply (Permutation_in _ P2); auto|]. split; [auto|]. intros ->. apply Permutation_nil in P2. discriminate.
Qed.
Lemma pop_safe cap st h ps : pqstr cap h -> holds h ps -> NoDup ps -> (forall x, In x ps -> live st x) -> pq_size h <> 0 ->
  exists p h' ps', pq_pop st h = Ok (Some p, h') /\ slot (pq_el h) 1 = Ok p /\ pqstr cap h' /\ holds h' ps' /\ Permutation ps (p :: ps') /\ (ps' = [] -> g (pq_el h') 1 = Some p) /\ pq_size h' = length ps'.
Proof.
  intros Ks H ND Lv N0. pose proof (pqok_of cap st h ps Ks H Lv) as K. destruct (pop_step cap st h K ltac:(lia)) as (p & h' & R & G1 & Lp & K' & Sz & _ & _ & P & _).
  destruct K' as (L' & S' & Z' & A'). destruct (alive_row st (pq_el h') (pq_size h') A') as (ps' & Er & Ln).
  assert (Hr : row (pq_el h) 1 (pq_size h) = map Some ps) by (apply holds_row; auto; destruct Ks; lia).
  rewrite Hr, Er in P. change (Some p :: map Some ps') with (map Some (p :: ps')) in P. apply perm_map_some in P.
  exists p, h', ps'. split; [auto|]. split; [apply slot_g; auto; destruct Ks; lia|]. split; [unfold pqstr; auto|]. split; [apply holds_row; auto; lia|]. split; [symmetry; auto|]. split; [|auto].
  intros ->. cbn [length] in Ln. destruct H as (_ & Hl). apply Permutation_length in P. cbn [length] in P.
  assert (S1 : pq_size h = 1) by lia. unfold pq_pop in R. rewrite S1 in R. cbn [Nat.eqb Nat.sub] in R. destruct (vget (pq_el h) 1) eqn:V; cbn [obind] in R; try discriminate.
  cbn [percolate] in R. rewrite V in R. cbn [obind] in R. change (Nat.ltb 0 (1 * 2)) with true in R. cbv iota in R. destruct (vupd 1 _ _) as [el | |] eqn:U; cbn [obind] in R; try discriminate. injection R as -> <-. cbn [pq_el].
  apply vupd_Ok in U. pose proof (upd_nth_same _ _ _ _ U) as Un. unfold g. destruct Ks as (L & Sq & _). destruct (nth_error (pq_el h) 1) eqn:E1; [|apply nth_error_None in E1; lia]. cbn [option_map] in Un. apply (nth_error_nth _ _ None) in Un. auto.
Qed.
