(** The theorems on the priority queue and the table of visited nodes of AOS. *)
From Coq Require Import ZArith Bool List Reals Permutation Sorted Lia Lra.
From Verif Require Import Base ListLib Loop M_Pq S_Pq L_Pq.
Import ListNotations.
Local Open Scope nat_scope.

Definition pqok (cap : nat) (st : store) (h : pq) : Prop :=
  length (pq_el h) = cap + 1 /\ pq_size h <= cap /\ g (pq_el h) 0 = None /\ (forall j, 1 <= j <= pq_size h -> alive st (g (pq_el h) j)).
Lemma holds_row h ps : length (pq_el h) > pq_size h -> (holds h ps <-> row (pq_el h) 1 (pq_size h) = map Some ps).
Proof.
  intro L. assert (E : firstn (pq_size h) (tl (pq_el h)) = row (pq_el h) 1 (pq_size h)).
  { destruct h as [el n i r m c]. cbn [pq_el pq_size] in *. destruct el as [|x el]; [cbn in L; lia|]. cbn [tl]. cbn [length] in L.
    assert (K : forall n (l : list (option nat)), n <= length l -> firstn n l = map (fun i => nth i l None) (seq 0 n)).
    { clear. intro n. induction n as [|n IH]; intros l H; [auto|]. destruct l as [|a l]; [cbn in H; lia|]. cbn [firstn seq map nth]. f_equal. rewrite IH by (cbn in H; lia). rewrite <- seq_shift, map_map. apply map_ext. auto. }
    rewrite K by lia. unfold row, g. rewrite <- (seq_shift n 0), map_map. apply map_ext. auto. }
  unfold holds. rewrite E. split; [tauto|]. intro H. split; [auto|]. apply (f_equal (@length _)) in H. unfold row in H. rewrite !map_length, seq_length in H. auto.
Qed.
Lemma row_alive st el n ps : row el 1 n = map Some ps -> (forall p, In p ps -> live st p) <-> (forall j, 1 <= j <= n -> alive st (g el j)).
Proof.
  intro R. split.
  - intros H j J. assert (In (g el j) (row el 1 n)) as I by (apply in_map, in_seq; lia). rewrite R in I. apply in_map_iff in I as (p & E & I). exists p. auto.
  - intros H p I. assert (In (Some p) (row el 1 n)) as K by (rewrite R; apply in_map; auto). apply in_map_iff in K as (j & E & J). apply in_seq in J. destruct (H j ltac:(lia)) as (q & E2 & L). congruence.
Qed.
Lemma alive_row st el n : (forall j, 1 <= j <= n -> alive st (g el j)) -> exists ps, row el 1 n = map Some ps /\ length ps = n.
Proof.
  intro H. assert (K : forall m a, a >= 1 -> a + m <= S n -> exists ps, row el a m = map Some ps /\ length ps = m).
  { induction m as [|m IH]; intros a A L; [exists []; auto|]. destruct (IH (S a) ltac:(lia) ltac:(lia)) as (ps & E & Lp). destruct (H a ltac:(lia)) as (p & Ep & _). exists (p :: ps). unfold row in *. cbn [seq map length]. rewrite Ep, E, Lp. auto. }
  apply K; lia.
Qed.
Lemma perm_map_some (a b : list nat) : Permutation (map Some a) (map Some b) -> Permutation a b.
Proof.
  intro H. apply (Permutation_map (fun o : option nat => match o with Some p => p | None => 0 end)) in H. rewrite !map_map, !map_id in H. auto.
Qed.
Lemma pqok_new cap st : pqok cap st (pq_new cap).
Proof.
  unfold pqok, pq_new. cbn [pq_el pq_size]. rewrite repeat_length. split; [auto|]. split; [lia|]. split; [|intros; lia]. unfold g. rewrite Nat.add_1_r. auto.
Qed.
Lemma hord_top st el n : hord st el n -> forall j, 1 <= j <= n -> (vv st (g el j) <= vv st (g el 1))%R.
Proof.
  intros H j. induction j as [j IH] using lt_wf_ind. intro J. destruct (Nat.eq_dec j 1) as [-> | N]; [lra|]. pose proof (half_lt j ltac:(lia)). pose proof (IH (j / 2) ltac:(lia) ltac:(lia)). pose proof (H j ltac:(lia)). lra.
Qed.
Lemma worth_vv st p v : worth st p v -> vv st (Some p) = v.
Proof. intros (n & N & V). unfold vv. rewrite N. auto. Qed.
Lemma live_worth st p : live st p -> worth st p (vv st (Some p)).
Proof. intros (n & N). exists n. unfold vv. rewrite N. auto. Qed.

Lemma insert_step cap st h p f : 1 <= cap -> pqok cap st h -> hord st (pq_el h) (pq_size h) -> live st p ->
  exists b h', pq_insert cap st h p f = Ok (b, h') /\ pqok cap st h' /\ hord st (pq_el h') (pq_size h') /\
   pq_ins h' = (if b && f then 1 else 0) + pq_ins h /\ pq_reins h' = (if b && negb f then 1 else 0) + pq_reins h /\ pq_cut h' = pq_cut h /\
   ((b = true /\ pq_size h < cap /\ pq_size h' = S (pq_size h) /\ Permutation (row (pq_el h') 1 (pq_size h')) (Some p :: row (pq_el h) 1 (pq_size h))) \/
    (b = true /\ pq_size h = cap /\ pq_size h' = cap /\ (vv st (g (pq_el h) cap) < vv st (Some p))%R /\ Permutation (g (pq_el h) cap :: row (pq_el h') 1 cap) (Some p :: row (pq_el h) 1 cap)) \/
    (b = false /\ pq_size h = cap /\ h' = h /\ (vv st (Some p) <= vv st (g (pq_el h) cap))%R)).
Proof.
  intros Hc (L & Sz & Z0 & A) Ho Lp. destruct (deref_live _ _ Lp) as (n & N & D). assert (Vp : vv st (Some p) = n_value n) by (unfold vv; rewrite N; auto). unfold pq_insert. rewrite D. cbn [obind].
  destruct (Nat.eqb (pq_size h) cap) eqn:Q.
  - apply Nat.eqb_eq in Q. rewrite value_at_g by (try lia; apply A; lia). cbn [obind]. destruct (Rlt_dec _ _) as [Lt | Ge].
    + destruct (sift_ok st p (n_value n) cap cap (pq_el h) cap) as (el & R & Le & O & P); auto; try lia. { intros; apply A; lia. }
      rewrite R. cbn [obind]. eexists true, _. split; [reflexivity|]. cbn [pq_el pq_size pq_ins pq_reins pq_cut]. rewrite Q. split; [|split; [|split; [destruct f; auto | split; [destruct f; auto | split; [auto|]]]]].
      * unfold pqok. cbn [pq_el pq_size]. split; [lia|]. split; [lia|]. split; [rewrite O by lia; auto|].
        destruct (alive_row st (pq_el h) cap) as (ps & Er & _); [intros; apply A; lia|]. intros j J. assert (I : In (g el j) (g (pq_el h) cap :: row el 1 cap)) by (right; apply in_map, in_seq; lia).
        apply (Permutation_in _ P) in I. destruct I as [<- | I]; [exists p; auto|]. unfold row in I. apply in_map_iff in I as (k & <- & K). apply in_seq in K. apply A. lia.
      * apply (sift_ord st p (n_value n) cap Vp cap (pq_el h) cap el); auto; try lia; [intros; apply A; lia | intros j J N1 N2; apply Ho; lia | intros j J E; apply half_eq in E; lia].
      * right. left. rewrite Vp. auto.
    + eexists false, _. split; [reflexivity|]. rewrite Q. split; [unfold pqok; auto with zarith|]. split; [rewrite <- Q; auto|]. split; [auto|]. split; [auto|]. split; [auto|]. right. right. rewrite Vp. repeat split; auto. lra.
  - apply Nat.eqb_neq in Q. cbn [obind]. set (k := S (pq_size h)) in *.
    destruct (sift_ok st p (n_value n) k k (pq_el h) k) as (el & R & Le & O & P); auto; try lia. { intros; apply A; lia. }
    rewrite R. cbn [obind]. eexists true, _. split; [reflexivity|]. cbn [pq_el pq_size pq_ins pq_reins pq_cut].
    assert (P2 : Permutation (row el 1 k) (Some p :: row (pq_el h) 1 (pq_size h))).
    { subst k. rewrite (row_snoc (pq_el h)) in P. apply Permutation_cons_inv with (a := g (pq_el h) (S (pq_size h))). etransitivity; [exact P|]. change (1 + pq_size h) with (S (pq_size h)). etransitivity; [|apply perm_swap]. apply perm_skip. apply Permutation_sym, Permutation_cons_append. }
    split; [|split; [|split; [destruct f; auto | split; [destruct f; auto | split; [auto|]]]]].
    + unfold pqok. cbn [pq_el pq_size]. split; [lia|]. split; [lia|]. split; [rewrite O by lia; auto|].
      intros j J. assert (I : In (g el j) (row el 1 k)) by (apply in_map, in_seq; lia). apply (Permutation_in _ P2) in I. destruct I as [<- | I]; [exists p; auto|]. unfold row in I. apply in_map_iff in I as (i & <- & K). apply in_seq in K. apply A. lia.
    + apply (sift_ord st p (n_value n) k Vp k (pq_el h) k el); auto; try lia; [intros; apply A; lia | intros j J N1 N2; apply Ho; lia | intros j J E; apply half_eq in E; lia].
    + left. repeat split; auto. lia.
Qed.

Lemma pop_step cap st h : pqok cap st h -> 1 <= pq_size h -> exists p h', pq_pop st h = Ok (Some p, h') /\ g (pq_el h) 1 = Some p /\ live st p /\ pqok cap st h' /\
  pq_size h' = pq_size h - 1 /\ pq_ins h' = pq_ins h /\ pq_reins h' = pq_reins h /\ Permutation (Some p :: row (pq_el h') 1 (pq_size h')) (row (pq_el h) 1 (pq_size h)) /\
  (hord st (pq_el h) (pq_size h) -> hord st (pq_el h') (pq_size h')).
Proof.
  intros (L & Sz & Z0 & A) P1. unfold pq_pop. destruct (Nat.eqb (pq_size h) 0) eqn:Q; [apply Nat.eqb_eq in Q; lia|]. clear Q. rewrite vget_g by lia. cbn [obind].
  destruct (A 1 ltac:(lia)) as (p & Ep & Lp). assert (Es : pq_size h = S (pq_size h - 1)) by lia.
  destruct (percolate_ok st (pq_size h - 1) (S (pq_size h)) (pq_el h) 1) as (el & R & Le & O & P); try lia. { intros; apply A; lia. }
  rewrite R. cbn [obind]. exists p. eexists. split; [rewrite Ep; reflexivity|]. cbn [pq_el pq_size pq_ins pq_reins]. rewrite <- Es in P. rewrite Ep in P. split; [auto|]. split; [auto|]. split; [|split; [auto|split; [auto|split; [auto|split; [auto|]]]]].
  - unfold pqok. cbn [pq_el pq_size]. split; [lia|]. split; [lia|]. split; [rewrite O by lia; auto|]. intros j J. assert (I : In (g el j) (Some p :: row el 1 (pq_size h - 1))) by (right; apply in_map, in_seq; lia).
    apply (Permutation_in _ P) in I. unfold row in I. apply in_map_iff in I as (i & <- & K). apply in_seq in K. apply A. lia.
  - intro Ho. apply (percolate_ord st (pq_size h - 1) (S (pq_size h)) (pq_el h) 1 el); auto; try lia.
    + intros; apply A; lia.
    + intros j J N1 N2. apply Ho. lia.
Qed.

Lemma calls_ok cap st : 1 <= cap -> forall cs h ps, pqok cap st h -> hord st (pq_el h) (pq_size h) -> (forall p f, In (Insert p f) cs -> live st p) ->
  Permutation (row (pq_el h) 1 (pq_size h)) (map Some ps) ->
  exists a h' ps', calls cap st h cs = Ok (a, h') /\ holds h' ps' /\ pqok cap st h' /\ hord st (pq_el h') (pq_size h') /\ bag cap st ps cs a ps' /\ pq_ins h' = accepted true cs a + pq_ins h /\ pq_reins h' = accepted false cs a + pq_reins h.
Proof.
  intro Hc. induction cs as [|c cs IH]; intros h ps K Ho Lv Hp.
  - destruct (alive_row st (pq_el h) (pq_size h)) as (ps' & E & Lp); [apply K|]. exists [], h, ps'. split; [auto|]. split; [apply holds_row; [destruct K; lia | auto]|]. split; [auto|]. split; [auto|]. split; [|auto]. constructor. apply perm_map_some. rewrite <- E. symmetry. auto.
  - assert (Lps : length ps = pq_size h) by (apply Permutation_length in Hp; unfold row in Hp; rewrite !map_length, seq_length in Hp; auto).
    destruct c as [p f|].
    + assert (Lp : live st p) by (apply (Lv p f); left; auto). destruct (insert_step cap st h p f Hc K Ho Lp) as (b & h1 & E1 & K1 & Ho1 & I1 & I2 & _ & Cases). cbn [calls]. rewrite E1. cbn [obind fst snd].
      destruct Cases as [(-> & Sz & Sz1 & P) | [(-> & Sz & Sz1 & Lt & P) | (-> & Sz & -> & Ge)]].
      * destruct (IH h1 (p :: ps)) as (a & h' & ps' & R & H1 & H2 & H3 & H4 & H5 & H6); auto. { intros; eapply Lv; right; eauto. } { rewrite P. cbn [map]. apply perm_skip. auto. }
        rewrite R. cbn [obind fst snd]. exists (Inserted true :: a), h', ps'. repeat split; auto; try apply H1; try apply H2. { apply bag_insert; auto. lia. } { rewrite H5, I1. cbn [accepted]. destruct f; cbn; lia. } { rewrite H6, I2. cbn [accepted]. destruct f; cbn; lia. }
      * destruct K as (L & _ & _ & A). destruct (A cap ltac:(lia)) as (l & El & Ll). rewrite El in *.
        assert (In l ps) as Il. { apply (Permutation_in (Some l)) in Hp; [|rewrite <- El; apply in_map, in_seq; lia]. apply in_map_iff in Hp as (x & Ex & Ix). injection Ex as ->. auto. }
        destruct (in_split _ _ Il) as (pa & pb & ->).
        destruct (IH h1 (p :: pa ++ pb)) as (a & h' & ps' & R & H1 & H2 & H3 & H4 & H5 & H6); auto. { intros; eapply Lv; right; eauto. }
        { rewrite Sz1. rewrite Sz in Hp. apply Permutation_cons_inv with (a := Some l). rewrite P, Hp. change (Some l :: map Some (p :: pa ++ pb)) with (map Some (l :: p :: pa ++ pb)). change (Some p :: map Some (pa ++ l :: pb)) with (map Some (p :: pa ++ l :: pb)). apply Permutation_map. rewrite perm_swap. apply perm_skip. apply Permutation_sym, Permutation_middle. }
        rewrite R. cbn [obind fst snd]. exists (Inserted true :: a), h', ps'. repeat split; auto; try apply H1; try apply H2. { eapply bag_replace with (l := l) (ps' := pa ++ pb); eauto using live_worth; [lia|]. apply Permutation_sym, Permutation_middle. } { rewrite H5, I1. cbn [accepted]. destruct f; cbn; lia. } { rewrite H6, I2. cbn [accepted]. destruct f; cbn; lia. }
      * assert (Hl : exists l, g (pq_el h) cap = Some l /\ live st l) by (destruct K as (_ & _ & _ & A); apply A; lia). destruct Hl as (l & El & Ll).
        assert (In l ps) as Il. { apply (Permutation_in (Some l)) in Hp; [|rewrite <- El; apply in_map, in_seq; lia]. apply in_map_iff in Hp as (x & Ex & Ix). injection Ex as ->. auto. }
        destruct (IH h ps) as (a & h' & ps' & R & H1 & H2 & H3 & H4 & H5 & H6); auto. { intros; eapply Lv; right; eauto. }
        rewrite R. cbn [obind fst snd]. exists (Inserted false :: a), h', ps'. repeat split; auto; try apply H1; try apply H2. eapply bag_refuse with (l := l); eauto using live_worth; [lia|]. rewrite El in Ge. auto.
    + cbn [calls]. destruct (Nat.eq_dec (pq_size h) 0) as [Q | Q].
      * unfold pq_pop. rewrite Q. cbn [Nat.eqb obind fst snd]. assert (ps = []) as -> by (destruct ps; auto; cbn in Lps; lia).
        destruct (IH h []) as (a & h' & ps' & R & H1 & H2 & H3 & H4 & H5 & H6); auto. { intros; eapply Lv; right; eauto. }
        rewrite R. cbn [obind fst snd]. exists (Popped None :: a), h', ps'. repeat split; auto; try apply H1; try apply H2. apply bag_none. auto.
      * destruct (pop_step cap st h K ltac:(lia)) as (p & h1 & E1 & Ep & Lp & K1 & Sz1 & I1 & I2 & P & Ho1). rewrite E1. cbn [obind fst snd].
        assert (In p ps) as Il. { apply (Permutation_in (Some p)) in Hp; [|rewrite <- Ep; apply in_map, in_seq; lia]. apply in_map_iff in Hp as (x & Ex & Ix). injection Ex as ->. auto. }
        destruct (in_split _ _ Il) as (pa & pb & ->).
        destruct (IH h1 (pa ++ pb)) as (a & h' & ps' & R & H1 & H2 & H3 & H4 & H5 & H6); auto. { intros; eapply Lv; right; eauto. }
        { apply Permutation_cons_inv with (a := Some p). rewrite P, Hp. change (Some p :: map Some (pa ++ pb)) with (map Some (p :: pa ++ pb)). apply Permutation_map. apply Permutation_sym, Permutation_middle. }
        rewrite R. cbn [obind fst snd]. exists (Popped (Some p) :: a), h', ps'. repeat split; auto; try apply H1; try apply H2; try (cbn [accepted]; congruence).
        eapply bag_pop; [|apply Permutation_sym, Permutation_middle|exact H4]. split; [auto|]. exists (vv st (Some p)). split; [apply live_worth; auto|]. intros q w Iq Wq. rewrite <- (worth_vv _ _ _ Wq).
        assert (In (Some q) (row (pq_el h) 1 (pq_size h))) as Ir by (apply (Permutation_in _ (Permutation_sym Hp)), in_map; auto). unfold row in Ir. apply in_map_iff in Ir as (j & Ej & J). apply in_seq in J. rewrite <- Ej, <- Ep. apply hord_top with (pq_size h); auto. lia.
Qed.

Lemma c110_queue : forall (cap : nat) (st : store) (cs : list call), 1 <= cap -> (forall p f, In (Insert p f) cs -> live st p) ->
  exists a h ps, calls cap st (pq_new cap) cs = Ok (a, h) /\ holds h ps /\ bag cap st [] cs a ps /\ pq_ins h = accepted true cs a /\ pq_reins h = accepted false cs a.
Proof.
  intros cap st cs Hc Lv. destruct (calls_ok cap st Hc cs (pq_new cap) []) as (a & h & ps & R & H1 & _ & _ & H4 & H5 & H6); auto.
  - apply pqok_new.
  - intros j J. cbn in J. lia.
  - exists a, h, ps. rewrite H5, H6. cbn. rewrite !Nat.add_0_r. auto.
Qed.

Lemma bag_drain cap st : forall ps a out, (forall p, In p ps -> live st p) -> bag cap st ps (repeat Pop (length ps)) a out ->
  exists qs, a = map (fun q => Popped (Some q)) qs /\ Permutation qs ps /\ StronglySorted (fun p q => exists v w, worth st p v /\ worth st q w /\ (w <= v)%R) qs /\ out = [].
Proof.
  intro ps. remember (length ps) as n eqn:En. revert ps En. induction n as [|n IH]; intros ps En a out Lv B.
  - destruct ps; [|discriminate]. inversion B; subst. exists []. apply Permutation_nil in H. subst. repeat split; auto. constructor.
  - cbn [repeat] in B. inversion B as [| | | | ? a1 ? B1 E1 | ? p ps1 ? a1 ? H1 H2 B1]; subst; [discriminate En|].
    assert (length ps1 = n) as L1 by (apply Permutation_length in H2; cbn in H2; lia).
    destruct (IH ps1) with (a := a1) (out := out) as (qs & Ea & Pq & Sq & Eo); auto. { intros q Q. apply Lv. apply (Permutation_in _ (Permutation_sym H2)). right. auto. }
    exists (p :: qs). split; [cbn [map]; congruence|]. split; [rewrite H2; apply perm_skip; auto|]. split; [|auto]. constructor; [auto|]. apply Forall_forall. intros q Q. destruct H1 as (_ & v & Wv & Max).
    assert (In q ps) as Iq by (apply (Permutation_in _ (Permutation_sym H2)); right; apply (Permutation_in _ Pq); auto). exists v, (vv st (Some q)). pose proof (live_worth _ _ (Lv q Iq)) as Wq. repeat split; auto. eapply Max; eauto.
Qed.
Lemma bag_fill cap st : forall ps cs base a out, length base + length ps <= cap -> bag cap st base (map (fun p => Insert p true) ps ++ cs) a out ->
  exists a2, a = repeat (Inserted true) (length ps) ++ a2 /\ bag cap st (rev ps ++ base) cs a2 out.
Proof.
  induction ps as [|p ps IH]; intros cs base a out L B; [exists a; auto|]. cbn [map app length] in *. inversion B; subst; try lia.
  destruct (IH cs (p :: base) a0 out) as (a2 & -> & B2); [cbn; lia | auto |]. exists a2. split; [auto|]. cbn [rev]. rewrite <- app_assoc. auto.
Qed.
Lemma c110_sorted : forall (cap : nat) (st : store) (ps : list nat), 1 <= cap -> length ps <= cap -> (forall p, In p ps -> live st p) ->
  exists qs h, calls cap st (pq_new cap) (map (fun p => Insert p true) ps ++ repeat Pop (length ps)) = Ok (repeat (Inserted true) (length ps) ++ map (fun q => Popped (Some q)) qs, h) /\
    Permutation qs ps /\ StronglySorted (fun p q => exists v w, worth st p v /\ worth st q w /\ (w <= v)%R) qs /\ holds h [].
Proof.
  intros cap st ps Hc L Lv. destruct (c110_queue cap st (map (fun p => Insert p true) ps ++ repeat Pop (length ps)) Hc) as (a & h & out & R & H & B & _).
  { intros p f I. apply in_app_or in I as [I | I]; [apply in_map_iff in I as (q & E & I); injection E as -> _; auto | apply repeat_spec in I; discriminate]. }
  apply bag_fill in B as (a2 & -> & B); [|cbn; lia]. rewrite app_nil_r in B. rewrite <- rev_length in B at 1. apply bag_drain in B as (qs & -> & P & S1 & ->).
  - exists qs, h. split; [auto|]. split; [rewrite P; apply Permutation_sym, Permutation_rev|]. auto.
  - intros p I. apply Lv, in_rev. auto.
Qed.

(** a full queue does not give up its least valuable node *)
Definition nd (f : Z) (l : nat) (v : R) : node := mkNode [f] l v v (-1).
Ltac rcase := match goal with |- context [Rlt_dec ?a ?b] => destruct (Rlt_dec a b); [try (exfalso; lra) | try (exfalso; lra)] end.
Lemma c110_full_refuted : exists st : store, exists h : pq, exists h' : pq, calls 3 st (pq_new 3) [Insert 0 true; Insert 1 true; Insert 2 true] = Ok ([Inserted true; Inserted true; Inserted true], h) /\
  worth st 1 1 /\ worth st 2 5 /\ worth st 3 4 /\ worth st 4 7 /\ pq_insert 3 st h 3 true = Ok (false, h) /\ pq_insert 3 st h 4 true = Ok (true, h') /\ holds h' [0; 1; 4].
Proof.
  set (st := [Some (nd 1 1 10); Some (nd 2 1 1); Some (nd 3 1 5); Some (nd 4 1 4); Some (nd 5 1 7)]). exists st.
  exists (mkPq [None; Some 0; Some 1; Some 2] 3 3 0 3 0), (mkPq [None; Some 0; Some 1; Some 4] 3 4 0 3 0).
  split; [cbv -[Rlt_dec IZR Rlt Rle]; repeat (rcase; cbv -[Rlt_dec IZR Rlt Rle]); reflexivity|].
  do 4 (split; [eexists; split; reflexivity|]).
  split; [cbv -[Rlt_dec IZR Rlt Rle]; repeat (rcase; cbv -[Rlt_dec IZR Rlt Rle]); reflexivity|].
  split; [cbv -[Rlt_dec IZR Rlt Rle]; repeat (rcase; cbv -[Rlt_dec IZR Rlt Rle]); reflexivity|].
  split; reflexivity.
Qed.
Lemma c110_queue_ex : 1 <= 2 /\ (forall p f, In (Insert p f) [Insert 0 true; Insert 1 true; Insert 0 false; Pop; Pop] -> live [Some (nd 1 1 3); Some (nd 2 1 4)] p).
Proof. split; [lia|]. intros p f [E | [E | [E | [E | [E | []]]]]]; try discriminate; injection E as <- _; eexists; reflexivity. Qed.
Lemma c110_sorted_ex : 1 <= 4 /\ length [1; 0; 2] <= 4 /\ (forall p, In p [1; 0; 2] -> live [Some (nd 1 1 3); Some (nd 2 1 4); Some (nd 3 1 4)] p).
Proof. split; [lia|]. split; [cbn; lia|]. intros p [E | [E | [E | []]]]; subst; eexists; reflexivity. Qed.
