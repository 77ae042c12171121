(** C115: a search without end. *)
From Coq Require Import ZArith Bool List Reals Permutation Sorted Lia Lra.
From Verif Require Import Base ListLib Loop M_Data S_Data L_Data L_Data2 L_Feat L_Join M_Point L_Vec M_Kmeans S_Fs T_Fs M_Pq S_Pq L_Pq T_Pq T_Prune T_Vis M_Aos S_Aos L_Aos L_Aos2 L_Aos3 L_Aos4 T_Aos.
Import ListNotations.
Local Open Scope nat_scope.

Section Never.
Context (d : data R) (tr : nat -> data R -> bool * (list R * R)) (srt : data R -> list (Z * R) -> list (Z * R)) (c : aos_cfg).
Notation N := (d_fnames d).
Hypothesis Cd : a_depth c = 1%Z.
Hypothesis Hc : 1 <= a_cap c.
Hypothesis Od : data_ok d.
Hypothesis Nd : d_points d <> [].
Hypothesis Nl : 2 <= length N.
Hypothesis Fl : flat d tr.

(** A queue of nodes without one feature, none with a positive margin. *)
Definition stuck (s : aos) : Prop :=
  exists ps, pqstr (a_cap c) (s_q s) /\ holds (s_q s) ps /\ NoDup ps /\ ps <> [] /\ forall p, In p ps -> p < length (s_ws s) /\
    exists n, nth_error (s_st s) p = Some (Some n) /\ n_level n = 1 /\ desc (n_fnames n) /\ incl (n_fnames n) N /\ length (n_fnames n) = 1 /\ (n_rgamma n <= 0)%R.
Lemma stuck_turn s : stuck s -> exists s', stuck s' /\ forall fuel, aos_loop (S fuel) c srt tr d s = aos_loop fuel c srt tr d s'.
Proof.
  intros (ps & Ks & Hh & ND & Ne & Al). assert (Lv : forall p, In p ps -> live (s_st s) p) by (intros p I; destruct (Al p I) as (_ & n & E & _); exists n; auto).
  assert (Nz : pq_size (s_q s) <> 0) by (destruct Hh as (_ & H); destruct ps; [congruence | cbn [length] in H; lia]).
  destruct (pop_safe (a_cap c) (s_st s) (s_q s) ps Ks Hh ND Lv Nz) as (p & h' & ps' & Pop & Sl & Ks' & Hh' & Pp & One & Sz').
  assert (Ip : In p ps) by (apply (Permutation_in _ (Permutation_sym Pp)); left; auto). destruct (Al p Ip) as (Lw & n & En & Vn & Df & If & Lf & Rn).
  assert (ND2 : NoDup (p :: ps')) by (apply (Permutation_NoDup Pp); auto). apply NoDup_cons_iff in ND2 as (Np & ND').
  destruct (sub_ok d Od Nd (n_fnames n)) as (e & Re & Ce & Oe & Rs & De & Le); [intros E0; rewrite E0 in Lf; discriminate | apply desc_NoDup; auto | auto | lia |].
  assert (Nn : d_fnames e <> []) by (intro E0; rewrite E0 in Le; cbn in Le; lia). destruct (Fl (s_n s) _ e Rs Nn) as (T1 & T2 & T3 & T4). destruct (tr (s_n s) e) as (ok & w & margin) eqn:Et. cbn [fst snd] in *. subst ok.
  destruct (assign_ok (s_st s) p (mkNode (n_fnames n) (n_level n) margin (n_pgamma n) margin)) as (st' & As & Ep & Ls & Oth); [exists n; auto|].
  assert (Lv' : forall x, In x ps' -> live st' x). { intros x X. assert (x <> p) by (intros ->; auto). unfold live. rewrite Oth by auto. apply Lv. apply (Permutation_in _ (Permutation_sym Pp)). right. auto. }
  assert (Lp' : live st' p) by (eexists; eauto).
  destruct (insert_safe (a_cap c) st' h' p false ps' Hc Ks' Hh' ND' Lv' Lp' Np) as (b1 & q1 & ps1 & In1 & Ks1 & Hh1 & ND1 & I1 & P1 & Ne1).
  destruct (vupd_lt p (fun _ => w) (s_ws s) Lw) as (nw & U & V).
  assert (Va : exists v, value_at st' (pq_el h') 1 = Ok v).
  { pose proof Ks' as (K1 & K2 & K3). destruct ps' as [|x ps0].
    - eexists. apply value_at_g; [lia|]. rewrite (One eq_refl). exists p. auto.
    - eexists. apply value_at_g; [lia|]. destruct (pqok_of (a_cap c) st' h' (x :: ps0) Ks' Hh' Lv') as (_ & _ & _ & Alv). apply Alv. cbn [length] in Sz'. lia. }
  destruct Va as (v & Va). eexists. split; [|intro fuel; cbn [aos_loop]; destruct (Nat.eqb_spec (pq_size (s_q s)) 0); [contradiction|]; rewrite Sl; cbn [obind]; unfold deref at 1; rewrite En; cbn [obind]; rewrite Re; cbn [obind fst]; rewrite Ce].
  2: { assert (Z.eqb (Z.of_nat (dim d)) (Z.of_nat (dim d) - a_depth c) = false) as -> by (apply Z.eqb_neq; lia). cbn [andb]. unfold aos_main. destruct (Nat.eqb_spec (pq_size (s_q s)) 0); [contradiction|]. rewrite Pop. cbn [obind fst snd]. unfold deref. rewrite En. cbn [obind]. rewrite Vn, Cd.
    change (Z.ltb 1 (Z.of_nat 1)) with false. cbv iota. destruct (Rlt_dec 0 (n_rgamma n)); [exfalso; lra|]. rewrite Et. cbn [negb]. rewrite Vn in As. rewrite As. cbn [obind]. rewrite Va. cbn [obind]. change (Z.eqb (Z.of_nat 1) 1) with true. rewrite orb_true_r, V. cbn [obind]. rewrite In1. cbn [obind snd]. reflexivity. }
  exists ps1. cbn [s_q s_ws s_st]. split; [auto|]. split; [auto|]. split; [auto|]. split; [auto|]. intros x X. apply upd_length in U. split.
  - apply I1 in X as [<- | X]; [lia|]. destruct (Al x) as (A & _); [apply (Permutation_in _ (Permutation_sym Pp)); right; auto | lia].
  - apply I1 in X as [<- | X]; [eexists; split; [exact Ep|]; cbn [n_level n_fnames n_rgamma]; auto|]. destruct (Al x) as (_ & m & M & M2); [apply (Permutation_in _ (Permutation_sym Pp)); right; auto|]. exists m. rewrite Oth by (intros ->; auto). auto.
Qed.
Lemma stuck_run fuel : forall s, stuck s -> aos_loop fuel c srt tr d s = Ok Running.
Proof. induction fuel as [|fuel IH]; intros s St; [auto|]. destruct (stuck_turn s St) as (s' & St' & ->). auto. Qed.
End Never.

(** C115: with one feature to take away and a classifier that reports no positive margin, the search trains again and again and never ends. *)
Lemma c115_forever_refuted : forall (fuel : nat) (c : aos_cfg) srt tr (d : data R), data_ok d -> d_points d <> [] -> 2 <= length (d_fnames d) -> flat d tr -> (forall e l, Permutation (srt e l) l) ->
  (a_gm c <= 0)%R -> 1 <= a_cap c -> 1 <= a_len c -> apart (a_len c) (d_fnames d) 2 -> roomy (a_len c) (a_width c) (d_fnames d) 2 -> 1 <= a_breadth c -> a_depth c = 1%Z ->
  aos_select fuel c srt tr d = Ok Running.
Proof.
  intros fuel c srt tr d Od Nd Nl Fl So Gm Hc Hl Ap Ro Hb Cd. pose proof So as Hs.
  assert (L1 : levels d c = 1) by (unfold levels; rewrite Cd; lia). pose proof (children_pos d c Nl Hb) as B1. set (c' := aos_clamp d c). assert (Nn : d_fnames d <> []) by (intro E; rewrite E in Nl; cbn in Nl; lia).
  assert (Aw : length (fst (snd (tr 0 d))) = length (d_fnames d) /\ exists x, In x (fst (snd (tr 0 d))) /\ x <> 0%R) by (destruct (Fl 0 _ d (restricted_all d Od) Nn) as (_ & A1 & A2 & _); auto).
  assert (Bl : children d c <= length (d_fnames d)) by (unfold children; lia). pose proof (clamp_depth d c Od Nd) as Dp. rewrite L1 in Dp.
  destruct (start_ok d tr srt (a_len c) (a_width c) (a_cap c) 1 (a_cut c) (children d c) c' eq_refl eq_refl (clamp_breadth d c Od Nd) Dp Gm Hl Hc Ap Ro Hs Od Nd Nl ltac:(lia) Aw eq_refl eq_refl Bl) as (s & gs & ps & St & Fi & Mu & Ne & _ & S0 & Sp & Sn & New).
  unfold aos_select. fold c'. rewrite St. cbn [obind]. specialize (Ne B1). pose proof Fi as [F _ _ _]. pose proof F as [Gl Wl Nd0 Gs Le Wd Rw Ks Hh ND Ps Tr].
  assert (Sz : pq_size (s_q s) = length ps) by (destruct Hh as (_ & H0); auto). rewrite Sz. destruct (Nat.eqb_spec (length ps) 0) as [E0 | E0]; [destruct ps; [congruence | cbn in E0; lia]|].
  assert (Cd' : a_depth c' = 1%Z). { unfold c', aos_clamp. cbn [a_depth]. rewrite Cd. rewrite (data_dim d Od Nd). destruct (Z.ltb_spec (Z.of_nat (length (d_fnames d)) - 1) 1); lia. }
  apply (stuck_run d tr srt c' Cd'); auto. exists ps. split; [auto|]. split; [auto|]. split; [auto|]. split; [auto|]. intros p Ip. destruct (Ps p Ip) as (Lv & Lg & _). pose proof (live_lt _ _ Lv) as Lt. split; [lia|].
  destruct Lv as (n & En). exists n. destruct (Nd0 p n En) as (Fn & Tn & _). destruct (New p Ip) as (Rg & i & x & _ & _ & P). apply Permutation_length in P. cbn [length] in P. unfold tidy in Tn. assert (Ig : In (nth p gs []) gs) by (apply nth_In; lia). destruct (Gs _ Ig) as (Dg & Inc & _).
  split; [auto|]. split; [rewrite <- Tn, Fn; auto|]. rewrite Fn. split; [auto|]. split; [auto|]. split; [auto|]. unfold rg in Rg. rewrite En in Rg. injection Rg as ->. lra.
Qed.
(** A margin of 0, which the perceptron leaves in its solution; two of three features asked for, with the default of three children. *)
Lemma c115_forever_refuted_ex : flat fx (even_train 0) /\ a_depth (aos_new fx 2 3 0 0) = 1%Z /\ forall fuel, aos_select fuel (aos_new fx 2 3 0 0) (fun _ => fsort (fun x => - Rabs x)%R) (even_train 0) fx = Ok Running.
Proof.
  assert (Fl : flat fx (even_train 0)). { intros n keep e _ Ne. cbn. split; [auto|]. split; [apply repeat_length|]. split; [|lra]. exists 1%R. split; [|lra]. destruct (d_fnames e); [congruence | left; auto]. }
  split; [auto|]. split; [reflexivity|]. intro fuel. apply c115_forever_refuted; [apply fx_ok | discriminate | cbn; lia | auto | intros e l; apply fsort_ok | cbn; lra | unfold aos_new; cbn [a_cap]; lia | unfold aos_new; cbn [a_len]; lia | apply three_apart | apply three_roomy | cbn; lia | reflexivity].
Qed.
