(** The turns of the admissible ordered search. *)
From Coq Require Import ZArith Bool List Reals Permutation Sorted Lia Lra.
From Verif Require Import Base ListLib Loop M_Data S_Data L_Data L_Data2 L_Feat L_Join M_Point L_Vec M_Kmeans S_Fs T_Fs M_Pq S_Pq L_Pq T_Pq T_Prune T_Vis M_Aos S_Aos L_Aos L_Aos2 L_Aos3.
Import ListNotations.
Local Open Scope nat_scope.

Section Start.
Context (d : data R) (tr : nat -> data R -> bool * (list R * R)) (srt : data R -> list (Z * R) -> list (Z * R)).
Context (len width cap dn cut b : nat) (c : aos_cfg).
Notation N := (d_fnames d).
Notation FO := (front_ok d tr len width cap dn cut).
Notation mu := (mu dn b).
Let c1 := Nat.max cut 1.
Hypothesis Ca : a_cap c = cap.
Hypothesis Cc : a_cut c = cut.
Hypothesis Cb : a_breadth c = b.
Hypothesis Cd : Z.to_nat (a_depth c) = dn.
Hypothesis Gm : (a_gm c <= 0)%R.
Hypothesis Hl : 1 <= len.
Hypothesis Hc : 1 <= cap.
Hypothesis Ap : apart len N (S dn).
Hypothesis Ro : roomy len width N (S dn).
Hypothesis Hs : forall e l, Permutation (srt e l) l.
Hypothesis Od : data_ok d.
Hypothesis Nd : d_points d <> [].
Hypothesis Nl : 2 <= length N.
Hypothesis Dn : dn < length N.

(** The state between two turns. *)
Record fine (s : aos) (gs : list (list Z)) (ps : list nat) : Prop := {
  i_fo : FO (s_lool s) gs ps (s_st s) (s_tab s) (s_q s) (s_ws s);
  i_rec : recorded d tr (s_lool s) (s_part s);
  i_dn : s_lool s <= dn;
  i_b : s_lool s + b <= length N }.
Definition all_ok : Prop := forall k keep e, restricted keep d e -> fst (tr k e) = true.
Definition next (lool : nat) (gs : list (list Z)) (ps : list nat) : Prop := lool = dn \/ exists p, In p ps /\ length (nth p gs []) = S lool.


Hypothesis Aw : length (fst (snd (tr 0 d))) = length N /\ exists x, In x (fst (snd (tr 0 d))) /\ x <> 0%R.
Hypothesis Cl : a_len c = len.
Hypothesis Cw : a_width c = width.
Hypothesis Bl : b <= length N.
Lemma start_ok : exists s gs ps, aos_main c srt tr d (mkAos [] (vis_new (a_len c) (a_width c)) (pq_new (a_cap c)) [] 0 (copy d) 0) = Ok (Some s) /\
  fine s gs ps /\ mu (s_st s) gs ps <= b * turns b dn /\ (1 <= b -> ps <> []) /\ (b * turns b dn <= cap -> 1 <= b -> next (s_lool s) gs ps) /\ s_lool s = 0 /\ s_part s = d /\ s_n s = 1 /\
  (forall p, In p ps -> rg (s_st s) p = Some (-1)%R /\ exists i x, i < b /\ nth_error (srt d (map (fun i => (nth i (d_fnames d) 0%Z, nth i (fst (snd (tr 0 d))) 0%R)) (seq 0 (dim d)))) i = Some x /\ Permutation (nth p gs []) [fst x]).
Proof.
  assert (F : FO 0 [] [] [] (vis_new len width) (pq_new cap) []).
  { constructor; auto.
    - intros p n E. destruct p; discriminate.
    - intros f [].
    - cbn. apply repeat_length.
    - intros i rw E. cbn in E. assert (rw = []) as -> by (apply nth_error_In, repeat_spec in E; auto). split; [constructor | intros p []].
    - split; [cbn; rewrite repeat_length; lia|]. split; [cbn; lia|]. unfold g. cbn [pq_new pq_el]. apply nth_repeat.
    - split; auto.
    - constructor.
    - intros p [].
    - intros p n []. }
  pose proof (copy_ok d Od Nd) as Ce. assert (Rd : restricted (without []) d d) by exact (restricted_all d Od).
  destruct Aw as (W1 & W2). unfold aos_main. cbn [s_q s_n s_st s_tab s_ws s_lool s_part]. rewrite Cl, Cw, Ca. change (Nat.eqb (pq_size (pq_new cap)) 0) with true. cbv iota. destruct (tr 0 d) as (ok & w & margin). cbn [fst snd] in W1, W2 |- *.
  destruct (expand_ok d tr srt len width cap dn cut b c Ca Cc Cb Gm Hl Hc Ap Ro Hs 0 [] [] [] (vis_new len width) (pq_new cap) [] 0 [] d w margin (copy d) 1) as (_ & Xk); auto; try lia.
  { constructor. } { intros x []. } { apply data_dim; auto. }
  destruct (Xk ltac:(lia)) as (gs & ps & s & X1 & X2 & X3 & X4 & (Xp & Xn) & X5 & X6 & X7 & X8). exists s, gs, ps. split; [auto|]. rewrite Nat.sub_0_r in *. cbn [L_Aos3.mu map list_sum fold_right] in X5, X6. change (mu [] [] []) with 0 in X5, X6. cbn [plus] in X5, X6. cbn [Nat.max] in X3.
  split; [constructor; auto; rewrite X3; cbn; lia|]. split; [auto|]. split; [auto|]. split; [intros Hm B1; rewrite X3; right; apply X6; auto|]. split; [auto|]. split; [apply Xp; auto|]. split; [auto|]. intros p Ip. destruct (X8 p Ip) as [[] | X9]. auto.
Qed.
Lemma start_empty : b = 0 -> exists s gs ps, aos_main c srt tr d (mkAos [] (vis_new (a_len c) (a_width c)) (pq_new (a_cap c)) [] 0 (copy d) 0) = Ok (Some s) /\ fine s gs ps /\ ps = [].
Proof.
  intro B0. destruct start_ok as (s & gs & ps & A & F & M & _). exists s, gs, ps. split; [auto|]. split; [auto|]. rewrite B0 in M. cbn in M. pose proof (mu_length dn b (s_st s) gs ps). rewrite B0 in *. destruct ps; [auto | cbn [length] in *; lia].
Qed.
End Start.

Section Turns.
Context (d : data R) (tr : nat -> data R -> bool * (list R * R)) (srt : data R -> list (Z * R) -> list (Z * R)).
Context (len width cap dn cut b : nat) (c : aos_cfg).
Notation N := (d_fnames d).
Notation FO := (front_ok d tr len width cap dn cut).
Notation mu := (mu dn b).
Notation fine := (fine d tr len width cap dn cut b).
Notation all_ok := (all_ok d tr).
Notation next := (next dn).
Let c1 := Nat.max cut 1.
Hypothesis Ca : a_cap c = cap.
Hypothesis Cc : a_cut c = cut.
Hypothesis Cb : a_breadth c = b.
Hypothesis Cd : Z.to_nat (a_depth c) = dn.
Hypothesis Gm : (a_gm c <= 0)%R.
Hypothesis Hl : 1 <= len.
Hypothesis Hc : 1 <= cap.
Hypothesis Ap : apart len N (S dn).
Hypothesis Ro : roomy len width N (S dn).
Hypothesis Hs : forall e l, Permutation (srt e l) l.
Hypothesis Od : data_ok d.
Hypothesis Nd : d_points d <> [].
Hypothesis Nl : 2 <= length N.
Hypothesis Dn : dn < length N.
Hypothesis Ab : able d tr.

Lemma step_ok s gs ps : fine s gs ps -> pq_size (s_q s) <> 0 ->
  exists p n e, slot (pq_el (s_q s)) 1 = Ok p /\ deref (s_st s) p = Ok n /\ removeFeatures (copy d) (n_fnames n) = Ok (e, true) /\ copy e = e /\ (a_depth c = 0%Z -> ~ (0 < n_rgamma n)%R) /\
    ((aos_main c srt tr e s = UB /\ length N < dn + b) \/
     exists s' gs' ps', aos_main c srt tr e s = Ok (Some s') /\ fine s' gs' ps' /\ mu (s_st s') gs' ps' < mu (s_st s) gs ps /\
       (all_ok -> mu (s_st s) gs ps <= cap -> 1 <= b -> next (s_lool s) gs ps -> next (s_lool s') gs' ps')).
Proof.
  intros [F Rc Lb Lbb] Sz. pose proof F as [Gl Wl Nd0 Gs Le Wd Rw Ks Hh ND Ps Tr]. pose proof (front_live _ _ _ _ _ _ _ _ _ _ _ _ _ _ F) as Lv.
  destruct (pop_safe cap (s_st s) (s_q s) ps Ks Hh ND Lv Sz) as (p & h' & ps' & Pop & Sl & Ks' & Hh' & Pp & One & Sz').
  assert (Ip : In p ps) by (apply (Permutation_in _ (Permutation_sym Pp)); left; auto). destruct (Ps p Ip) as (Lp & Ll & Lc). fold c1 in Lc. destruct (deref_live _ _ Lp) as (n & En & De).
  destruct (Nd0 p n En) as (Fn & Tn & Vn & Rn). unfold tidy in Tn. pose proof (live_lt _ _ Lp) as Lps. set (f := nth p gs []) in *. assert (If : In f gs) by (apply nth_In; lia). destruct (Gs f If) as (Df & Inf & Lf).
  destruct (sub_ok d Od Nd f) as (e & Re & Ce & Oe & Rs & De2 & Lef); [intros E0; rewrite E0 in Lf; cbn in Lf; lia | apply desc_NoDup; auto | auto | lia |].
  assert (ND2 : NoDup (p :: ps')) by (apply (Permutation_NoDup Pp); auto). apply NoDup_cons_iff in ND2 as (Np & ND').
  assert (F' : FO (s_lool s) gs ps' (s_st s) (s_tab s) h' (s_ws s)). { apply (front_perm d tr len width cap dn cut _ _ ps _ _ (s_q s)); auto. intros x X. apply (Permutation_in _ (Permutation_sym Pp)). right. auto. }
  assert (Mu : mu (s_st s) gs ps = cost dn b (s_st s) gs p + mu (s_st s) gs ps') by (apply (sum_perm _ _ _ Pp)).
  assert (Cp := cost_pos dn b (s_st s) gs p).
  exists p, n, e. split; [auto|]. split; [auto|]. rewrite Fn. split; [auto|]. split; [auto|]. split.
  { intros D0 G. destruct (Tr p n Ip En G) as (_ & G2 & _). fold f in G2. rewrite D0 in Cd. change (Z.to_nat 0) with 0 in Cd. lia. }
  assert (Hn : n_level n = length f) by congruence.
  assert (Mv : aos_main c srt tr e s = if Nat.ltb dn (length f) then Ok (Some (mkAos (s_st s) (s_tab s) h' (s_ws s) (s_lool s) (s_part s) (s_n s))) else
        if Rlt_dec 0 (n_rgamma n) then
          let* w := vget (s_ws s) p in
          aos_expand c srt e (n_level n) (n_fnames n) w (n_rgamma n) (mkAos (s_st s) (s_tab s) h' (s_ws s) (s_lool s) (s_part s) (s_n s))
        else
          let '(ok, (w, margin)) := tr (s_n s) e in
          if negb ok then Ok (Some (mkAos (s_st s) (s_tab s) h' (s_ws s) (s_lool s) (s_part s) (S (s_n s)))) else
          let* st := assign (s_st s) p (mkNode (n_fnames n) (n_level n) margin (n_pgamma n) margin) in
          let* top := value_at st (pq_el h') 1 in
          if (if Rlt_dec margin top then true else false) || Nat.eqb (length f) dn then
            let* nw := vupd p (fun _ => w) (s_ws s) in
            let* i := pq_insert (a_cap c) st h' p false in
            Ok (Some (mkAos st (s_tab s) (snd i) nw (s_lool s) (s_part s) (S (s_n s))))
          else aos_expand c srt e (n_level n) (n_fnames n) w margin (mkAos st (s_tab s) h' (s_ws s) (s_lool s) (s_part s) (S (s_n s)))).
  { unfold aos_main. destruct (Nat.eqb_spec (pq_size (s_q s)) 0); [congruence|]. rewrite Pop. cbn [obind fst snd]. rewrite De. cbn [obind]. rewrite Hn.
    assert (Z1 : Z.ltb (a_depth c) (Z.of_nat (length f)) = Nat.ltb dn (length f)) by (destruct (Z.ltb_spec (a_depth c) (Z.of_nat (length f))); destruct (Nat.ltb_spec dn (length f)); auto; lia).
    assert (Z2 : Z.eqb (Z.of_nat (length f)) (a_depth c) = Nat.eqb (length f) dn) by (destruct (Z.eqb_spec (Z.of_nat (length f)) (a_depth c)); destruct (Nat.eqb_spec (length f) dn); auto; lia).
    rewrite Z1, Z2. reflexivity. }
  rewrite Mv. clear Mv. rewrite Hn, Fn. destruct (Nat.ltb_spec dn (length f)) as [Deep | Shal].
  { right. eexists _, gs, ps'. split; [reflexivity|]. split; [constructor; auto|]. cbn [s_st s_lool]. split; [lia|]. intros _ _ _ [E | (p0 & I0 & L0)]; [left; auto|]. apply (Permutation_in _ Pp) in I0 as [<- | I0]; [left; fold f in L0; lia | right; exists p0; auto]. }
  assert (Nxt : forall gs' pst lool', lool' = Nat.max (s_lool s) (length f) -> ((forall x, In x ps' -> lool' < length (nth x gs []) -> In x pst /\ nth x gs' [] = nth x gs []) /\ (s_lool s < length f \/ s_st s = [] -> exists x, In x pst /\ length (nth x gs' []) = S (length f))) ->
     next (s_lool s) gs ps -> next lool' gs' pst).
  { intros gs' pst lool' -> (K1 & K2) Nx. destruct (Nat.lt_ge_cases (s_lool s) (length f)) as [G | G]; [rewrite Nat.max_r by lia; right; apply K2; auto|]. rewrite Nat.max_l in * by lia. destruct Nx as [E | (p0 & I0 & L0)]; [left; auto|].
    apply (Permutation_in _ Pp) in I0 as [<- | I0]; [fold f in L0; lia|]. destruct (K1 p0 I0 ltac:(lia)) as (A & B). right. exists p0. split; [auto | congruence]. }
  assert (Cst : cost dn b (s_st s) gs p = (if Rlt_dec 0 (n_rgamma n) then 1 else 2) + b * turns b (dn - length f)).
  { unfold cost. fold f. replace (S dn - length f) with (S (dn - length f)) by lia. unfold rg. rewrite En. auto. }
  destruct (Rlt_dec 0 (n_rgamma n)) as [Tpos | Tneg].
  - destruct (Tr p n Ip En Tpos) as (G1 & G2 & G3 & k & e' & G4 & G5). fold f in G1, G2, G4. rewrite Re in G4. injection G4 as <-. unfold vget. rewrite (nth_error_nth' (s_ws s) []) by lia. cbn [obind].
    destruct (expand_ok d tr srt len width cap dn cut b c Ca Cc Cb Gm Hl Hc Ap Ro Hs (s_lool s) gs ps' (s_st s) (s_tab s) h' (s_ws s) (length f) f e (nth p (s_ws s) []) (n_rgamma n) (s_part s) (s_n s)) as (Xu & Xk); auto; try lia; [right; eauto|].
    destruct (Nat.lt_ge_cases (length N) (length f + b)) as [Ub | Fit]; [left; split; [auto | lia]|]. right. destruct (Xk Fit) as (gs' & pst & s' & X1 & X2 & X3 & X4 & (Xp & Xn) & X5 & X6 & _ & _).
    exists s', gs', pst. split; [auto|]. split; [constructor; auto; [lia | rewrite X3; lia]|]. split; [lia|]. intros _ Mc B1 Nx. rewrite X3. apply Nxt; auto. rewrite <- X3. rewrite X3. apply X6; lia.
  - destruct (tr (s_n s) e) as (ok & w & margin) eqn:Et. destruct ok; cbn [negb].
    2: { right. eexists _, gs, ps'. split; [reflexivity|]. split; [constructor; auto|]. cbn [s_st s_lool]. split; [lia|]. intros Al _ _ _. specialize (Al (s_n s) _ e Rs). rewrite Et in Al. discriminate. }
    destruct (Ab (s_n s) _ e Rs) as (W1 & W2 & W3). { intro E0. rewrite E0 in Lef. cbn in Lef. lia. } rewrite Et in W1, W2, W3. cbn [fst snd] in W1, W2, W3. specialize (W3 eq_refl).
    destruct (front_assign d tr len width cap dn cut (s_lool s) gs ps' (s_st s) (s_tab s) h' (s_ws s) p n margin F' Np En W3) as (st' & As & F2 & Ep & Oth). rewrite Fn, Hn in *. rewrite As. cbn [obind].
    assert (Lst : length st' = length (s_st s)) by (pose proof (f_gl _ _ _ _ _ _ _ _ _ _ _ _ _ _ F2); lia).
    assert (Va : exists v, value_at st' (pq_el h') 1 = Ok v).
    { pose proof Ks' as (K1 & K2 & K3). destruct ps' as [|x ps0].
      - eexists. apply value_at_g; [lia|]. rewrite (One eq_refl). exists p. split; [auto | eexists; eauto].
      - eexists. apply value_at_g; [lia|]. pose proof (front_live _ _ _ _ _ _ _ _ _ _ _ _ _ _ F2) as Lv2. destruct (pqok_of cap st' h' (x :: ps0) Ks' Hh' Lv2) as (_ & _ & _ & Al). apply Al. cbn [length] in Sz'. lia. }
    destruct Va as (v & ->). cbn [obind].
    assert (Rgo : forall x, In x ps' -> rg st' x = rg (s_st s) x) by (intros x X; unfold rg; rewrite Oth; auto; intros ->; auto).
    assert (Ms : mu st' gs ps' = mu (s_st s) gs ps') by (apply mu_same; auto).
    assert (Gd : good d tr dn f w). { split; [lia|]. split; [auto|]. split; [auto|]. exists (s_n s), e. rewrite Et. auto. }
    destruct ((if Rlt_dec margin v then true else false) || Nat.eqb (length f) dn).
    + destruct (front_keep d tr len width cap dn cut (s_lool s) gs ps' st' (s_tab s) h' (s_ws s) p w F2 Np ltac:(lia)) as (nw' & V & F3 & Wp). rewrite V. cbn [obind].
      destruct (front_insert d tr len width cap dn cut (s_lool s) gs ps' st' (s_tab s) h' nw' p false Hc F3) as (b1 & q1 & ps1 & In1 & F4 & I4 & P4 & _); auto.
      { eexists; eauto. } { intros m Em Rm. rewrite Wp. auto. }
      rewrite Ca, In1. cbn [obind snd]. right. eexists _, gs, ps1. split; [reflexivity|]. split; [constructor; auto|]. cbn [s_st s_lool]. split.
      * assert (H : mu st' gs ps1 <= mu st' gs (p :: ps')) by (apply sum_incl; [apply (f_nd _ _ _ _ _ _ _ _ _ _ _ _ _ _ F4) | auto]). change (mu st' gs (p :: ps')) with (cost dn b st' gs p + mu st' gs ps') in H.
        assert (Cn : cost dn b st' gs p = 1 + b * turns b (dn - length f)). { unfold cost. fold f. replace (S dn - length f) with (S (dn - length f)) by lia. unfold rg. rewrite Ep. cbn [n_rgamma]. destruct (Rlt_dec 0 margin); [auto | contradiction]. }
        lia.
      * intros _ Mc _ [E | (p0 & I0 & L0)]; [left; auto|]. right. exists p0. split; [|auto]. pose proof (mu_length dn b (s_st s) gs ps). apply Permutation_length in Pp as Lpp. cbn [length] in Lpp. apply (Permutation_in _ (Permutation_sym (P4 ltac:(lia)))). apply (Permutation_in _ Pp). auto.
    + destruct (expand_ok d tr srt len width cap dn cut b c Ca Cc Cb Gm Hl Hc Ap Ro Hs (s_lool s) gs ps' st' (s_tab s) h' (s_ws s) (length f) f e w margin (s_part s) (S (s_n s))) as (Xu & Xk); auto; try lia. { right. exists (s_n s). rewrite Et. auto. }
      destruct (Nat.lt_ge_cases (length N) (length f + b)) as [Ub | Fit]; [left; split; [auto | lia]|]. right. destruct (Xk Fit) as (gs' & pst & s' & X1 & X2 & X3 & X4 & (Xp & Xn) & X5 & X6 & _ & _).
      exists s', gs', pst. split; [auto|]. split; [constructor; auto; [lia | rewrite X3; lia]|]. split; [lia|]. intros _ Mc B1 Nx. rewrite X3. apply Nxt; auto. destruct X6 as (X6 & X7); [lia | lia |]. split; [auto|]. intros [G | G]; [auto|]. exfalso. rewrite G in Lps. cbn in Lps. lia.
Qed.

Lemma fine_size s gs ps : fine s gs ps -> pq_size (s_q s) = length ps.
Proof. intros [F _ _ _]. destruct (f_holds _ _ _ _ _ _ _ _ _ _ _ _ _ _ F) as (_ & H). auto. Qed.
Lemma loop_ok : forall fuel s gs ps, fine s gs ps ->
  (aos_loop fuel c srt tr d s = Ok Running /\ fuel <= mu (s_st s) gs ps) \/
  (exists lool part, aos_loop fuel c srt tr d s = Ok (Done part) /\ recorded d tr lool part /\ lool <= dn /\ lool + b <= length N /\
     (all_ok -> mu (s_st s) gs ps <= cap -> 1 <= b -> next (s_lool s) gs ps -> lool = dn)) \/
  (aos_loop fuel c srt tr d s = UB /\ length N < dn + b).
Proof.
  induction fuel as [|fuel IH]; intros s gs ps Fs; [left; split; [auto | lia]|]. cbn [aos_loop]. destruct (Nat.eqb_spec (pq_size (s_q s)) 0) as [Z0 | Nz].
  - right. left. exists (s_lool s), (s_part s). destruct Fs as [F Rc Lb Lbb]. split; [auto|]. split; [auto|]. split; [auto|]. split; [auto|]. intros _ _ _ [E | (p & I & _)]; [auto|]. destruct (f_holds _ _ _ _ _ _ _ _ _ _ _ _ _ _ F) as (_ & H). destruct ps; [contradiction | cbn [length] in H; lia].
  - destruct (step_ok s gs ps Fs Nz) as (p & n & e & Sl & De & Re & Ce & Dz & St). rewrite Sl. cbn [obind]. rewrite De. cbn [obind]. rewrite Re. cbn [obind fst]. rewrite Ce.
    assert (Stop : Z.eqb (Z.of_nat (dim d)) (Z.of_nat (dim d) - a_depth c) && (if Rlt_dec 0 (n_rgamma n) then true else false) = false).
    { destruct (Z.eqb_spec (Z.of_nat (dim d)) (Z.of_nat (dim d) - a_depth c)) as [E | E]; [|auto]. cbn [andb]. destruct (Rlt_dec 0 (n_rgamma n)); [exfalso; apply Dz; [lia | auto] | auto]. }
    rewrite Stop. destruct St as [(-> & H) | (s' & gs' & ps' & -> & F' & M' & Nx)]; cbn [obind]; [right; right; auto|].
    destruct (IH s' gs' ps' F') as [(A & B) | [(lool & part & A & B1 & B2 & B3 & B4) | A]]; [left; split; [auto | lia] | right; left | right; right; auto].
    exists lool, part. split; [auto|]. split; [auto|]. split; [auto|]. split; [auto|]. intros H1 H2 H3 H4. apply B4; auto. lia.
Qed.

Hypothesis Cl : a_len c = len.
Hypothesis Cw : a_width c = width.
Hypothesis Bl : b <= length N.
End Turns.
