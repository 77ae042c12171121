(** The steps of the admissible ordered search. *)
From Coq Require Import ZArith Bool List Reals Permutation Sorted Lia Lra.
From Verif Require Import Base ListLib Loop M_Data S_Data L_Data L_Data2 L_Feat L_Join M_Point L_Point T_Point L_Vec M_Kmeans S_Fs T_Fs M_Pq S_Pq L_Pq T_Pq T_Prune T_Vis M_Aos S_Aos L_Aos L_Aos2.
Import ListNotations.
Local Open Scope nat_scope.

Lemma sum_incl (h : nat -> nat) : forall l' l, NoDup l' -> incl l' l -> list_sum (map h l') <= list_sum (map h l).
Proof.
  induction l' as [|x l' IH]; intros l ND I; [cbn; lia|]. inversion ND as [|? ? Nx N2]; subst. destruct (in_split x l (I x (or_introl eq_refl))) as (a & b & ->).
  assert (H : incl l' (a ++ b)). { intros y Y. assert (In y (a ++ x :: b)) as J by (apply I; right; auto). apply in_app_or in J as [J | [-> | J]]; [apply in_or_app; auto | tauto | apply in_or_app; auto]. }
  specialize (IH _ N2 H). rewrite map_app, list_sum_app in *. cbn [map list_sum fold_right] in *. unfold list_sum in *. cbn [fold_right]. lia.
Qed.
Lemma sum_perm (h : nat -> nat) l l' : Permutation l l' -> list_sum (map h l) = list_sum (map h l').
Proof. induction 1; unfold list_sum in *; cbn [map fold_right] in *; lia. Qed.
Lemma sum_ext (h h' : nat -> nat) l : (forall x, In x l -> h x = h' x) -> list_sum (map h l) = list_sum (map h' l).
Proof. intro H. f_equal. apply map_ext_in. auto. Qed.
Lemma turns_pos b k : 1 <= turns b k.
Proof. destruct k; cbn; lia. Qed.
Lemma projected_nonneg dim i x y m : (0 <= aos_projected dim i x y m)%R.
Proof. unfold aos_projected. destruct (Nat.ltb 1 dim); [apply sqrt_pos | lra]. Qed.
Lemma norm_pos w : (exists x, In x w /\ x <> 0%R) -> exists n, pnorm2 w = Ok n /\ n <> 0%R.
Proof.
  intros (x & Ix & Nx). destruct (c24_dot w w w 0 eq_refl eq_refl) as (ab & ba & ac & kab & aa & n & _ & _ & _ & _ & E & P & _ & _ & N0 & N1 & N2 & _).
  exists n. split; [auto|]. intros ->. apply Nx, N2; auto. lra.
Qed.

Section Cost.
Context (dn b : nat).
(** A bound on the turns still to be spent on a node of the queue. *)
Definition cost (st : store) (gs : list (list Z)) (p : nat) : nat :=
  match S dn - length (nth p gs []) with
  | 0 => 1
  | S j => (match rg st p with Some x => if Rlt_dec 0 x then 1 else 2 | None => 2 end) + b * turns b j
  end.
Definition mu (st : store) (gs : list (list Z)) (ps : list nat) : nat := list_sum (map (cost st gs) ps).
Lemma cost_pos st gs p : 1 <= cost st gs p.
Proof using. unfold cost. destruct (S dn - _); [lia|]. destruct (rg st p); [destruct (Rlt_dec 0 r)|]; lia. Qed.
Lemma mu_length st gs ps : length ps <= mu st gs ps.
Proof using. unfold mu. induction ps as [|p ps IH]; [cbn; lia|]. unfold list_sum in *. cbn [map fold_right length]. pose proof (cost_pos st gs p). lia. Qed.
Lemma mu_same st gs st' gs' ps : (forall p, In p ps -> rg st' p = rg st p /\ nth p gs' [] = nth p gs []) -> mu st' gs' ps = mu st gs ps.
Proof. intro H. apply sum_ext. intros p I. destruct (H p I) as (A & B). unfold cost. rewrite A, B. auto. Qed.
End Cost.

Section Steps.
Context (d : data R) (tr : nat -> data R -> bool * (list R * R)) (srt : data R -> list (Z * R) -> list (Z * R)).
Context (len width cap dn cut b : nat) (c : aos_cfg).
Notation N := (d_fnames d).
Notation FO := (front_ok d tr len width cap dn cut).
Notation cost := (cost dn b).
Notation mu := (mu dn b).
Let c1 := Nat.max cut 1.
Hypothesis Ca : a_cap c = cap.
Hypothesis Cc : a_cut c = cut.
Hypothesis Cb : a_breadth c = b.
Hypothesis Gm : (a_gm c <= 0)%R.
Hypothesis Hl : 1 <= len.
Hypothesis Hc : 1 <= cap.
Hypothesis Ap : apart len N (S dn).
Hypothesis Ro : roomy len width N (S dn).

(** One child. *)
Lemma branch_ok lool gs ps st tab q nw level ofn dim ws wnorm margin i x : FO lool gs ps st tab q nw ->
  desc ofn -> incl ofn N -> length ofn = level -> level <= dn -> level <= lool -> lool < level + c1 ->
  nth_error ws i = Some x -> In (fst x) N -> ~ In (fst x) ofn ->
  exists r st1 tab1 q1 ps1, aos_branch c level ofn dim ws wnorm margin (st, tab, q, nw) i = Ok (st1, tab1, q1, nw ++ [[]]) /\
    Permutation r (fst x :: ofn) /\ FO lool (gs ++ [r]) ps1 st1 tab1 q1 (nw ++ [[]]) /\ length st1 = S (length st) /\
    incl ps1 (length st :: ps) /\ (forall p, p < length st -> rg st1 p = rg st p) /\ (In (length st) ps1 -> rg st1 (length st) = Some (-1)%R) /\
    mu st1 (gs ++ [r]) ps1 <= mu st gs ps + turns b (dn - level) /\
    (length ps < cap -> incl ps ps1 /\ ((forall i rw p, nth_error (t_rows tab) i = Some rw -> In p rw -> length (nth p gs []) <= level) -> In (length st) ps1)) /\ (ps <> [] \/ (forall i rw p, nth_error (t_rows tab) i = Some rw -> In p rw -> length (nth p gs []) <= level) -> ps1 <> []).
Proof.
  intros F Do Io Lo Ld Ll Lc Ei Ix Nx. destruct (names_ok ofn (fst x)) as (r & Er & Dr & Pr & Lr); [apply desc_NoDup; auto | auto|].
  set (tp := aos_projected dim i (snd x) wnorm margin). pose proof (projected_nonneg dim i (snd x) wnorm margin) as Tp. fold tp in Tp.
  assert (Ir : incl r N). { intros y Y. apply (Permutation_in _ Pr) in Y as [<- | Y]; auto. }
  destruct (front_add d tr len width cap dn cut lool gs ps st tab q nw r level tp) as (b0 & st1 & tab1 & V & F1 & L1 & New & Fresh & Rg); auto; try lia.
  pose proof F as [Gl Wl _ _ _ _ _ Ks Hh ND Ps _].
  assert (Pl : forall p, In p ps -> p < length st) by (intros p I; apply live_lt, Ps; auto).
  assert (Gold : forall p, p < length st -> nth p (gs ++ [r]) [] = nth p gs []) by (intros; rewrite app_nth1; auto; lia).
  assert (Gnew : nth (length st) (gs ++ [r]) [] = r) by (rewrite app_nth2, Gl, Nat.sub_diag by lia; auto).
  assert (Ms : mu st1 (gs ++ [r]) ps = mu st gs ps) by (apply mu_same; intros p I; split; auto).
  unfold aos_branch. unfold vget at 1. rewrite Ei. cbn [obind]. fold tp. rewrite Lo in Er. rewrite Er. cbn [obind]. rewrite V. cbn [obind].
  assert (Skip : negb (Nat.eqb i 0) && (if Rlt_dec tp ((1 - 5 / 100) * a_gm c) then true else false) = false) by (destruct (Rlt_dec tp _); [exfalso; lra | apply andb_false_r]). rewrite Skip.
  destruct b0.
  - specialize (New eq_refl). assert (Lv : live st1 (length st)) by (eexists; eauto).
    destruct (front_insert d tr len width cap dn cut lool (gs ++ [r]) ps st1 tab1 q (nw ++ [[]]) (length st) true) as (b1 & q1 & ps1 & In1 & F2 & I2 & P2 & N2); auto.
    { intro I. apply Pl in I. lia. } { rewrite Gnew. lia. } { rewrite Gnew. fold c1. lia. } { intros n E Rn. rewrite New in E. injection E as <-. cbn in Rn. lra. }
    rewrite Ca, In1. cbn [obind snd]. exists r, st1, tab1, q1, ps1. split; [auto|]. split; [auto|]. split; [auto|]. split; [auto|]. split; [auto|]. split; [auto|].
    assert (Rn : rg st1 (length st) = Some (-1)%R) by (unfold rg; rewrite New; auto). split; [auto|]. split.
    + assert (H : mu st1 (gs ++ [r]) ps1 <= mu st1 (gs ++ [r]) (length st :: ps)) by (apply sum_incl; [apply (f_nd _ _ _ _ _ _ _ _ _ _ _ _ _ _ F2) | auto]).
      etransitivity; [exact H|]. change (mu st1 (gs ++ [r]) (length st :: ps)) with (cost st1 (gs ++ [r]) (length st) + mu st1 (gs ++ [r]) ps). rewrite Ms. unfold cost. rewrite Gnew, Rn, Lr, Lo.
      replace (S dn - S level) with (dn - level) by lia. destruct (Rlt_dec 0 (-1)); [exfalso; lra|]. destruct (dn - level); cbn [turns]; lia.
    + split; [|auto]. intro Sz. destruct Hh as (_ & Hs). specialize (P2 ltac:(lia)). split; [intros p I; apply (Permutation_in _ (Permutation_sym P2)); right; auto|]. intros _. apply (Permutation_in _ (Permutation_sym P2)). left. auto.
  - exists r, st1, tab1, q, ps. split; [auto|]. split; [auto|]. split; [auto|]. split; [auto|]. split; [intros p I; right; auto|]. split; [auto|]. split; [intro I; apply Pl in I; lia|]. split; [rewrite Ms; lia|].
    assert (Nf : ~ (forall i rw p, nth_error (t_rows tab) i = Some rw -> In p rw -> length (nth p gs []) <= level)).
    { intro H. assert (false = true); [|discriminate]. apply Fresh. intros j rw p J Ip Q. specialize (H j rw p J Ip). rewrite Q in H. lia. }
    split; [|intros [Hp | Hp]; tauto]. intros _. split; [apply incl_refl | tauto].
Qed.

(** All children. *)
Lemma branches_ok lool level ofn dim ws wnorm margin : desc ofn -> incl ofn N -> length ofn = level -> level <= dn -> level <= lool -> lool < level + c1 ->
  (forall x, In x ws -> In (fst x) N /\ ~ In (fst x) ofn) ->
  forall is gs ps st tab q nw, FO lool gs ps st tab q nw -> (forall i, In i is -> i < length ws) ->
  exists gs' ps' st' tab' q' nw', ofold (aos_branch c level ofn dim ws wnorm margin) is (st, tab, q, nw) = Ok (st', tab', q', nw') /\ FO lool gs' ps' st' tab' q' nw' /\
    (forall p, p < length st -> rg st' p = rg st p /\ nth p gs' [] = nth p gs []) /\ length st <= length st' /\ mu st' gs' ps' <= mu st gs ps + length is * turns b (dn - level) /\
    (mu st gs ps + length is * turns b (dn - level) <= cap -> incl ps ps' /\ (is <> [] -> (forall i rw p, nth_error (t_rows tab) i = Some rw -> In p rw -> length (nth p gs []) <= level) -> exists p, In p ps' /\ length (nth p gs' []) = S level)) /\
    (ps <> [] \/ is <> [] /\ (forall i rw p, nth_error (t_rows tab) i = Some rw -> In p rw -> length (nth p gs []) <= level) -> ps' <> []) /\
    (forall p, In p ps' -> In p ps \/ rg st' p = Some (-1)%R /\ exists i x, In i is /\ nth_error ws i = Some x /\ Permutation (nth p gs' []) (fst x :: ofn)).
Proof.
  intros Do Io Lo Ld Ll Lc Ws. induction is as [|i is IH]; intros gs ps st tab q nw F Hi.
  - exists gs, ps, st, tab, q, nw. cbn [ofold length]. split; [auto|]. split; [auto|]. split; [auto|]. split; [lia|]. split; [lia|]. split; [|split; [intros [Hp | (Hp & _)]; [auto | congruence] | auto]]. intros _. split; [apply incl_refl | congruence].
  - destruct (nth_error ws i) as [x|] eqn:Ex; [|apply nth_error_None in Ex; specialize (Hi i (or_introl eq_refl)); lia]. destruct (Ws x (nth_error_In _ _ Ex)) as (W1 & W2).
    destruct (branch_ok lool gs ps st tab q nw level ofn dim ws wnorm margin i x F Do Io Lo Ld Ll Lc Ex W1 W2) as (r & st1 & tab1 & q1 & ps1 & B1 & Pr & F1 & L1 & I1 & R1 & Rn1 & M1 & K1 & E1).
    destruct (IH (gs ++ [r]) ps1 st1 tab1 q1 (nw ++ [[]]) F1) as (gs' & ps' & st' & tab' & q' & nw' & B2 & F2 & R2 & L2 & M2 & K2 & E2 & W3); [intros; apply Hi; right; auto|].
    exists gs', ps', st', tab', q', nw'. cbn [ofold]. rewrite B1. cbn [obind]. split; [auto|]. split; [auto|]. pose proof F as [Gl _ _ _ _ _ _ _ _ _ _ _]. split.
    + intros p P. destruct (R2 p ltac:(lia)) as (A & B). rewrite A, B, R1, app_nth1 by lia. auto.
    + split; [lia|]. cbn [length]. split; [lia|]. split; [|split; [intro Hp; apply E2; left; apply E1; tauto|]].
      2: { intros p Ip. destruct (W3 p Ip) as [I3 | (A3 & j & y & B3 & C3 & D3)]; [|right; split; [auto|]; exists j, y; split; [right; auto | auto]]. pose proof (I1 p I3) as [<- | J]; [right | left; auto].
        destruct (R2 (length st) ltac:(lia)) as (-> & ->). split; [auto|]. exists i, x. split; [left; auto|]. split; [auto|]. rewrite app_nth2, Gl, Nat.sub_diag by lia. auto. }
      intro Sz. pose proof (mu_length dn b st gs ps) as Ml. pose proof (turns_pos b (dn - level)). destruct K1 as (K1 & N1); [lia|]. destruct K2 as (K2 & _); [lia|].
      split; [intros p I; apply K2, K1; auto|]. intros _ Fr. exists (length st). split; [apply K2, N1, Fr|]. destruct (R2 (length st) ltac:(lia)) as (_ & ->). rewrite app_nth2, Gl, Nat.sub_diag by lia. cbn [nth]. apply Permutation_length in Pr. cbn [length] in Pr. lia.
Qed.
Lemma branches_ub lool level ofn dim ws wnorm margin : desc ofn -> incl ofn N -> length ofn = level -> level <= dn -> level <= lool -> lool < level + c1 ->
  (forall x, In x ws -> In (fst x) N /\ ~ In (fst x) ofn) ->
  forall n gs ps st tab q nw, FO lool gs ps st tab q nw -> length ws < n -> ofold (aos_branch c level ofn dim ws wnorm margin) (seq 0 n) (st, tab, q, nw) = UB.
Proof.
  intros Do Io Lo Ld Ll Lc Ws n gs ps st tab q nw F Hn. replace n with (length ws + S (n - S (length ws))) by lia. rewrite seq_app. rewrite Loop.ofold_app.
  destruct (branches_ok lool level ofn dim ws wnorm margin Do Io Lo Ld Ll Lc Ws (seq 0 (length ws)) gs ps st tab q nw F) as (gs' & ps' & st' & tab' & q' & nw' & B2 & _). { intros i I. apply in_seq in I. lia. }
  rewrite B2. cbn [obind]. cbn [seq ofold]. unfold aos_branch. cbn [plus]. assert (vget ws (length ws) = UB) as ->; [|auto]. unfold vget. destruct (nth_error ws (length ws)) eqn:E; [|auto]. assert (length ws < length ws) by (apply nth_error_Some; congruence). lia.
Qed.

Hypothesis Hs : forall e l, Permutation (srt e l) l.
(** What is known of a recorded dataset. *)
Definition recorded (lool : nat) (part : data R) : Prop :=
  exists fs, restricted (without fs) d part /\ desc fs /\ incl fs N /\ length fs = lool /\ (fs = [] \/ exists k, fst (tr k part) = true).
Definition flow (part : data R) (lool lool' : nat) (part' : data R) := recorded lool part -> recorded lool' part'.
Lemma expand_ok lool gs ps st tab q nw level ofn e w margin part n : FO lool gs ps st tab q nw ->
  desc ofn -> incl ofn N -> length ofn = level -> level <= dn -> level <= S lool -> lool < level + c1 ->
  restricted (without ofn) d e -> copy e = e -> dim e = length (d_fnames e) -> length (d_fnames e) + level = length N -> length w = length (d_fnames e) -> (exists x, In x w /\ x <> 0%R) ->
  (ofn = [] \/ exists k, fst (tr k e) = true) -> (level = 0 -> lool = 0) ->
  (length N < level + b -> aos_expand c srt e level ofn w margin (mkAos st tab q nw lool part n) = UB) /\
  (level + b <= length N -> exists gs' ps' s', aos_expand c srt e level ofn w margin (mkAos st tab q nw lool part n) = Ok (Some s') /\
    FO (s_lool s') gs' ps' (s_st s') (s_tab s') (s_q s') (s_ws s') /\ s_lool s' = Nat.max lool level /\ (recorded lool part \/ level = 0 -> recorded (s_lool s') (s_part s')) /\ ((lool < level \/ level = 0 -> s_part s' = e) /\ s_n s' = n) /\
    mu (s_st s') gs' ps' <= mu st gs ps + b * turns b (dn - level) /\
    (mu st gs ps + b * turns b (dn - level) <= cap -> 1 <= b ->
      (forall p, In p ps -> Nat.max lool level < length (nth p gs []) -> In p ps' /\ nth p gs' [] = nth p gs []) /\ (lool < level \/ st = [] -> exists p, In p ps' /\ length (nth p gs' []) = S level)) /\
    (1 <= b -> lool < level \/ st = [] -> ps' <> []) /\
    (forall p, In p ps' -> In p ps \/ rg (s_st s') p = Some (-1)%R /\ exists i x, i < b /\ nth_error (srt e (map (fun i => (nth i (d_fnames e) 0%Z, nth i w 0%R)) (seq 0 (dim e)))) i = Some x /\ Permutation (nth p gs' []) (fst x :: ofn))).
Proof.
  intros F Do Io Lo Ld Ll Lc Re Ce De Le Lw Nw Tk L0.
  set (lool' := if Nat.ltb lool level then level else lool). assert (Lm : lool' = Nat.max lool level) by (unfold lool'; destruct (Nat.ltb_spec lool level); lia).
  assert (Cl : exists st1 q1 part1 ps1, aos_close c e level lool' (Nat.ltb lool level) st q part = Ok (st1, q1, part1) /\ FO lool' gs ps1 st1 tab q1 nw /\ incl ps1 ps /\ length st1 = length st /\ (forall p, In p ps1 -> rg st1 p = rg st p) /\
    (forall p, In p ps -> lool' < length (nth p gs []) -> In p ps1) /\ (recorded lool part \/ level = 0 -> recorded lool' part1) /\ (lool < level \/ level = 0 -> part1 = e)).
  { unfold aos_close. destruct (Nat.eqb lool' level && (Nat.ltb lool level || Nat.eqb level 0)) eqn:Q.
    - destruct (front_prune d tr len width cap dn cut lool lool' gs ps st tab q nw (a_gm c) F ltac:(lia) Gm) as (st1 & q1 & ps1 & P1 & P2 & P3 & P4 & P5 & P6). rewrite Cc, P1. cbn [obind fst snd].
      do 4 eexists. split; [reflexivity|]. split; [exact P2|]. repeat (split; [auto; fail|]). rewrite !Ce. split; [|auto]. intros _. exists ofn. apply andb_true_iff in Q as (Q & _). apply Nat.eqb_eq in Q. split; [auto|]. split; [auto|]. split; [auto|]. split; [lia | auto].
    - exists st, q, part, ps. split; [auto|]. destruct (Nat.ltb lool level) eqn:Lb.
      + exfalso. apply Nat.ltb_lt in Lb. unfold lool' in Q. cbn [orb] in Q. rewrite Nat.eqb_refl in Q. discriminate.
      + assert (lool' = lool) as -> by auto. split; [auto|]. split; [apply incl_refl|]. split; [auto|]. split; [auto|]. split; [auto|]. assert (Lz : level <> 0) by (intro Lz; rewrite Lz, (L0 Lz) in Q; cbn in Q; discriminate). apply Nat.ltb_ge in Lb. split; [intros [Rp | Rp]; [auto | contradiction] | intros [Rp | Rp]; [lia | contradiction]]. }
  destruct Cl as (st1 & q1 & part1 & ps1 & Cl & F1 & I1 & L1 & R1 & K1 & Rc & Pe).
  destruct (norm_pos w Nw) as (wn & Wn & Wn0).
  set (ws := map (fun i => (nth i (d_fnames e) 0%Z, nth i w 0%R)) (seq 0 (dim e))).
  assert (Mo : map_outcome (fun i => let* x := vget w i in let* f := vget (d_fnames e) i in Ok (f, x)) (seq 0 (dim e)) = Ok ws).
  { apply map_outcome_Ok. intros i I. apply in_seq in I. unfold vget. rewrite (nth_error_nth' w 0%R) by lia. cbn [obind]. rewrite (nth_error_nth' (d_fnames e) 0%Z) by lia. auto. }
  assert (Ws : forall x, In x (srt e ws) -> In (fst x) N /\ ~ In (fst x) ofn).
  { intros x Ix. apply (Permutation_in _ (Hs e ws)) in Ix. unfold ws in Ix. apply in_map_iff in Ix as (i & <- & I). apply in_seq in I. cbn [fst]. assert (Ie : In (nth i (d_fnames e) 0%Z) (d_fnames e)) by (apply nth_In; lia).
    destruct Re as (Rf & _). rewrite Rf in Ie at 2. apply filter_In in Ie as (I2 & Wo). split; [auto|]. rewrite without_mem in Wo. intro Io2. apply memZ_In in Io2. rewrite Io2 in Wo. discriminate. }
  assert (Lws : length (srt e ws) = length N - level) by (rewrite (Permutation_length (Hs e ws)); unfold ws; rewrite map_length, seq_length; lia).
  unfold aos_expand. cbn [s_lool s_st s_tab s_q s_ws s_part s_n]. fold lool'. rewrite Cl. cbn [obind]. rewrite Mo. cbn [obind]. rewrite Wn. cbn [obind].
  assert (Nn : Nat.ltb 1 (dim e) && (if Req_EM_T wn 0 then true else false) = false) by (destruct (Req_EM_T wn 0); [congruence | apply andb_false_r]). rewrite Nn. rewrite Cb. split.
  - intro Hb. rewrite (branches_ub lool' level ofn (dim e) (srt e ws) wn margin Do Io Lo Ld ltac:(lia) ltac:(lia) Ws b gs ps1 st1 tab q1 nw F1) by lia. auto.
  - intro Hb. destruct (branches_ok lool' level ofn (dim e) (srt e ws) wn margin Do Io Lo Ld ltac:(lia) ltac:(lia) Ws (seq 0 b) gs ps1 st1 tab q1 nw F1) as (gs' & ps' & st' & tab' & q' & nw' & B2 & F2 & R2 & L2 & M2 & K2 & E2 & W3). { intros i I. apply in_seq in I. lia. }
    rewrite B2. cbn [obind]. exists gs', ps'. eexists. split; [reflexivity|]. cbn [s_lool s_st s_tab s_q s_ws s_part s_n]. split; [auto|]. split; [auto|]. split; [auto|]. split; [auto|]. rewrite seq_length in *.
    assert (Mm : mu st1 gs ps1 <= mu st gs ps). { rewrite (mu_same dn b st gs) by (intros p I; split; auto). apply sum_incl; [apply (f_nd _ _ _ _ _ _ _ _ _ _ _ _ _ _ F1) | auto]. }
    assert (Fre : lool < level \/ st = [] -> forall i rw p, nth_error (t_rows tab) i = Some rw -> In p rw -> length (nth p gs []) <= level).
    { intros Fr i rw p Ei Ip. pose proof F as [_ _ _ _ _ _ Rw _ _ _ _ _]. destruct (Rw _ _ Ei) as (_ & Rp). destruct (Rp p Ip) as (P1 & _ & P3 & _). destruct Fr as [Fr | ->]; [lia | cbn in P1; lia]. }
    assert (Sq : 1 <= b -> seq 0 b <> []) by (destruct b; [lia | discriminate]).
    split; [lia|]. split; [|split; [intros Hb1 Fr; apply E2; right; split; [apply Sq; auto | apply Fre; auto]|]].
    2: { intros p Ip. destruct (W3 p Ip) as [I3 | (A3 & j & y & B3 & C3 & D3)]; [left; auto | right; split; [auto|]; exists j, y; apply in_seq in B3; split; [lia | auto]]. }
    intros Sz Hb1. destruct K2 as (K2 & K3); [lia|]. split; [|intro Fr; apply K3; [apply Sq; auto | apply Fre; auto]].
    intros p I G. rewrite <- Lm in G. split; [apply K2, K1; auto|]. apply R2. apply live_lt. apply (f_ps _ _ _ _ _ _ _ _ _ _ _ _ _ _ F1). apply K1; auto.
Qed.
End Steps.
