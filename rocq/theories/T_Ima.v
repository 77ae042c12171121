(** Properties of the incremental margin algorithm. *)
From Coq Require Import ZArith Bool List Lia Reals Lra Psatz Permutation.
From Verif Require Import Base ListLib M_Data M_Point L_Vec Loop M_Kernel S_Kernel L_Kernel M_Perc S_Perc L_Perc T_Perc L_Knn L_Smo M_Fixed S_Fixed L_Fixed T_Fixed M_Ima S_Ima L_Ima.
Import ListNotations.
Local Open Scope R_scope.

Section Loop.
Variable pw : R -> R -> R.
Variable kind : qnorm.
Variable pr : params.
Variable flex eps aprox big : R.
Variable d : data R.
Hypothesis HR : rect d.
Hypothesis HQ : kind = L1 -> (0 < dim d)%nat.
Local Notation n := (dim d).
Local Notation m := (size d).
Local Notation v s func i := ((nz func i + IZR (p_y (pt d i)) * nz (f_al s) i * flex) / f_norm s).

(** What the scan finds. *)
Definition scanned (s : fstate) (func : vec) (mn mx : R) : Prop :=
  (f_norm s = 0 -> mn = big /\ mx = - big) /\
  (0 < f_norm s -> mn <= big /\ - big <= mx /\
    (forall i, (i < m)%nat -> 0 <= v s func i -> mn <= v s func i) /\ (forall i, (i < m)%nat -> v s func i < 0 -> v s func i <= mx) /\
    (mn = big \/ exists i, (i < m)%nat /\ 0 <= v s func i /\ mn = v s func i) /\ (mx = - big \/ exists i, (i < m)%nat /\ v s func i < 0 /\ mx = v s func i)).

Lemma body_ok st s func steps : length func = m -> length (f_al s) = m -> length (f_w s) = n ->
  exists mn mx st', scanned s func mn mx /\ ima_body flex aprox big d st s func steps = Ok st' /\
    f_w (im_f st') = f_w s /\ f_al (im_f st') = f_al s /\ f_index (im_f st') = f_index s /\ f_norm (im_f st') = f_norm s /\
    im_it st' = S (im_it st) /\ im_w st' = f_w s /\ im_b st' = f_b s /\ im_norm st' = f_norm s /\ im_margin st' = (Rabs mx + Rabs mn) / 2 /\
    im_printed st' = im_printed st ++ [(Rabs mx + Rabs mn) / 2] /\
    (mn - mx) / 2 <= im_gamma st' /\ (1 + aprox) * Rmin (Rabs mx) (Rabs mn) <= im_gamma st' /\ (im_gamma st' = (mn - mx) / 2 \/ im_gamma st' = (1 + aprox) * Rmin (Rabs mx) (Rabs mn)).
Proof using.
  clear HR HQ. intros Lf La Lw. destruct (scan_ok big flex (f_norm s) d func (f_al s) Lf La) as (mn & mx & E & A & B). exists mn, mx. unfold ima_body. rewrite E. cbn [obind].
  rewrite (map_outcome_ok _ (nz (f_w s))).
  2:{ intros j Hj. apply in_seq in Hj. destruct (nth_error (f_w s) j) eqn:EN; [unfold nz; rewrite (nth_error_nth _ _ _ EN); reflexivity|]. apply nth_error_None in EN. lia. }
  cbn [obind]. eexists. split; [split; [exact A|exact B]|]. split; [reflexivity|]. cbn [im_f f_w f_al f_index f_norm im_it im_w im_b im_norm im_margin im_printed im_gamma].
  assert (map (nz (f_w s)) (seq 0 n) = f_w s) as EW. { apply nz_ext; [rewrite map_length, seq_length; auto|]. intros j Hj. rewrite map_length, seq_length in Hj. apply nz_map_seq. exact Hj. }
  rewrite EW. cbv zeta.
  assert ((if Rlt_dec (Rabs mx) (Rabs mn) then Rabs mx else Rabs mn) = Rmin (Rabs mx) (Rabs mn)) as ER. { unfold Rmin. destruct (Rlt_dec _ _), (Rle_dec _ _); lra. }
  rewrite ER. do 10 (split; [reflexivity|]). clear ER. destruct (Rlt_dec _ _) as [L|L]; [apply Rlt_le in L|apply Rnot_lt_le in L]; (split; [first [exact L|apply Rle_refl]|]); (split; [first [exact L|apply Rle_refl]|]); auto.
Qed.

(** A property [Q] of weights and norm that every update keeps, and a property [K] of what is saved that every successful call keeps, hold at the end. *)
Lemma ima_inv (Q : vec -> R -> Prop) (K : nat -> R -> vec -> R -> R -> R -> list R -> Prop) clk stop :
  (forall rt gamma idx s s', (idx < m)%nat -> length (f_w s) = n -> length (f_al s) = m -> Q (f_w s) (f_norm s) -> fupdated pw kind (mkParams rt (max_it pr) (max_up pr)) gamma eps d idx s s' -> Q (f_w s') (f_norm s')) ->
  (forall st s func mn mx g st', length (f_w s) = n -> length (f_al s) = m -> length func = m -> Q (f_w s) (f_norm s) ->
    settled (im_gamma st) flex d s func -> scanned s func mn mx -> K (im_it st) (im_gamma st) (im_w st) (im_b st) (im_norm st) (im_margin st) (im_printed st) ->
    (mn - mx) / 2 <= g -> (1 + aprox) * Rmin (Rabs mx) (Rabs mn) <= g -> (g = (mn - mx) / 2 \/ g = (1 + aprox) * Rmin (Rabs mx) (Rabs mn)) -> st' = (Rabs mx + Rabs mn) / 2 ->
    K (S (im_it st)) g (f_w s) (f_b s) (f_norm s) st' (im_printed st ++ [st'])) ->
  forall fuel st, (max_it pr <= im_it st + fuel)%nat -> (f_w (im_f st) = [] /\ Q (repeat 0 n) (f_norm (im_f st))) \/ (length (f_w (im_f st)) = n /\ Q (f_w (im_f st)) (f_norm (im_f st))) -> length (f_al (im_f st)) = m ->
    Permutation (f_index (im_f st)) (map Z.of_nat (seq 0 m)) -> length (im_w st) = n ->
    K (im_it st) (im_gamma st) (im_w st) (im_b st) (im_norm st) (im_margin st) (im_printed st) ->
  exists st', ima_loop pw kind pr flex eps aprox big d clk stop fuel st = Ok (Some st') /\ length (im_w st') = n /\ K (im_it st') (im_gamma st') (im_w st') (im_b st') (im_norm st') (im_margin st') (im_printed st').
Proof using HR HQ.
  intros HU HK. induction fuel as [|fuel IH]; intros st Hf HW La P Lw Kst; cbn [ima_loop].
  all: destruct (itrain_inv pw kind (mkParams (im_rate st) (max_it pr) (max_up pr)) (im_gamma st) flex eps d HR HQ (fun s => Q (f_w s) (f_norm s)) (clk (im_it st)) None (im_steps st) (im_f st)) as (s & func & steps & E & Lw' & La' & P' & Lf & Qs & Se);
    [intros idx s s' H1 H2 H3 H4 H5; exact (HU _ _ _ _ _ H1 H2 H3 H4 H5) | intros s H; exact H | destruct HW as [[W _]|[W _]]; auto | exact La | exact P |
     cbn [f_w f_norm]; destruct HW as [[W HW]|[W HW]]; [rewrite W; exact HW|]; destruct (f_w (im_f st)) eqn:EW; [cbn [length] in W; rewrite <- W; exact HW|exact HW] |].
  all: rewrite E; cbn [obind]; destruct (Nat.eqb_spec (f_e s) 0) as [Z|Z].
  2,4: eexists; split; [reflexivity|]; cbn [im_w im_it im_gamma im_b im_norm im_margin im_printed]; auto.
  all: destruct (body_ok st s func steps Lf La' Lw') as (mn & mx & st' & Sc & EB & W1 & A1 & I1 & N1 & T1 & W2 & B2 & N2 & M2 & P2 & G1 & G2 & G3); rewrite EB; cbn [obind].
  all: pose proof (HK st s func mn mx (im_gamma st') _ Lw' La' Lf Qs (Se Z) Sc Kst G1 G2 G3 eq_refl) as K'.
  all: rewrite <- T1, <- P2, <- W2, <- B2, <- N2, <- M2 in K'.
  - assert (Nat.ltb (max_it pr) (im_it st') = true) as -> by (apply Nat.ltb_lt; lia). cbn [orb]. exists st'. split; [reflexivity|]. rewrite W2. split; [exact Lw'|]. rewrite <- W2. exact K'.
  - destruct (_ || _).
    + exists st'. split; [reflexivity|]. rewrite W2. split; [exact Lw'|]. rewrite <- W2. exact K'.
    + apply IH; [lia|right; rewrite W1, N1; split; [exact Lw'|exact Qs]|rewrite A1; exact La'|rewrite I1; exact P'|rewrite W2; exact Lw'|exact K'].
Qed.

Lemma ima_train_inv (Q : vec -> R -> Prop) (K : nat -> R -> vec -> R -> R -> R -> list R -> Prop) clk stop margin : d_index d = [] \/ index_perm d ->
  (forall rt gamma idx s s', (idx < m)%nat -> length (f_w s) = n -> length (f_al s) = m -> Q (f_w s) (f_norm s) -> fupdated pw kind (mkParams rt (max_it pr) (max_up pr)) gamma eps d idx s s' -> Q (f_w s') (f_norm s')) ->
  (forall st s func mn mx g st', length (f_w s) = n -> length (f_al s) = m -> length func = m -> Q (f_w s) (f_norm s) ->
    settled (im_gamma st) flex d s func -> scanned s func mn mx -> K (im_it st) (im_gamma st) (im_w st) (im_b st) (im_norm st) (im_margin st) (im_printed st) ->
    (mn - mx) / 2 <= g -> (1 + aprox) * Rmin (Rabs mx) (Rabs mn) <= g -> (g = (mn - mx) / 2 \/ g = (1 + aprox) * Rmin (Rabs mx) (Rabs mn)) -> st' = (Rabs mx + Rabs mn) / 2 ->
    K (S (im_it st)) g (f_w s) (f_b s) (f_norm s) st' (im_printed st ++ [st'])) ->
  Q (repeat 0 n) 0 -> K 0%nat 0 (repeat 0 n) 0 1 margin [] ->
  exists r it g, ima_train pw kind pr flex eps aprox big d clk stop margin = Ok (Some r) /\ length (re_w r) = n /\ re_ok r = negb (Nat.eqb it 0) /\ K it g (re_w r) (re_b r) (re_norm r) (re_margin r) (re_printed r).
Proof using HR HQ.
  intros HI HU HK Q0 K0. unfold ima_train.
  destruct (ima_inv Q K clk stop HU HK (max_it pr) (ima_start d margin)) as (st & E & L & Kst).
  - cbn. lia.
  - left. split; [reflexivity|exact Q0].
  - cbn [ima_start im_f f_al]. apply repeat_length.
  - cbn [ima_start im_f f_index]. unfold index_perm in HI. destruct (d_index d) eqn:EI; [apply Permutation_refl|]. destruct HI as [HI|HI]; [discriminate|exact HI].
  - cbn [ima_start im_w]. apply repeat_length.
  - exact K0.
  - rewrite E. cbn [obind]. eexists _, (im_it st), (im_gamma st). split; [reflexivity|]. cbn [re_w re_ok re_b re_norm re_margin re_printed]. split; [exact L|]. split; [reflexivity|exact Kst].
Qed.
End Loop.

Lemma in_pt d p : In p (d_points d) -> exists i, (i < size d)%nat /\ p = pt d i.
Proof. intro H. apply (In_nth _ _ (mkPoint [] 0%Z 0%Z 0)) in H. destruct H as (i & Hi & E). exists i. split; [exact Hi|symmetry; exact E]. Qed.
Lemma pt_in d i : (i < size d)%nat -> In (pt d i) (d_points d).
Proof. intro H. apply nth_In. exact H. Qed.
Lemma nz_zeros k j : nz (repeat 0 k) j = 0.
Proof. apply nz_repeat. Qed.
Lemma inner_zeros k n x : inner n (repeat 0 k) x = 0.
Proof. unfold inner. apply sumn_zero. intros. rewrite nz_zeros. ring. Qed.
Lemma norm_zeros pw kind n : kind = Linf \/ kind = L2 -> norm_of pw kind n (repeat 0 n) 0.
Proof.
  intros [->| ->]; cbn [norm_of].
  - symmetry. apply sumn_zero. intros. rewrite nz_zeros. apply Rabs_R0.
  - unfold euclid. rewrite inner_zeros, sqrt_0. reflexivity.
Qed.

(** C92: training ends without reading or writing outside an array, and stores as many weights as there are features. *)
Lemma c92_total : forall (pw : R -> R -> R) (kind : qnorm) (pr : params) (flex eps aprox big : R) (d : data R) (clk : nat -> nat -> bool) (stop : nat -> bool) (margin : R),
  rect d -> d_index d = [] \/ index_perm d -> (kind = L1 -> (0 < dim d)%nat) ->
  exists r, ima_train pw kind pr flex eps aprox big d clk stop margin = Ok (Some r) /\ length (re_w r) = dim d.
Proof.
  intros pw kind pr flex eps aprox big d clk stop margin HR HI HQ.
  destruct (ima_train_inv pw kind pr flex eps aprox big d HR HQ (fun _ _ => True) (fun _ _ _ _ _ _ _ => True) clk stop margin HI) as (r & it & g & E & L & _); auto.
  exists r. auto.
Qed.

(** C92: with no flexibility, a training that answers true has stored a hyperplane with every training point strictly on its own side, together with
    that hyperplane's norm (Linf and L2); one that answers false leaves zero weights and the margin of the constructor. *)
Lemma c92_separates : forall (pw : R -> R -> R) (kind : qnorm) (pr : params) (eps aprox big : R) (d : data R) (clk : nat -> nat -> bool) (stop : nat -> bool) (margin : R) r,
  rect d -> d_index d = [] \/ index_perm d -> (kind = L1 -> (0 < dim d)%nat) -> (forall x q, 0 <= pw x q) -> 0 <= aprox ->
  ima_train pw kind pr 0 eps aprox big d clk stop margin = Ok (Some r) ->
  (re_ok r = true -> (forall p, In p (d_points d) -> 0 < yf d (re_w r) (re_b r) p) /\ 0 <= re_norm r /\ (kind = Linf \/ kind = L2 -> norm_of pw kind (dim d) (re_w r) (re_norm r)) /\ re_printed r <> []) /\
  (re_ok r = false -> re_w r = repeat 0 (dim d) /\ re_b r = 0 /\ re_margin r = margin /\ re_printed r = []).
Proof.
  intros pw kind pr eps aprox big d clk stop margin r HR HI HQ HP HA E.
  destruct (ima_train_inv pw kind pr 0 eps aprox big d HR HQ (fun w nm => 0 <= nm /\ (kind = Linf \/ kind = L2 -> norm_of pw kind (dim d) w nm))
    (fun it g w b nm mg pd => 0 <= g /\ length pd = it /\ ((0 < it)%nat -> (forall p, In p (d_points d) -> 0 < yf d w b p) /\ 0 <= nm /\ (kind = Linf \/ kind = L2 -> norm_of pw kind (dim d) w nm)) /\
       (it = 0%nat -> w = repeat 0 (dim d) /\ b = 0 /\ mg = margin)) clk stop margin HI) as (r' & it & g & E' & _ & Ok1 & _ & Lp & A & B).
  - intros rt gamma idx s s' _ _ _ _ Up. split; [exact (step_norm_nonneg _ _ _ _ _ _ _ _ _ HQ HP Up)|]. destruct Up as (_ & Hn & _). intro K. apply Hn. destruct K as [->| ->]; discriminate.
  - intros st s func mn mx g st' Lw La Lf (N0 & NN) Se _ (G0 & Lp & _) G1 G2 _ ->. split.
    + apply Rle_trans with ((1 + aprox) * Rmin (Rabs mx) (Rabs mn)); [|exact G2]. apply Rmult_le_pos; [lra|]. apply Rmin_glb; apply Rabs_pos.
    + split; [rewrite app_length; cbn [length]; lia|]. split; [|intro; discriminate]. intros _. split; [|split; [exact N0|exact NN]].
      intros p Hp. destruct (in_pt _ _ Hp) as (i & Hi & ->). destruct (Se i Hi) as (Sy & _). rewrite Rmult_0_r, Rminus_0_r in Sy. apply Rle_lt_trans with (im_gamma st * f_norm s); [apply Rmult_le_pos; auto|exact Sy].
  - split; [apply Rle_refl|apply norm_zeros].
  - split; [apply Rle_refl|]. split; [reflexivity|]. split; [intro; lia|auto].
  - rewrite E in E'. injection E' as <-. split; intro O; rewrite O in Ok1.
    + destruct it as [|it]; [discriminate|]. destruct (A ltac:(lia)) as (A1 & A2 & A3). split; [exact A1|]. split; [exact A2|]. split; [exact A3|]. intro N. rewrite N in Lp. discriminate.
    + destruct it as [|it]; [|discriminate]. destruct (B eq_refl) as (B1 & B2 & B3). split; [exact B1|]. split; [exact B2|]. split; [exact B3|]. destruct (re_printed r); [auto|discriminate].
Qed.

Section Margin.
Variable pw : R -> R -> R.
Variable kind : qnorm.
Variable pr : params.
Variable eps aprox big : R.
Variable d : data R.
Hypothesis HR : rect d.
Hypothesis HK : proper pw kind.
Hypothesis HB : binary d.
Hypothesis HT : both_classes d.
Hypothesis HS : spread d big.
Local Notation n := (dim d).
Local Notation m := (size d).

Lemma sumn_term k (f : nat -> R) j : (j < k)%nat -> (forall i, (i < k)%nat -> 0 <= f i) -> f j <= sumn k f.
Proof using.
  clear. induction k as [|k IH]; intros Hj H; [lia|]. cbn [sumn]. destruct (Nat.eq_dec j k) as [->|N].
  - assert (0 <= sumn k f) by (apply sumn_nonneg; intros; apply H; lia). lra.
  - assert (f j <= sumn k f) by (apply IH; [lia|intros; apply H; lia]). pose proof (H k ltac:(lia)). lra.
Qed.
Lemma proper_bound w nm : norm_of pw kind n w nm -> 0 <= nm /\ forall j, (j < n)%nat -> Rabs (nz w j) <= nm.
Proof using HK.
  clear HS HT HB HR. destruct kind; cbn [norm_of proper] in *; [intros ->|intros ->|contradiction|intros ->; apply HK].
  - split; [apply sumn_nonneg; intros; apply Rabs_pos|]. intros j Hj. apply (sumn_term n (fun j => Rabs (nz w j)) j Hj). intros; apply Rabs_pos.
  - split; [apply euclid_nonneg|]. intros j Hj. unfold euclid. rewrite <- sqrt_Rsqr_abs. apply sqrt_le_1_alt. unfold Rsqr, inner. apply (sumn_term n (fun j => nz w j * nz w j) j Hj). intros; apply Rle_0_sqr.
Qed.
Lemma proper_not_l1 : kind <> L1.
Proof using HK. clear HS HT HB HR. intro E. rewrite E in HK. exact HK. Qed.

Lemma value_gap w nm b p q : (forall j, (j < n)%nat -> Rabs (nz w j) <= nm) -> 0 < nm -> In p (d_points d) -> In q (d_points d) -> value d w b p - value d w b q < nm * big.
Proof using HS.
  intros Hw Hn Hp Hq. unfold value. replace (inner n w (p_x p) + b - (inner n w (p_x q) + b)) with (inner n w (p_x p) - inner n w (p_x q)) by ring.
  unfold inner. rewrite <- sumn_sub. apply Rle_lt_trans with (sumn n (fun j => nm * Rabs (nz (p_x p) j - nz (p_x q) j))).
  - apply sumn_le. intros j Hj. replace (nz w j * nz (p_x p) j - nz w j * nz (p_x q) j) with (nz w j * (nz (p_x p) j - nz (p_x q) j)) by ring.
    apply Rle_trans with (Rabs (nz w j * (nz (p_x p) j - nz (p_x q) j))); [apply Rle_abs|]. rewrite Rabs_mult. apply Rmult_le_compat_r; [apply Rabs_pos|auto].
  - rewrite sumn_scal. apply Rmult_lt_compat_l; auto.
Qed.

(** What a successful call gives. *)
Lemma success gamma s func mn mx : 0 <= gamma -> 0 <= f_norm s -> (forall j, (j < n)%nat -> Rabs (nz (f_w s) j) <= f_norm s) -> settled gamma 0 d s func -> scanned 0 big d s func mn mx ->
  0 < f_norm s /\ gamma < mn /\ mx < - gamma /\ exists p q, closest d (f_w s) (f_b s) p q /\ mn * f_norm s = value d (f_w s) (f_b s) p /\ mx * f_norm s = value d (f_w s) (f_b s) q.
Proof using HT HS HB.
  clear HR HK. intros G0 N0 Hw Se (_ & Sc). destruct HT as ((p0 & Hp0 & Y1) & (q0 & Hq0 & Y2)).
  assert (forall i, (i < m)%nat -> gamma * f_norm s < IZR (p_y (pt d i)) * value d (f_w s) (f_b s) (pt d i)) as Sy.
  { intros i Hi. destruct (Se i Hi) as (A & _). rewrite Rmult_0_r, Rminus_0_r in A. exact A. }
  assert (forall i, (i < m)%nat -> (nz func i + IZR (p_y (pt d i)) * nz (f_al s) i * 0) / f_norm s = value d (f_w s) (f_b s) (pt d i) / f_norm s) as Vi.
  { intros i Hi. destruct (Se i Hi) as (_ & A). rewrite A. unfold value. f_equal. ring. }
  destruct (in_pt _ _ Hp0) as (ip & Hip & Ep). destruct (in_pt _ _ Hq0) as (iq & Hiq & Eq). 
  pose proof (Sy ip Hip) as Sp. rewrite <- Ep, Y1 in Sp. pose proof (Sy iq Hiq) as Sq. rewrite <- Eq, Y2 in Sq.
  assert (0 <= gamma * f_norm s) as GN by (apply Rmult_le_pos; auto).
  assert (0 < f_norm s) as PN.
  { destruct (Rle_lt_or_eq_dec 0 _ N0) as [L|Z]; [exact L|exfalso]. rewrite <- Z in Hw. assert (forall x, inner n (f_w s) x = 0) as I0.
    { intro x. unfold inner. apply sumn_zero. intros j Hj. specialize (Hw j Hj). assert (nz (f_w s) j = 0) as ->; [|ring]. destruct (Req_dec (nz (f_w s) j) 0) as [e|ne]; [exact e|]. apply Rabs_pos_lt in ne. lra. }
    unfold value in Sp, Sq. rewrite I0 in Sp, Sq. lra. }
  destruct (Sc PN) as (_ & _ & Mn & Mx & En & Ex). clear Sc.
  pose proof (Rinv_0_lt_compat _ PN) as PI.
  assert (forall i, (i < m)%nat -> p_y (pt d i) = 1%Z -> gamma < value d (f_w s) (f_b s) (pt d i) / f_norm s) as Pos.
  { intros i Hi Y. specialize (Sy i Hi). rewrite Y in Sy. rewrite Rmult_1_l in Sy. apply Rmult_lt_reg_r with (f_norm s); auto. unfold Rdiv. rewrite Rmult_assoc, Rinv_l, Rmult_1_r by lra. exact Sy. }
  assert (forall i, (i < m)%nat -> p_y (pt d i) = (-1)%Z -> value d (f_w s) (f_b s) (pt d i) / f_norm s < - gamma) as Neg.
  { intros i Hi Y. specialize (Sy i Hi). rewrite Y in Sy. apply Rmult_lt_reg_r with (f_norm s); auto. unfold Rdiv. rewrite Rmult_assoc, Rinv_l, Rmult_1_r by lra. lra. }
  assert (forall i, (i < m)%nat -> p_y (pt d i) = 1%Z \/ p_y (pt d i) = (-1)%Z) as Lab by (intros; apply HB, pt_in; auto).
  assert (forall a b, a < f_norm s * b -> a / f_norm s < b) as Dv. { intros a b H. apply Rmult_lt_reg_r with (f_norm s); auto. unfold Rdiv. rewrite Rmult_assoc, Rinv_l, Rmult_1_r by lra. lra. }
  assert (forall a b, f_norm s * b < a -> b < a / f_norm s) as Dv'. { intros a b H. apply Rmult_lt_reg_r with (f_norm s); auto. unfold Rdiv. rewrite Rmult_assoc, Rinv_l, Rmult_1_r by lra. lra. }
  assert (forall a b, a / f_norm s <= b / f_norm s -> a <= b) as Dl. { intros a b H. apply Rmult_le_reg_r with (/ f_norm s); auto. }
  assert (forall a, a / f_norm s * f_norm s = a) as Dc by (intro a; field; lra).
  pose proof (value_gap (f_w s) (f_norm s) (f_b s) p0 q0 Hw PN Hp0 Hq0) as Gap.
  pose proof (Pos ip Hip ltac:(rewrite <- Ep; auto)) as Pp. pose proof (Neg iq Hiq ltac:(rewrite <- Eq; auto)) as Pq.
  destruct En as [En|(i & Hi & Si & En)].
  { exfalso. specialize (Mn ip Hip). rewrite Vi in Mn by auto. specialize (Mn ltac:(lra)). rewrite <- Ep in Mn. assert (value d (f_w s) (f_b s) p0 / f_norm s < big) by (apply Dv; lra). lra. }
  destruct Ex as [Ex|(j & Hj & Sj & Ex)].
  { exfalso. specialize (Mx iq Hiq). rewrite Vi in Mx by auto. specialize (Mx ltac:(lra)). rewrite <- Eq in Mx. assert (- big < value d (f_w s) (f_b s) q0 / f_norm s) by (apply Dv'; lra). lra. }
  rewrite Vi in Si, En by auto. rewrite Vi in Sj, Ex by auto.
  assert (p_y (pt d i) = 1%Z) as Yi. { destruct (Lab i Hi) as [Y|Y]; [exact Y|]. pose proof (Neg i Hi Y). lra. }
  assert (p_y (pt d j) = (-1)%Z) as Yj. { destruct (Lab j Hj) as [Y|Y]; [|exact Y]. pose proof (Pos j Hj Y). lra. }
  split; [exact PN|]. split; [rewrite En; apply Pos; auto|]. split; [rewrite Ex; apply Neg; auto|]. exists (pt d i), (pt d j). split; [|rewrite En, Ex; auto].
  split; [apply pt_in; auto|]. split; [exact Yi|]. split; [|split; [apply pt_in; auto|split; [exact Yj|]]].
  - intros r Hr Yr. destruct (in_pt _ _ Hr) as (k & Hk & ->). apply Dl. rewrite <- En. rewrite <- Vi by auto. apply Mn; auto. rewrite Vi by auto. pose proof (Pos k Hk Yr). lra.
  - intros r Hr Yr. destruct (in_pt _ _ Hr) as (k & Hk & ->). apply Dl. rewrite <- Ex. rewrite <- Vi by auto. apply Mx; auto. rewrite Vi by auto. pose proof (Neg k Hk Yr). lra.
Qed.

Lemma increasing_snoc l x : increasing l -> (l = [] \/ last l 0 < x) -> increasing (l ++ [x]).
Proof using.
  induction l as [|a l IH]; intros H L; [exact I|]. destruct l as [|b l]; cbn [app] in *.
  - destruct L as [L|L]; [discriminate|]. split; [exact L|exact I].
  - destruct H as [H1 H2]. split; [exact H1|]. apply IH; auto. right. destruct L as [L|L]; [discriminate|]. exact L.
Qed.

Lemma margin_inv clk stop margin : d_index d = [] \/ index_perm d -> 0 <= aprox ->
  exists r, ima_train pw kind pr 0 eps aprox big d clk stop margin = Ok (Some r) /\ length (re_w r) = n /\ increasing (re_printed r) /\
    (re_ok r = true -> 0 < re_norm r /\ norm_of pw kind n (re_w r) (re_norm r) /\ (exists p q, closest d (re_w r) (re_b r) p q /\ re_margin r * (2 * re_norm r) = value d (re_w r) (re_b r) p - value d (re_w r) (re_b r) q) /\ re_printed r <> [] /\ last (re_printed r) 0 = re_margin r).
Proof using HR HK HB HT HS.
  intros HI HA.
  destruct (ima_train_inv pw kind pr 0 eps aprox big d HR (fun K => False_ind _ (proper_not_l1 K)) (fun w nm => (w = repeat 0 n /\ nm = 0) \/ norm_of pw kind n w nm)
    (fun it g w b nm mg pd => 0 <= g /\ length pd = it /\ increasing pd /\ ((0 < it)%nat -> 0 < nm /\ norm_of pw kind n w nm /\ (exists p q, closest d w b p q /\ mg * (2 * nm) = value d w b p - value d w b q) /\ mg <= g /\ last pd 0 = mg))
    clk stop margin HI) as (r & it & g & E & Lw & Ok1 & _ & Lp & Inc & A).
  - intros rt gamma idx s s' _ _ _ _ Up. right. destruct Up as (_ & Hn & _). apply Hn. exact proper_not_l1.
  - intros st s func mn mx g st' Lw La Lf Q Se Sc (G0 & Lp & Inc & A) G1 G2 _ ->.
    assert (0 <= f_norm s /\ forall j, (j < n)%nat -> Rabs (nz (f_w s) j) <= f_norm s) as (N0 & Hw).
    { destruct Q as [[-> ->]|Q]; [|apply proper_bound; exact Q]. split; [apply Rle_refl|]. intros. rewrite nz_zeros, Rabs_R0. apply Rle_refl. }
    destruct (success (im_gamma st) s func mn mx G0 N0 Hw Se Sc) as (PN & Gn & Gx & p & q & Cl & Ep & Eq).
    assert ((Rabs mx + Rabs mn) / 2 = (mn - mx) / 2) as EM by (rewrite (Rabs_right mn), (Rabs_left mx) by lra; lra).
    split; [lra|]. split; [rewrite app_length; cbn [length]; lia|]. split.
    + apply increasing_snoc; [exact Inc|]. destruct (im_printed st) as [|x l] eqn:EP; [left; reflexivity|right]. cbn [length] in Lp. destruct (A ltac:(lia)) as (_ & _ & _ & L1 & L2). lra.
    + intros _. split; [exact PN|]. split; [destruct Q as [[_ Q]|Q]; [lra|exact Q]|]. split; [exists p, q; split; [exact Cl|rewrite EM, <- Ep, <- Eq; field]|]. split; [lra|]. apply last_last.
  - left. auto.
  - split; [apply Rle_refl|]. split; [reflexivity|]. split; [exact I|]. intro; lia.
  - exists r. split; [exact E|]. split; [exact Lw|]. split; [exact Inc|]. intro O. rewrite O in Ok1. destruct it as [|it]; [discriminate|]. destruct (A ltac:(lia)) as (A1 & A2 & A3 & _ & A5).
    split; [exact A1|]. split; [exact A2|]. split; [exact A3|]. split; [|exact A5]. intro N. rewrite N in Lp. discriminate.
Qed.
End Margin.

(** C92: with both classes and no flexibility (all formulations but L1), the stored margin is half the gap between the closest point of each class,
    measured in the stored norm. *)
Lemma c92_margin : forall (pw : R -> R -> R) (kind : qnorm) (pr : params) (eps aprox big : R) (d : data R) (clk : nat -> nat -> bool) (stop : nat -> bool) (margin : R) r,
  rect d -> d_index d = [] \/ index_perm d -> proper pw kind -> binary d -> both_classes d -> spread d big -> 0 <= aprox ->
  ima_train pw kind pr 0 eps aprox big d clk stop margin = Ok (Some r) -> re_ok r = true ->
  0 < re_norm r /\ norm_of pw kind (dim d) (re_w r) (re_norm r) /\
  exists p q, closest d (re_w r) (re_b r) p q /\ re_margin r = (value d (re_w r) (re_b r) p - value d (re_w r) (re_b r) q) / (2 * re_norm r).
Proof.
  intros pw kind pr eps aprox big d clk stop margin r HR HI HK HB HT HS HA E O.
  destruct (margin_inv pw kind pr eps aprox big d HR HK HB HT HS clk stop margin HI HA) as (r' & E' & _ & _ & H). rewrite E in E'. injection E' as <-.
  destruct (H O) as (PN & NO & (p & q & Cl & M) & _). split; [exact PN|]. split; [exact NO|]. exists p, q. split; [exact Cl|]. rewrite <- M. field. lra.
Qed.

(** C93: the margins reported, one for each successful call, strictly increase, and the last one is the margin stored; with the Euclidean norm none of
    them exceeds half the distance of two points of different classes. *)
Lemma c93_increasing : forall (pw : R -> R -> R) (kind : qnorm) (pr : params) (eps aprox big : R) (d : data R) (clk : nat -> nat -> bool) (stop : nat -> bool) (margin : R) r,
  rect d -> d_index d = [] \/ index_perm d -> proper pw kind -> binary d -> both_classes d -> spread d big -> 0 <= aprox ->
  ima_train pw kind pr 0 eps aprox big d clk stop margin = Ok (Some r) ->
  increasing (re_printed r) /\ (re_ok r = true -> re_printed r <> [] /\ last (re_printed r) 0 = re_margin r).
Proof.
  intros pw kind pr eps aprox big d clk stop margin r HR HI HK HB HT HS HA E.
  destruct (margin_inv pw kind pr eps aprox big d HR HK HB HT HS clk stop margin HI HA) as (r' & E' & _ & Inc & H). rewrite E in E'. injection E' as <-.
  split; [exact Inc|]. intro O. apply (H O).
Qed.
(** C93: with the Euclidean norm the stored margin is at most half the distance of any two training points of different classes. *)
Lemma c93_bound : forall (pw : R -> R -> R) (pr : params) (eps aprox big : R) (d : data R) (clk : nat -> nat -> bool) (stop : nat -> bool) (margin : R) r p q,
  rect d -> d_index d = [] \/ index_perm d -> binary d -> spread d big -> 0 <= aprox ->
  ima_train pw L2 pr 0 eps aprox big d clk stop margin = Ok (Some r) -> re_ok r = true ->
  In p (d_points d) -> p_y p = 1%Z -> In q (d_points d) -> p_y q = (-1)%Z ->
  0 < re_margin r <= sqrt (sumn (dim d) (fun j => (nz (p_x p) j - nz (p_x q) j) ^ 2)) / 2.
Proof.
  intros pw pr eps aprox big d clk stop margin r p q HR HI HB HS HA E O Hp Yp Hq Yq.
  assert (both_classes d) as HT by (split; [exists p|exists q]; auto).
  destruct (c92_margin pw L2 pr eps aprox big d clk stop margin r HR HI I HB HT HS HA E O) as (PN & NO & p0 & q0 & Cl & M). cbn [norm_of] in NO.
  assert ((forall p, In p (d_points d) -> 0 < yf d (re_w r) (re_b r) p)) as Sep.
  { assert (exists pw', (forall x q, 0 <= pw' x q) /\ ima_train pw' L2 pr 0 eps aprox big d clk stop margin = Ok (Some r)) as (pw' & P' & E').
    { exists (fun _ _ => 0). split; [intros; apply Rle_refl|]. rewrite <- E. reflexivity. }
    destruct (c92_separates pw' L2 pr eps aprox big d clk stop margin r HR HI ltac:(discriminate) P' HA E') as (S & _). apply (S O). }
  destruct Cl as (P0 & Y0 & Min & Q0 & Y1 & Max). pose proof (Sep p0 P0) as S0. pose proof (Sep q0 Q0) as S1. unfold yf in S0, S1. fold (value d (re_w r) (re_b r) p0) in S0. fold (value d (re_w r) (re_b r) q0) in S1. rewrite Y0 in S0. rewrite Y1 in S1.
  pose proof (Min p Hp Yp) as A. pose proof (Max q Hq Yq) as B. split.
  - rewrite M. apply Rdiv_lt_0_compat; lra.
  - apply Rmult_le_reg_r with (2 * re_norm r); [lra|]. rewrite M. unfold Rdiv at 1. rewrite Rmult_assoc, Rinv_l, Rmult_1_r by lra.
    apply Rle_trans with (value d (re_w r) (re_b r) p - value d (re_w r) (re_b r) q); [lra|]. unfold value.
    replace (inner (dim d) (re_w r) (p_x p) + re_b r - (inner (dim d) (re_w r) (p_x q) + re_b r)) with (sumn (dim d) (fun j => nz (re_w r) j * (nz (p_x p) j - nz (p_x q) j))).
    2:{ unfold inner. replace (sumn (dim d) (fun i => nz (re_w r) i * nz (p_x p) i) + re_b r - (sumn (dim d) (fun i => nz (re_w r) i * nz (p_x q) i) + re_b r)) with (sumn (dim d) (fun i => nz (re_w r) i * nz (p_x p) i) - sumn (dim d) (fun i => nz (re_w r) i * nz (p_x q) i)) by ring.
        rewrite <- sumn_sub. apply sumn_ext. intros. ring. }
    eapply Rle_trans; [apply cauchy_sqrt|]. rewrite NO. unfold euclid, inner.
    replace (sumn (dim d) (fun j => (nz (p_x p) j - nz (p_x q) j) ^ 2)) with (sumn (dim d) (fun i => (nz (p_x p) i - nz (p_x q) i) * (nz (p_x p) i - nz (p_x q) i))) by (apply sumn_ext; intros; ring).
    lra.
Qed.

(** The value IMAp::evaluate compares with margin * norm. *)
Lemma raw_ok d w b x : length w = dim d -> length (p_x x) = dim d -> ima_raw w b x = Ok (value d w b x).
Proof.
  intros Hw Hx. unfold ima_raw. rewrite Hw, Hx, Nat.eqb_refl. cbn [negb]. unfold value. rewrite Rplus_comm. unfold inner. rewrite <- (fold_from_ok (dim d) (fun j => let* a := vget w j in let* c := vget (p_x x) j in Ok (a * c))).
  - apply ofold_ext. intros s j Hj. apply in_seq in Hj. rewrite !vget_nz by lia. reflexivity.
  - intros j Hj. rewrite !vget_nz by lia. reflexivity.
Qed.
Lemma evaluate_ok d w b nm mg x : length w = dim d -> length (p_x x) = dim d -> ima_evaluate w b nm mg x = Ok (if Rle_dec (mg * nm) (value d w b x) then 1%Z else (-1)%Z).
Proof. intros Hw Hx. unfold ima_evaluate. rewrite (raw_ok d) by auto. rewrite Hw, Hx, Nat.eqb_refl. reflexivity. Qed.

(** C94: after a training that answers true on both classes, a point with as many features as the data is given label 1 exactly if its value reaches
    half the gap between the closest training points p and q, and label -1 otherwise; a point with another number of features gets 0. *)
Lemma c94_evaluate : forall (pw : R -> R -> R) (kind : qnorm) (pr : params) (eps aprox big : R) (d : data R) (clk : nat -> nat -> bool) (stop : nat -> bool) (margin : R) r p q x,
  rect d -> d_index d = [] \/ index_perm d -> proper pw kind -> binary d -> both_classes d -> spread d big -> 0 <= aprox ->
  ima_train pw kind pr 0 eps aprox big d clk stop margin = Ok (Some r) -> re_ok r = true -> closest d (re_w r) (re_b r) p q ->
  ima_evaluate (re_w r) (re_b r) (re_norm r) (re_margin r) x =
    Ok (if Nat.eqb (length (p_x x)) (dim d) then if Rle_dec ((value d (re_w r) (re_b r) p - value d (re_w r) (re_b r) q) / 2) (value d (re_w r) (re_b r) x) then 1%Z else (-1)%Z else 0%Z).
Proof.
  intros pw kind pr eps aprox big d clk stop margin r p q x HR HI HK HB HT HS HA E O Cl.
  destruct (c92_margin pw kind pr eps aprox big d clk stop margin r HR HI HK HB HT HS HA E O) as (PN & _ & p0 & q0 & Cl0 & M).
  destruct (c92_total pw kind pr 0 eps aprox big d clk stop margin HR HI (fun K => False_ind _ (proper_not_l1 _ _ HK K))) as (r' & E' & Lw). rewrite E in E'. injection E' as <-.
  assert (value d (re_w r) (re_b r) p0 = value d (re_w r) (re_b r) p) as Ep. { destruct Cl as (A1 & A2 & A3 & _). destruct Cl0 as (B1 & B2 & B3 & _). apply Rle_antisym; auto. }
  assert (value d (re_w r) (re_b r) q0 = value d (re_w r) (re_b r) q) as Eq. { destruct Cl as (_ & _ & _ & A1 & A2 & A3). destruct Cl0 as (_ & _ & _ & B1 & B2 & B3). apply Rle_antisym; auto. }
  destruct (Nat.eqb_spec (length (p_x x)) (dim d)) as [L|L].
  - rewrite (evaluate_ok d) by auto. rewrite M, Ep, Eq. replace ((value d (re_w r) (re_b r) p - value d (re_w r) (re_b r) q) / (2 * re_norm r) * re_norm r) with ((value d (re_w r) (re_b r) p - value d (re_w r) (re_b r) q) / 2) by (field; lra). reflexivity.
  - unfold ima_evaluate. rewrite Lw. apply Nat.eqb_neq in L. rewrite L. reflexivity.
Qed.
(** C94: no training point of label -1 is given label 1; the training points of label 1 whose value is below half the gap are given label -1, and this
    happens to the closest one as soon as the closest negative point is farther from the hyperplane. *)
Lemma c94_training_points : forall (pw : R -> R -> R) (kind : qnorm) (pr : params) (eps aprox big : R) (d : data R) (clk : nat -> nat -> bool) (stop : nat -> bool) (margin : R) r p q,
  rect d -> d_index d = [] \/ index_perm d -> proper pw kind -> (forall x q, 0 <= pw x q) -> binary d -> both_classes d -> spread d big -> 0 <= aprox ->
  ima_train pw kind pr 0 eps aprox big d clk stop margin = Ok (Some r) -> re_ok r = true -> closest d (re_w r) (re_b r) p q ->
  (forall x, In x (d_points d) -> p_y x = (-1)%Z -> ima_evaluate (re_w r) (re_b r) (re_norm r) (re_margin r) x = Ok (-1)%Z) /\
  (ima_evaluate (re_w r) (re_b r) (re_norm r) (re_margin r) p = Ok 1%Z <-> - value d (re_w r) (re_b r) q <= value d (re_w r) (re_b r) p).
Proof.
  intros pw kind pr eps aprox big d clk stop margin r p q HR HI HK HP HB HT HS HA E O Cl.
  destruct (c92_separates pw kind pr eps aprox big d clk stop margin r HR HI (fun K => False_ind _ (proper_not_l1 _ _ HK K)) HP HA E) as (S & _). destruct (S O) as (Sep & _).
  pose proof Cl as (P0 & Y0 & Min & Q0 & Y1 & Max). pose proof (Sep p P0) as S0. pose proof (Sep q Q0) as S1. unfold yf in S0, S1. fold (value d (re_w r) (re_b r) p) in S0. fold (value d (re_w r) (re_b r) q) in S1. rewrite Y0 in S0. rewrite Y1 in S1.
  split.
  - intros x Hx Yx. rewrite (c94_evaluate pw kind pr eps aprox big d clk stop margin r p q x) by auto. rewrite (HR x Hx), Nat.eqb_refl. destruct (Rle_dec _ _) as [L|L]; [|reflexivity]. pose proof (Max x Hx Yx). lra.
  - rewrite (c94_evaluate pw kind pr eps aprox big d clk stop margin r p q p) by auto. rewrite (HR p P0), Nat.eqb_refl. destruct (Rle_dec _ _) as [L|L]; split; intro H; try reflexivity; try lra; try discriminate.
Qed.

(** C94: on points of the one label 1, every point whose value is less than half of [big] norms is given label -1. *)
Lemma c94_one_class_refuted : forall (pw : R -> R -> R) (kind : qnorm) (pr : params) (eps aprox big : R) (d : data R) (clk : nat -> nat -> bool) (stop : nat -> bool) (margin : R) r x,
  rect d -> d_index d = [] \/ index_perm d -> (kind = L1 -> (0 < dim d)%nat) -> (forall x q, 0 <= pw x q) -> 0 <= aprox -> (forall p, In p (d_points d) -> p_y p = 1%Z) ->
  ima_train pw kind pr 0 eps aprox big d clk stop margin = Ok (Some r) -> re_ok r = true -> 0 < re_norm r -> length (p_x x) = dim d ->
  value d (re_w r) (re_b r) x < big / 2 * re_norm r -> ima_evaluate (re_w r) (re_b r) (re_norm r) (re_margin r) x = Ok (-1)%Z.
Proof.
  intros pw kind pr eps aprox big d clk stop margin r x HR HI HQ HP HA H1 E O PN Lx Vx.
  destruct (ima_train_inv pw kind pr 0 eps aprox big d HR HQ (fun w nm => 0 <= nm)
    (fun it g w b nm mg pd => 0 <= g /\ ((0 < it)%nat -> 0 < nm -> big / 2 <= mg)) clk stop margin HI) as (r' & it & g & E' & Lw & Ok1 & _ & A).
  - intros rt gamma idx s s' _ _ _ _ Up. exact (step_norm_nonneg _ _ _ _ _ _ _ _ _ HQ HP Up).
  - intros st s func mn mx g st' Lw La Lf N0 Se Sc (G0 & _) G1 G2 _ ->. split.
    + apply Rle_trans with ((1 + aprox) * Rmin (Rabs mx) (Rabs mn)); [|exact G2]. apply Rmult_le_pos; [lra|]. apply Rmin_glb; apply Rabs_pos.
    + intros _ P. destruct Sc as (_ & Sc). destruct (Sc P) as (_ & _ & _ & _ & _ & [->|(i & Hi & Si & _)]).
      * rewrite Rabs_Ropp. pose proof (Rle_abs big). pose proof (Rabs_pos mn). lra.
      * exfalso. destruct (Se i Hi) as (Sy & Sv). rewrite (H1 _ (pt_in _ _ Hi)) in Si. rewrite Rmult_0_r, Rminus_0_r in Sy. unfold yf in Sy. rewrite (H1 _ (pt_in _ _ Hi)) in Sy. rewrite <- Sv in Sy.
        assert (0 <= im_gamma st * f_norm s) by (apply Rmult_le_pos; auto). assert (0 <= (nz func i + 1 * nz (f_al s) i * 0) / f_norm s); [|lra]. apply Rmult_le_pos; [lra|]. apply Rlt_le, Rinv_0_lt_compat, P.
  - apply Rle_refl.
  - split; [apply Rle_refl|intro; lia].
  - rewrite E in E'. injection E' as <-. rewrite O in Ok1. destruct it as [|it]; [discriminate|]. specialize (A ltac:(lia) PN).
    rewrite (evaluate_ok d) by auto. destruct (Rle_dec _ _) as [L|L]; [|reflexivity]. exfalso. assert (big / 2 * re_norm r <= re_margin r * re_norm r) by (apply Rmult_le_compat_r; lra). lra.
Qed.

(** C92: started from an initial solution, training reads the weights of an empty vector. *)
Lemma c92_initial_refuted : forall (d : data R) (w0 : vec) (norm0 : R), (0 < dim d)%nat -> (0 < size d)%nat -> length w0 = dim d -> ima_initial d w0 norm0 = UB.
Proof.
  intros d w0 norm0 Hd Hs Hw. unfold ima_initial. rewrite (ofold_ext _ (fun (u : unit) (_ : nat) => Ok u)).
  - assert (forall l, ofold (fun (u : unit) (_ : nat) => Ok u) l tt = Ok tt) as -> by (induction l; auto). cbn [obind].
    destruct (size d) as [|k]; [lia|]. cbn [seq map_outcome]. destruct (dim d) as [|n]; [lia|]. unfold osum. cbn [seq ofold]. reflexivity.
  - intros u i Hi. apply in_seq in Hi. destruct (nth_error w0 i) eqn:EN; [reflexivity|]. apply nth_error_None in EN. lia.
Qed.

(** The points 1 of label 1 and -4 of label -1. *)
Definition ix : data R := mkData [mkPoint [1] 1%Z 1%Z 0; mkPoint [-4] (-1)%Z 2%Z 0] [1]%Z [0; 1]%Z [] [1; -1]%Z [1; 1]%Z 2 1 false false false true.
Lemma iloop_S pw kind pr gamma flex eps d clk flag fuel k steps s func : clk k = true ->
  iloop pw kind pr gamma flex eps d clk flag (S fuel) k steps s func =
    (let* u := ipass pw kind pr gamma flex eps d steps (seq 0 (size d)) (f_reset s) func in
     let (s1, func1) := u in
     if Nat.eqb (f_e s1) 0 || Nat.ltb (max_it pr) (S steps) || Nat.ltb (max_up pr) (f_ctot s1) || match flag with Some t => Nat.ltb t (f_ctot s1) | None => false end then Ok (Some (s1, func1, S steps))
     else iloop pw kind pr gamma flex eps d clk flag fuel (S k) (S steps) s1 func1).
Proof. intro H. cbn [iloop]. rewrite H. reflexivity. Qed.
Lemma ipass_nil pw kind pr gamma flex eps d steps s func : ipass pw kind pr gamma flex eps d steps [] s func = Ok (s, func).
Proof. reflexivity. Qed.
(** One step of a pass, without and with an update. *)
Lemma ipass_stay pw kind pr gamma flex eps d steps i r s func idx p f func' al : vget (f_index s) i = Ok (Z.of_nat idx) -> vget (d_points d) idx = Ok p -> fm_decision d (f_w s) (p_x p) (f_b s) = Ok f ->
  vupd idx (fun _ => f) func = Ok func' -> vget (f_al s) idx = Ok al -> gamma * f_norm s - al * flex < IZR (p_y p) * f -> Nat.ltb 0 steps && Nat.ltb 1 (f_e s) && Nat.ltb (f_s s) i = false ->
  ipass pw kind pr gamma flex eps d steps (i :: r) s func = ipass pw kind pr gamma flex eps d steps r s func'.
Proof.
  intros H1 H2 H3 H4 H5 H6 H7. cbn [ipass]. rewrite H1. cbn [obind]. rewrite zidx_nat. cbn [obind]. rewrite H2. cbn [obind]. rewrite H3. cbn [obind]. rewrite H4. cbn [obind]. rewrite H5. cbn [obind].
  destruct (Rle_dec _ _); [lra|]. rewrite H7. reflexivity.
Qed.
Lemma ipass_hit pw kind pr gamma flex eps d steps i r s func idx p f func' al w' nm lw nn al2 j ix1 ix2 :
  vget (f_index s) i = Ok (Z.of_nat idx) -> vget (d_points d) idx = Ok p -> fm_decision d (f_w s) (p_x p) (f_b s) = Ok f ->
  vupd idx (fun _ => f) func = Ok func' -> vget (f_al s) idx = Ok al -> IZR (p_y p) * f <= gamma * f_norm s - al * flex ->
  fm_step pw kind pr gamma eps d (IZR (p_y p)) (p_x p) s = Ok (w', nm, lw, nn) -> vupd idx (fun a => a + rate pr) (map (fun a => a * (if Req_EM_T (f_norm s) 0 then 1 else 1 - rate pr * gamma / f_norm s)) (f_al s)) = Ok al2 ->
  vget (f_index s) (if Nat.ltb (f_s s) i then f_s s else f_e s) = Ok j -> vupd (if Nat.ltb (f_s s) i then f_s s else f_e s) (fun _ => Z.of_nat idx) (f_index s) = Ok ix1 -> vupd i (fun _ => j) ix1 = Ok ix2 ->
  ipass pw kind pr gamma flex eps d steps (i :: r) s func =
  ipass pw kind pr gamma flex eps d steps r (mkF w' (f_b s + rate pr * IZR (p_y p)) nm al2 ix2 (if Nat.ltb (f_s s) i then S (f_s s) else f_s s) (S (f_e s)) (S (f_ctot s)) lw nn) func'.
Proof.
  intros H1 H2 H3 H4 H5 H6 H7 H8 H9 H10 H11. cbn [ipass]. rewrite H1. cbn [obind]. rewrite zidx_nat. cbn [obind]. rewrite H2. cbn [obind]. rewrite H3. cbn [obind]. rewrite H4. cbn [obind]. rewrite H5. cbn [obind].
  destruct (Rle_dec _ _); [|lra]. cbv zeta. rewrite H7. cbn [obind]. rewrite H8. cbn [obind]. rewrite H9. cbn [obind]. rewrite H10. cbn [obind]. rewrite H11. reflexivity.
Qed.

Lemma ix_first (kind : qnorm) (eps : R) steps : kind = Linf \/ kind = L2 ->
  ipass (fun _ _ => 0) kind (lim 1 1) 0 0 eps ix steps [0; 1]%nat (mkF [0] 0 0 [0; 0] [0; 1]%Z 0 0 0 0 0) [0; 0] = Ok (mkF [1] 1 1 [1; 0] [0; 1]%Z 0 1 1 0 0, [0; -3]).
Proof.
  intro K. assert (fm_step (fun _ _ => 0) kind (lim 1 1) 0 eps ix 1 [1] (mkF [0] 0 0 [0; 0] [0; 1]%Z 0 0 0 0 0) = Ok ([1], 1, 0, 0%nat)) as Est.
  { destruct K as [->| ->]; cbn; unfold fm_lam; (destruct (Rlt_dec 0 0); [lra|]); replace (0 + 1 * (1 * 1 - 0)) with 1 by ring.
    - rewrite Rabs_R1. rewrite Rplus_0_l. reflexivity.
    - replace (0 + 1 * 1) with 1 by ring. rewrite sqrt_1. reflexivity. }
  rewrite (ipass_hit _ _ _ _ _ _ _ _ _ _ _ _ 0%nat (mkPoint [1] 1%Z 1%Z 0) 0 [0; 0] 0 [1] 1 0 0%nat [1; 0] 0%Z [0; 1]%Z [0; 1]%Z); try reflexivity.
  - cbn [f_b f_s f_e f_ctot Nat.ltb Nat.leb lim rate p_y]. rewrite (ipass_stay _ _ _ _ _ _ _ _ _ _ _ _ 1%nat (mkPoint [-4] (-1)%Z 2%Z 0) (-3) [0; -3] 0); try reflexivity.
    + rewrite ipass_nil. replace (0 + 1 * 1) with 1 by ring. reflexivity.
    + cbn. f_equal. ring.
    + cbn. lra.
    + cbn. destruct steps; reflexivity.
  - cbn. f_equal. ring.
  - cbn. lra.
  - exact Est.
  - cbn. destruct (Req_EM_T 0 0); [|lra]. do 2 f_equal; [ring|f_equal; ring].
Qed.
Lemma ix_second (kind : qnorm) (eps : R) steps func0 : length func0 = 2%nat ->
  ipass (fun _ _ => 0) kind (lim 1 1) 0 0 eps ix steps [0; 1]%nat (mkF [1] 1 1 [1; 0] [0; 1]%Z 0 0 1 0 0) func0 = Ok (mkF [1] 1 1 [1; 0] [0; 1]%Z 0 0 1 0 0, [2; -3]).
Proof.
  intro L. destruct func0 as [|a [|b [|]]]; try discriminate.
  rewrite (ipass_stay _ _ _ _ _ _ _ _ _ _ _ _ 0%nat (mkPoint [1] 1%Z 1%Z 0) 2 [2; b] 1); try reflexivity.
  - rewrite (ipass_stay _ _ _ _ _ _ _ _ _ _ _ _ 1%nat (mkPoint [-4] (-1)%Z 2%Z 0) (-3) [2; -3] 0); try reflexivity.
    + cbn. f_equal. ring.
    + cbn. lra.
    + cbn. destruct steps; reflexivity.
  - cbn. f_equal. ring.
  - cbn. lra.
  - cbn. destruct steps; reflexivity.
Qed.
Lemma ix_run (kind : qnorm) eps : kind = Linf \/ kind = L2 -> exists r, ima_train (fun _ _ => 0) kind (lim 1 1) 0 eps 0 100 ix (fun _ _ => true) (fun _ => true) 0 = Ok (Some r) /\
  re_ok r = true /\ re_w r = [1] /\ re_b r = 1 /\ re_norm r = 1 /\ re_margin r = 5 / 2 /\ re_printed r = [5 / 2].
Proof.
  intro K. unfold ima_train. change (max_it (lim 1 1)) with 1%nat. cbn [ima_loop]. unfold itrain. change (mkParams (im_rate (ima_start ix 0)) (max_it (lim 1 1)) (max_up (lim 1 1))) with (lim 1 1). change (S (max_it (lim 1 1))) with 2%nat. cbv zeta.
  rewrite iloop_S by reflexivity. change (seq 0 (size ix)) with [0; 1]%nat.
  match goal with |- context [f_reset ?s] => change (f_reset s) with (mkF [0] 0 0 [0; 0] [0; 1]%Z 0 0 0 0 0) end. change (repeat 0 (size ix)) with [0; 0]. change (im_gamma (ima_start ix 0)) with 0.
  rewrite (ix_first kind eps _ K). cbn [obind f_e f_ctot Nat.eqb orb lim max_it max_up]. change (im_steps (ima_start ix 0)) with 0%nat. cbn [Nat.ltb Nat.leb orb]. change (mkParams 1 1 1) with (lim 1 1).
  rewrite iloop_S by reflexivity. change (seq 0 (size ix)) with [0; 1]%nat. change (f_reset (mkF [1] 1 1 [1; 0] [0; 1]%Z 0 1 1 0 0)) with (mkF [1] 1 1 [1; 0] [0; 1]%Z 0 0 1 0 0).
  rewrite (ix_second kind eps _ [0; -3] eq_refl). cbn [obind f_e Nat.eqb orb].
  unfold ima_body, ima_scan. change (seq 0 (size ix)) with [0; 1]%nat. cbn [ofold f_norm f_al f_w f_b f_index f_ctot f_s f_e f_lw f_n ix d_points vget nth_error obind p_y].
  destruct (Req_EM_T 1 0) as [?|_]; [lra|]. destruct (Rle_dec 0 (2 + 1 * 1 * 0)) as [_|?]; [|lra]. cbn [fst snd]. replace ((2 + 1 * 1 * 0) / 1) with 2 by field. destruct (Rlt_dec 2 100) as [_|?]; [|lra].
  destruct (Rle_dec 0 (-3 + -1 * 0 * 0)) as [?|_]; [lra|]. cbn [fst snd]. replace ((-3 + -1 * 0 * 0) / 1) with (-3) by field. destruct (Rlt_dec (- (100)) (-3)) as [_|?]; [|lra].
  change (seq 0 (dim _)) with [0%nat]. cbn [map_outcome nth_error obind].
  cbn [im_it ima_start]. rewrite orb_true_r. cbn [obind]. eexists. split; [reflexivity|]. cbn [re_ok re_w re_b re_norm re_margin re_printed im_it im_w im_b im_norm im_margin im_printed Nat.eqb negb app].
  assert ((Rabs (-3) + Rabs 2) / 2 = 5 / 2) as -> by (rewrite (Rabs_left (-3)), (Rabs_right 2) by lra; lra). auto 10.
Qed.
Lemma ix_ok : rect ix /\ index_perm ix /\ binary ix /\ both_classes ix /\ spread ix 100.
Proof.
  assert (forall p, In p (d_points ix) -> p = mkPoint [1] 1%Z 1%Z 0 \/ p = mkPoint [-4] (-1)%Z 2%Z 0) as D by (intros p [<-|[<-|[]]]; auto).
  split; [intros p H; destruct (D p H) as [->| ->]; reflexivity|]. split; [apply Permutation_refl|]. split; [intros p H; destruct (D p H) as [->| ->]; auto|].
  split; [split; eexists; (split; [|]); [left; reflexivity|reflexivity|right; left; reflexivity|reflexivity]|].
  intros p q Hp Hq. destruct (D p Hp) as [->| ->], (D q Hq) as [->| ->]; cbn; split_Rabs; lra.
Qed.
Lemma c92_total_ex : rect ix /\ (d_index ix = [] \/ index_perm ix) /\ size ix = 2%nat.
Proof. destruct ix_ok as (A & B & _). auto. Qed.
Lemma c92_separates_ex : exists r, ima_train (fun _ _ => 0) L2 (lim 1 1) 0 (1/1000) 0 100 ix (fun _ _ => true) (fun _ => true) 0 = Ok (Some r) /\ re_ok r = true /\ rect ix /\ index_perm ix /\ (forall x q : R, 0 <= (fun _ _ => 0) x q).
Proof. destruct (ix_run L2 (1/1000)) as (r & E & O & _); [auto|]. destruct ix_ok as (A & B & _). exists r. split; [exact E|]. split; [exact O|]. split; [exact A|]. split; [exact B|]. intros. apply Rle_refl. Qed.
Lemma c92_margin_ex : exists r, ima_train (fun _ _ => 0) L2 (lim 1 1) 0 (1/1000) 0 100 ix (fun _ _ => true) (fun _ => true) 0 = Ok (Some r) /\ re_ok r = true /\ re_margin r = 5 / 2 /\ proper (fun _ _ => 0) L2 /\
  rect ix /\ index_perm ix /\ binary ix /\ both_classes ix /\ spread ix 100.
Proof. destruct (ix_run L2 (1/1000)) as (r & E & O & _ & _ & _ & M & _); [auto|]. exists r. split; [exact E|]. split; [exact O|]. split; [exact M|]. split; [exact I|]. exact ix_ok. Qed.
Lemma c93_increasing_ex : exists r, ima_train (fun _ _ => 0) Linf (lim 1 1) 0 (1/1000) 0 100 ix (fun _ _ => true) (fun _ => true) 0 = Ok (Some r) /\ re_ok r = true /\ re_printed r = [5 / 2] /\ proper (fun _ _ => 0) Linf /\
  rect ix /\ index_perm ix /\ binary ix /\ both_classes ix /\ spread ix 100.
Proof. destruct (ix_run Linf (1/1000)) as (r & E & O & _ & _ & _ & _ & P); [auto|]. exists r. split; [exact E|]. split; [exact O|]. split; [exact P|]. split; [exact I|]. exact ix_ok. Qed.
Lemma c93_bound_ex : exists r p q, ima_train (fun _ _ => 0) L2 (lim 1 1) 0 (1/1000) 0 100 ix (fun _ _ => true) (fun _ => true) 0 = Ok (Some r) /\ re_ok r = true /\ rect ix /\ index_perm ix /\ binary ix /\ spread ix 100 /\
  In p (d_points ix) /\ p_y p = 1%Z /\ In q (d_points ix) /\ p_y q = (-1)%Z.
Proof.
  destruct (ix_run L2 (1/1000)) as (r & E & O & _); [auto|]. destruct ix_ok as (A & B & C & ((p & Hp & Yp) & (q & Hq & Yq)) & D). exists r, p, q.
  split; [exact E|]. split; [exact O|]. split; [exact A|]. split; [exact B|]. split; [exact C|]. split; [exact D|]. auto.
Qed.
Lemma ix_closest r : re_w r = [1] -> re_b r = 1 -> closest ix (re_w r) (re_b r) (mkPoint [1] 1%Z 1%Z 0) (mkPoint [-4] (-1)%Z 2%Z 0) /\ value ix (re_w r) (re_b r) (mkPoint [1] 1%Z 1%Z 0) = 2 /\ value ix (re_w r) (re_b r) (mkPoint [-4] (-1)%Z 2%Z 0) = -3.
Proof.
  intros W B. rewrite W, B. split; [|split; unfold value, inner; cbn; lra]. split; [left; reflexivity|]. split; [reflexivity|]. split; [|split; [right; left; reflexivity|split; [reflexivity|]]].
  - intros p [<-|[<-|[]]] Y; [apply Rle_refl|discriminate].
  - intros p [<-|[<-|[]]] Y; [discriminate|apply Rle_refl].
Qed.
Lemma c94_evaluate_ex : exists r p q, ima_train (fun _ _ => 0) L2 (lim 1 1) 0 (1/1000) 0 100 ix (fun _ _ => true) (fun _ => true) 0 = Ok (Some r) /\ re_ok r = true /\ closest ix (re_w r) (re_b r) p q /\
  rect ix /\ index_perm ix /\ binary ix /\ both_classes ix /\ spread ix 100.
Proof. destruct (ix_run L2 (1/1000)) as (r & E & O & W & B & _); [auto|]. destruct (ix_closest r W B) as (C & _). eexists r, _, _. split; [exact E|]. split; [exact O|]. split; [exact C|]. exact ix_ok. Qed.
Lemma c94_training_points_ex : exists r p q, ima_train (fun _ _ => 0) L2 (lim 1 1) 0 (1/1000) 0 100 ix (fun _ _ => true) (fun _ => true) 0 = Ok (Some r) /\ re_ok r = true /\ closest ix (re_w r) (re_b r) p q /\
  rect ix /\ index_perm ix /\ binary ix /\ both_classes ix /\ spread ix 100.
Proof. exact c94_evaluate_ex. Qed.
(** C94: trained on the points 1 (label 1) and -4 (label -1), the classifier separates them with w = 1, b = 1 and answers -1 for both. *)
Lemma c94_positive_refuted : exists r, ima_train (fun _ _ => 0) L2 (lim 1 1) 0 (1/1000) 0 100 ix (fun _ _ => true) (fun _ => true) 0 = Ok (Some r) /\ re_ok r = true /\
  (forall p, In p (d_points ix) -> 0 < yf ix (re_w r) (re_b r) p) /\ exists p, In p (d_points ix) /\ p_y p = 1%Z /\ ima_evaluate (re_w r) (re_b r) (re_norm r) (re_margin r) p = Ok (-1)%Z.
Proof.
  destruct (ix_run L2 (1/1000)) as (r & E & O & W & B & N & M & _); [auto|]. exists r. split; [exact E|]. split; [exact O|]. split.
  - rewrite W, B. intros p [<-|[<-|[]]]; unfold yf, inner; cbn; lra.
  - exists (mkPoint [1] 1%Z 1%Z 0). split; [left; reflexivity|]. split; [reflexivity|]. rewrite (evaluate_ok ix) by (rewrite ?W; reflexivity). destruct (ix_closest r W B) as (_ & V & _). rewrite V, M, N. destruct (Rle_dec _ _); [lra|reflexivity].
Qed.
Lemma c92_initial_refuted_ex : (0 < dim ix)%nat /\ (0 < size ix)%nat /\ length [3] = dim ix.
Proof. cbn. auto. Qed.
Lemma px1_run eps : exists r, ima_train (fun _ _ => 0) L2 (lim 1 1) 0 eps 0 100 px1 (fun _ _ => true) (fun _ => true) 0 = Ok (Some r) /\
  re_ok r = true /\ re_w r = [1] /\ re_b r = 1 /\ re_norm r = 1.
Proof.
  unfold ima_train. change (max_it (lim 1 1)) with 1%nat. cbn [ima_loop]. unfold itrain. change (mkParams (im_rate (ima_start px1 0)) (max_it (lim 1 1)) (max_up (lim 1 1))) with (lim 1 1). change (S (max_it (lim 1 1))) with 2%nat. cbv zeta.
  rewrite iloop_S by reflexivity. change (seq 0 (size px1)) with [0]%nat.
  match goal with |- context [f_reset ?s] => change (f_reset s) with (mkF [0] 0 0 [0] [0]%Z 0 0 0 0 0) end. change (repeat 0 (size px1)) with [0]. change (im_gamma (ima_start px1 0)) with 0.
  rewrite (ipass_hit _ _ _ _ _ _ _ _ _ _ _ _ 0%nat (mkPoint [1] 1%Z 1%Z 0) 0 [0] 0 [1] 1 0 0%nat [1] 0%Z [0]%Z [0]%Z); try reflexivity.
  2:{ cbn. f_equal. ring. }
  2:{ cbn. lra. }
  2:{ cbn. unfold fm_lam. destruct (Rlt_dec 0 0); [lra|]. replace (0 + 1 * (1 * 1 - 0)) with 1 by ring. replace (0 + 1 * 1) with 1 by ring. rewrite sqrt_1. reflexivity. }
  2:{ cbn. destruct (Req_EM_T 0 0); [|lra]. do 2 f_equal. ring. }
  rewrite ipass_nil. cbn [f_b f_s f_e f_ctot Nat.ltb Nat.leb lim rate p_y obind Nat.eqb orb max_it max_up]. change (im_steps (ima_start px1 0)) with 0%nat. cbn [Nat.ltb Nat.leb orb]. change (mkParams 1 1 1) with (lim 1 1). replace (0 + 1 * 1) with 1 by ring.
  rewrite iloop_S by reflexivity. change (seq 0 (size px1)) with [0]%nat. match goal with |- context [f_reset ?s] => change (f_reset s) with (mkF [1] 1 1 [1] [0]%Z 0 0 1 0 0) end.
  rewrite (ipass_stay _ _ _ _ _ _ _ _ _ _ _ _ 0%nat (mkPoint [1] 1%Z 1%Z 0) 2 [2] 1); try reflexivity.
  2:{ cbn. f_equal. ring. }
  2:{ cbn. lra. }
  rewrite ipass_nil. cbn [obind f_e Nat.eqb orb].
  unfold ima_body, ima_scan. change (seq 0 (size px1)) with [0]%nat. cbn [ofold f_norm f_al f_w f_b f_index f_ctot f_s f_e f_lw f_n px1 d_points vget nth_error obind p_y].
  destruct (Req_EM_T 1 0) as [?|_]; [lra|]. destruct (Rle_dec 0 (2 + 1 * 1 * 0)) as [_|?]; [|lra]. cbn [fst snd]. replace ((2 + 1 * 1 * 0) / 1) with 2 by field. destruct (Rlt_dec 2 100) as [_|?]; [|lra].
  change (seq 0 (dim _)) with [0%nat]. cbn [map_outcome nth_error obind].
  cbn [im_it ima_start]. rewrite orb_true_r. cbn [obind]. eexists. split; [reflexivity|]. cbn [re_ok re_w re_b re_norm im_it im_w im_b im_norm Nat.eqb negb]. auto.
Qed.
Lemma c94_one_class_refuted_ex : exists r x, ima_train (fun _ _ => 0) L2 (lim 1 1) 0 (1/1000) 0 100 px1 (fun _ _ => true) (fun _ => true) 0 = Ok (Some r) /\ re_ok r = true /\ 0 < re_norm r /\ In x (d_points px1) /\
  value px1 (re_w r) (re_b r) x < 100 / 2 * re_norm r /\ rect px1 /\ index_perm px1 /\ (forall p, In p (d_points px1) -> p_y p = 1%Z).
Proof.
  destruct (px1_run (1/1000)) as (r & E & O & W & B & N). destruct px1_perm as (A & C). exists r, (mkPoint [1] 1%Z 1%Z 0). split; [exact E|]. split; [exact O|]. rewrite N, W, B. split; [lra|]. split; [left; reflexivity|].
  split; [unfold value, inner; cbn; lra|]. split; [exact A|]. split; [exact C|]. intros p [<-|[]]. reflexivity.
Qed.
