(** Lemmas on distances in double precision. *)
From Coq Require Import ZArith Bool List Reals Lia Lra Psatz.
From Flocq Require Import Core BinarySingleNaN Plus_error Relative.
From Verif Require Import Base ListLib M_Data L_Vec L_Valid Loop M_Perc M_F64 S_F64 L_F64 M_F64d S_F64d.
Import ListNotations.
Local Open Scope R_scope.

(** *** signs, not-a-number, infinities *)
Lemma sf_eq (x y : b64) : B2SF x = B2SF y -> x = y.
Proof. apply B2SF_inj. Qed.
Lemma fsub_cases x y : fin x -> fin y ->
  (fin (fsub x y) /\ rv (fsub x y) = rnd (rv x - rv y) /\ Rabs (rnd (rv x - rv y)) < bpow radix2 1024) \/ (exists s, fsub x y = B754_infinity s) /\ bpow radix2 1024 <= Rabs (rnd (rv x - rv y)).
Proof.
  intros Fx Fy. pose proof (Bminus_correct 53 1024 prec53 emax1024 mode_NE x y Fx Fy) as K. rewrite rnd_eq in K. change (B2R x) with (rv x) in K. change (B2R y) with (rv y) in K.
  destruct (Rlt_bool_spec (Rabs (rnd (rv x - rv y))) (bpow radix2 1024)) as [L|L].
  - left. destruct K as (A & B & _). auto.
  - right. destruct K as (A & _). split; [|exact L]. exists (Bsign x). apply sf_eq. unfold fsub. rewrite A. reflexivity.
Qed.
Lemma rnd_opp x : rnd (- x) = - rnd x.
Proof. apply round_NE_opp. Qed.
Lemma fsub_sym x y : Babs (fsub x y) = Babs (fsub y x).
Proof.
  destruct (is_finite x) eqn:Fx; [destruct (is_finite y) eqn:Fy|].
  - assert (rnd (rv y - rv x) = - rnd (rv x - rv y)) as E by (rewrite <- rnd_opp; f_equal; ring).
    destruct (fsub_cases x y Fx Fy) as [(A & B & C)|((s & A) & C)]; destruct (fsub_cases y x Fy Fx) as [(A' & B' & C')|((s' & A') & C')]; rewrite E, Rabs_Ropp in C'; try lra.
    + apply B2R_Bsign_inj; [rewrite is_finite_Babs; exact A|rewrite is_finite_Babs; exact A'| |now rewrite !Bsign_Babs]. rewrite !B2R_Babs. fold (rv (fsub x y)) (rv (fsub y x)). rewrite B, B', E, Rabs_Ropp. reflexivity.
    + rewrite A, A'. reflexivity.
  - destruct x; try discriminate Fx; destruct y; try discriminate Fy; reflexivity.
  - destruct x as [s|s| |s m e h]; try discriminate Fx; destruct y as [t|t| |t m e h]; try reflexivity. destruct s, t; reflexivity.
Qed.
Lemma fmul_abs x : fmul x x = fmul (Babs x) (Babs x).
Proof. destruct x as [s|s| |s m e h]; try destruct s; try reflexivity. apply sf_eq. unfold fmul, Bmult, Babs. rewrite !B2SF_SF2B. reflexivity. Qed.
Lemma abs_nonneg x : is_nan x = false -> nonneg64 (Babs x).
Proof. intro H. split; [|apply Bsign_Babs]. destruct x; auto. Qed.
Lemma fsub_nan x y : fin x -> fin y -> is_nan (fsub x y) = false.
Proof. intros Fx Fy. destruct (fsub_cases x y Fx Fy) as [(A & _)|((s & A) & _)]; [|rewrite A; reflexivity]. unfold fin in A. destruct (fsub x y); auto; discriminate. Qed.
Lemma fin_nan (x : b64) : fin x -> is_nan x = false.
Proof. unfold fin. destruct x; auto; discriminate. Qed.
Lemma nonneg_rv x : nonneg64 x -> 0 <= rv x.
Proof.
  intros (_ & S). unfold rv. destruct x as [s|s| |s m e h]; cbn in *; try lra. subst s. cbn [cond_Zopp]. apply F2R_ge_0. cbn. lia.
Qed.
Lemma fmul_nonneg x : is_nan x = false -> nonneg64 (fmul x x).
Proof.
  intro N. destruct (is_finite x) eqn:F.
  - pose proof (Bmult_correct 53 1024 prec53 emax1024 mode_NE x x) as K. destruct (Rlt_bool _ _).
    + destruct K as (_ & B & C). rewrite F in B. pose proof (fin_nan (fmul x x) B) as Q. split; [exact Q|]. unfold fmul in *. rewrite C by exact Q. apply xorb_nilpotent.
    + assert (fmul x x = B754_infinity (xorb (Bsign x) (Bsign x))) as -> by (apply sf_eq; unfold fmul; rewrite K; reflexivity). rewrite xorb_nilpotent. split; reflexivity.
  - destruct x as [s|s| |s m e h]; try discriminate. destruct s; split; reflexivity.
Qed.
Lemma fadd_cases x y : fin x -> fin y ->
  (fin (fadd x y) /\ rv (fadd x y) = rnd (rv x + rv y) /\ Bsign (fadd x y) = match Rcompare (rv x + rv y) 0 with Eq => Bsign x && Bsign y | Lt => true | Gt => false end) \/ (fadd x y = B754_infinity (Bsign x)).
Proof.
  intros Fx Fy. pose proof (Bplus_correct 53 1024 prec53 emax1024 mode_NE x y Fx Fy) as K. rewrite rnd_eq in K. change (B2R x) with (rv x) in K. change (B2R y) with (rv y) in K.
  destruct (Rlt_bool _ _); [left|right]; [exact (conj (proj1 (proj2 K)) (conj (proj1 K) (proj2 (proj2 K))))|]. apply sf_eq. destruct K as (A & _). unfold fadd. rewrite A. reflexivity.
Qed.
Lemma fadd_nonneg x y : nonneg64 x -> nonneg64 y -> nonneg64 (fadd x y).
Proof.
  intros (Nx & Sx) (Ny & Sy). destruct (is_finite x) eqn:Fx; [destruct (is_finite y) eqn:Fy|].
  - destruct (fadd_cases x y Fx Fy) as [(A & B & C)|C]; [|rewrite C, Sx; split; reflexivity]. split; [apply fin_nan, A|]. rewrite C, Sx. pose proof (nonneg_rv x (conj Nx Sx)). pose proof (nonneg_rv y (conj Ny Sy)).
    destruct (Rcompare_spec (rv x + rv y) 0); [lra|reflexivity|reflexivity].
  - destruct y as [s|s| |s m e h]; try discriminate. cbn in Sy. subst s. destruct x; try discriminate; split; reflexivity.
  - destruct x as [s|s| |s m e h]; try discriminate. cbn in Sx. subst s. destruct y as [t|t| |t m e h]; try discriminate; try (split; reflexivity). cbn in Sy. subst t. split; reflexivity.
Qed.
Lemma fsum_nonneg l : forall a, Forall nonneg64 l -> nonneg64 a -> nonneg64 (fold_left fadd l a).
Proof. induction l as [|x l IH]; intros a F A; cbn; [exact A|]. inversion F; subst. apply IH; [auto|]. now apply fadd_nonneg. Qed.
Lemma fmax_nonneg l : forall a, Forall nonneg64 l -> nonneg64 a -> nonneg64 (fold_left (fun m x => if flt m x then x else m) l a).
Proof. induction l as [|x l IH]; intros a F A; cbn; [exact A|]. inversion F; subst. apply IH; [auto|]. now destruct (flt a x). Qed.
Lemma fsqrt_nonneg x : nonneg64 x -> nonneg64 (Bsqrt mode_NE x).
Proof.
  intros (N & S). destruct (Bsqrt_correct 53 1024 prec53 emax1024 mode_NE x) as (_ & B & C). assert (is_nan (Bsqrt mode_NE x) = false) as Q.
  { destruct x as [s|s| |s m e h]; cbn in S; try subst s; try discriminate; try reflexivity. apply fin_nan, B. }
  split; [exact Q|]. now rewrite C.
Qed.
Lemma min_normal_ok : fin fmin_normal /\ rv fmin_normal = bpow radix2 (-1022) /\ nonneg64 fmin_normal.
Proof.
  pose proof (binary_normalize_correct 53 1024 prec53 emax1024 mode_NE 1 (-1022) false) as K. cbv zeta in K. rewrite rnd_eq in K.
  assert (F2R (Float radix2 1 (-1022)) = bpow radix2 (-1022)) as E by (unfold F2R; cbn [Fnum Fexp]; ring). rewrite E in K.
  assert (rnd (bpow radix2 (-1022)) = bpow radix2 (-1022)) as Q by (apply round_generic; [apply valid_rnd_N|apply format_pow; lia]). rewrite Q in K. rewrite Rabs_pos_eq in K by apply bpow_ge_0.
  rewrite Rlt_bool_true in K by (apply bpow_lt; lia). destruct K as (A & B & C). split; [exact B|]. split; [exact A|]. split; [apply fin_nan, B|]. unfold fmin_normal. rewrite C.
  rewrite Rcompare_Gt by apply bpow_gt_0. reflexivity.
Qed.

(** *** the differences *)
Definition diff_at (p q : list b64) (j : nat) : b64 := fsub (nth j p fzero) (nth j q fzero).
Lemma fdiff_ok p q : length p = length q -> fdiff p q = Ok (map (diff_at p q) (seq 0 (length p))).
Proof.
  intro L. unfold fdiff. rewrite L, Nat.eqb_refl, orb_true_r. assert ((if Nat.eqb (length q) 0 then length q else length q) = length q) as -> by now destruct (Nat.eqb _ _).
  apply map_outcome_ok. intros j Hj. apply in_seq in Hj. unfold vget. rewrite (nth_error_nth' p fzero) by lia. cbn [obind]. rewrite (nth_error_nth' q fzero) by lia. reflexivity.
Qed.
Lemma fdiff_short p q : length p <> length q -> fdiff p q = if Nat.eqb (length p) 0 || Nat.eqb (length q) 0 then UB else Abort.
Proof.
  intro N. unfold fdiff. destruct (Nat.eqb_spec (length p) (length q)); [contradiction|]. rewrite orb_false_r. destruct p as [|x p], q as [|y q]; cbn [length Nat.eqb orb seq map_outcome]; try reflexivity. cbn [length] in N. now destruct N.
Qed.
Lemma nth_fin p j : finite64 p -> fin (nth j p fzero).
Proof. intro F. destruct (Nat.lt_ge_cases j (length p)) as [H|H]; [|rewrite nth_overflow by exact H; reflexivity]. unfold finite64 in F. rewrite Forall_forall in F. apply F, nth_In, H. Qed.
Lemma diff_sym p q j : Babs (diff_at p q j) = Babs (diff_at q p j).
Proof. apply fsub_sym. Qed.

(** *** zero *)
Lemma rnd_plus_zero x y : generic_format radix2 (FLT_exp (-1074) 53) x -> generic_format radix2 (FLT_exp (-1074) 53) y -> rnd (x + y) = 0 -> x + y = 0.
Proof. intros Gx Gy H. apply round_plus_eq_0 with (beta := radix2) (fexp := FLT_exp (-1074) 53) (rnd := ZnearestE); auto; typeclasses eauto. Qed.
Lemma format_rv (x : b64) : generic_format radix2 (FLT_exp (-1074) 53) (rv x).
Proof. apply (generic_format_B2R 53 1024 x). Qed.
Lemma nonneg_zero x : nonneg64 x -> fin x -> rv x = 0 -> x = fzero.
Proof. intros (N & S) F E. apply B2R_Bsign_inj; auto. Qed.
Lemma abs0 r : Rabs r = 0 -> r = 0.
Proof. unfold Rabs. destruct (Rcase_abs r); lra. Qed.
Lemma fsub_zero x y : fin x -> fin y -> (Babs (fsub x y) = fzero <-> rv x = rv y).
Proof.
  intros Fx Fy. split.
  - intro H. destruct (fsub_cases x y Fx Fy) as [(A & B & _)|((s & A) & _)]; [|rewrite A in H; discriminate]. apply (f_equal rv) in H. unfold rv at 1 in H. rewrite B2R_Babs in H. change (B2R (fsub x y)) with (rv (fsub x y)) in H. rewrite B in H. change (rv fzero) with 0 in H.
    apply abs0 in H. apply rnd_plus_zero in H; [lra|apply format_rv|apply generic_format_opp, format_rv].
  - intro E. assert (rnd (rv x - rv y) = 0) as Z by (rewrite E, Rminus_diag_eq by reflexivity; apply round_0, valid_rnd_N). destruct (fsub_cases x y Fx Fy) as [(A & B & _)|(_ & C)]; [|rewrite Z, Rabs_R0 in C; pose proof (bpow_gt_0 radix2 1024); lra].
    apply nonneg_zero; [apply abs_nonneg, fin_nan, A|unfold fin; rewrite is_finite_Babs; exact A|]. unfold rv. rewrite B2R_Babs. change (B2R (fsub x y)) with (rv (fsub x y)). rewrite B, Z. apply Rabs_R0.
Qed.
Lemma fadd_zero_inv x y : nonneg64 x -> nonneg64 y -> fadd x y = fzero -> x = fzero /\ y = fzero.
Proof.
  intros Px Py H. destruct (is_finite x) eqn:Fx; [destruct (is_finite y) eqn:Fy|].
  - destruct (fadd_cases x y Fx Fy) as [(A & B & _)|C]; [|rewrite H in C; discriminate]. rewrite H in B. change (rv fzero) with 0 in B. symmetry in B. apply rnd_plus_zero in B; [|apply format_rv|apply format_rv].
    pose proof (nonneg_rv x Px). pose proof (nonneg_rv y Py). split; apply nonneg_zero; auto; lra.
  - destruct Py as (Ny & Sy). destruct y as [s|s| |s m e h]; try discriminate. destruct x; discriminate.
  - destruct Px as (Nx & Sx). destruct x as [s|s| |s m e h]; try discriminate. destruct Py as (Ny & Sy). cbn in Sx. subst s. destruct y as [t|t| |t m e h]; try discriminate. cbn in Sy. subst t. discriminate.
Qed.
Lemma fsum_zero_inv l : forall a, Forall nonneg64 l -> nonneg64 a -> fold_left fadd l a = fzero -> a = fzero /\ Forall (fun x => x = fzero) l.
Proof.
  induction l as [|x l IH]; intros a F A H; cbn in H; [auto|]. inversion F; subst. destruct (IH _ H3 (fadd_nonneg _ _ A H2) H) as (E & G). destruct (fadd_zero_inv a x A H2 E) as (-> & ->). auto.
Qed.
Lemma fsum_zeros l : Forall (fun x => x = fzero) l -> fold_left fadd l fzero = fzero.
Proof. induction 1 as [|x l H F IH]; [reflexivity|]. cbn [fold_left]. rewrite H. exact IH. Qed.

(** *** errors *)
Definition U : R := half_ulp.
Lemma U_small : 0 < U <= / 1024.
Proof. split; [apply bpow_gt_0|]. unfold U, half_ulp. change (/ 1024) with (bpow radix2 (-10)). apply bpow_le. lia. Qed.
Lemma fsub_rel x y : fin x -> fin y -> Rabs (rv x - rv y) <= bpow radix2 1023 -> fin (fsub x y) /\ (1 - U) * Rabs (rv x - rv y) <= Rabs (rv (fsub x y)) <= (1 + U) * Rabs (rv x - rv y).
Proof.
  intros Fx Fy H. destruct (fsub_cases x y Fx Fy) as [(A & B & _)|(_ & C)]; [|pose proof (rnd_small _ H); lra]. split; [exact A|]. rewrite B.
  destruct (FLT_plus_error_N_ex radix2 (-1074) 53 (fun z => negb (Z.even z)) (rv x) (- rv y)) as (eps & He & E); [apply format_rv|apply generic_format_opp, format_rv|]. unfold Rminus. rewrite E, Rabs_mult.
  assert (Rabs eps <= U) as Le. { eapply Rle_trans; [exact He|]. rewrite <- half_ulp_eq. fold U. pose proof U_small. apply Rmult_le_reg_r with (1 + U); [lra|]. unfold Rdiv. rewrite Rmult_assoc, Rinv_l, Rmult_1_r by lra. nra. }
  pose proof U_small as (U0 & U1). pose proof (Rabs_pos (rv x + - rv y)) as P. assert (1 - U <= Rabs (1 + eps) <= 1 + U) as (L1 & L2) by (revert Le; unfold Rabs; destruct (Rcase_abs eps), (Rcase_abs (1 + eps)); lra). split; [rewrite Rmult_comm; apply Rmult_le_compat_l; auto|rewrite (Rmult_comm (1 + U)); apply Rmult_le_compat_l; auto].
Qed.
Lemma fadd_rel x y : fin x -> fin y -> 0 <= rv x -> 0 <= rv y -> rv x + rv y <= bpow radix2 1023 -> fin (fadd x y) /\ (1 - U) * (rv x + rv y) <= rv (fadd x y) <= (1 + U) * (rv x + rv y).
Proof.
  intros Fx Fy Px Py H. assert (Rabs (rv x + rv y) = rv x + rv y) as E by (apply Rabs_pos_eq; lra). destruct (fadd_err x y Fx Fy) as (A & B); [rewrite E; exact H|]. split; [exact A|]. rewrite E in B. fold U in B. apply Rabs_le_inv in B. lra.
Qed.
Lemma normal_rel x : bpow radix2 (-1022) <= Rabs x -> Rabs (rnd x - x) <= U * Rabs x.
Proof.
  intro H. pose proof (relative_error_N_FLT radix2 (-1074) 53 eq_refl (fun z => negb (Z.even z)) x H) as K. change (/ 2 * bpow radix2 (Z.opp 53 + 1)) with (u_ro radix2 53) in K. rewrite <- half_ulp_eq in K. exact K.
Qed.
Lemma pow1 n : (1 - U) ^ n <= 1 <= (1 + U) ^ n.
Proof.
  pose proof U_small as (U0 & U1). generalize dependent U. intros u U0 U1. split; [|apply pow_R1_Rle; lra]. induction n as [|n IH]; cbn [pow]; [lra|]. assert (0 <= (1 - u) ^ n) by (apply pow_le; lra). nra.
Qed.
Lemma pow_low n : 0 < (1 - U) ^ n.
Proof. pose proof U_small. apply pow_lt. lra. Qed.

(** The sum of doubles that are close to not negative reals is close to the sum of the reals. *)
Lemma sum_rel k (g : nat -> b64) (e : nat -> R) n : (forall j, (j < n)%nat -> 0 <= e j /\ fin (g j) /\ (1 - U) ^ k * e j <= rv (g j) <= (1 + U) ^ k * e j) -> (1 + U) ^ (k + n) * sumn n e <= bpow radix2 1023 ->
  fin (fsum (map g (seq 0 n))) /\ (1 - U) ^ (k + n) * sumn n e <= rv (fsum (map g (seq 0 n))) <= (1 + U) ^ (k + n) * sumn n e.
Proof.
  pose proof U_small as (U0 & U1). induction n as [|n IH]; intros H B; [cbn [seq map sumn]; split; [reflexivity|]; change (rv (fsum [])) with 0; lra|].
  assert (forall j, (j < S n)%nat -> 0 <= e j) as Pe by (intros j Hj; apply (H j Hj)). assert (0 <= sumn n e) as Ps by (apply sumn_nonneg; intros; apply Pe; lia). destruct (H n ltac:(lia)) as (En & Fn & L1 & L2). cbn [sumn] in *.
  rewrite <- plus_n_Sm in *. cbn [pow] in *. pose proof (pow1 k) as (K1 & K2). pose proof (pow1 n) as (N1 & N2). pose proof (pow_low k) as Kl. pose proof (pow_low n) as Nl.
  set (A := (1 + U) ^ (k + n)) in *. set (D := (1 - U) ^ (k + n)) in *. assert ((1 + U) ^ k <= A) as KA by (unfold A; rewrite pow_add; rewrite <- (Rmult_1_r ((1 + U) ^ k)) at 1; apply Rmult_le_compat_l; lra).
  assert (D <= (1 - U) ^ k) as KD by (unfold D; rewrite pow_add; rewrite <- (Rmult_1_r ((1 - U) ^ k)) at 2; apply Rmult_le_compat_l; lra). assert (0 < D) as D0 by apply pow_low. assert (1 <= A) as A1 by apply pow1.
  assert (A * (sumn n e + e n) <= (1 + U) * A * (sumn n e + e n)) as Le1. { rewrite Rmult_assoc. assert (0 <= A * (sumn n e + e n)) by (apply Rmult_le_pos; lra). nra. }
  assert (0 <= A * e n) as Q1 by (apply Rmult_le_pos; lra). destruct IH as (F & M1 & M2); [intros; apply H; lia|rewrite Rmult_plus_distr_l in Le1; lra|].
  rewrite seq_S, map_app. unfold fsum in *. rewrite fold_left_app. cbn [map fold_left Nat.add]. set (acc := fold_left fadd (map g (seq 0 n)) fzero) in *.
  assert ((1 + U) ^ k * e n <= A * e n) as Q2 by (apply Rmult_le_compat_r; lra). assert (D * e n <= (1 - U) ^ k * e n) as Q3 by (apply Rmult_le_compat_r; lra). assert (0 <= D * e n) as Q4 by (apply Rmult_le_pos; lra). assert (0 <= D * sumn n e) as Q5 by (apply Rmult_le_pos; lra).
  destruct (fadd_rel acc (g n) F Fn) as (R1 & R2 & R3); [lra|lra|rewrite Rmult_plus_distr_l in Le1; lra|]. split; [exact R1|]. split.
  - eapply Rle_trans; [|exact R2]. rewrite Rmult_assoc. apply Rmult_le_compat_l; [lra|]. rewrite Rmult_plus_distr_l. lra.
  - eapply Rle_trans; [exact R3|]. rewrite Rmult_assoc. apply Rmult_le_compat_l; [lra|]. rewrite Rmult_plus_distr_l. lra.
Qed.
(** A sum of numbers that are not negative is at least each of them. *)
Lemma fadd_fin_inv x y : nonneg64 x -> nonneg64 y -> fin (fadd x y) -> fin x /\ fin y.
Proof.
  intros (Nx & Sx) (Ny & Sy) F. unfold fin in *. destruct x as [s|s| |s m e h], y as [t|t| |t m' e' h']; cbn in Sx, Sy; subst; try discriminate; try (split; reflexivity); discriminate F.
Qed.
Lemma fadd_ge x y : nonneg64 x -> nonneg64 y -> fin (fadd x y) -> rv x <= rv (fadd x y) /\ rv y <= rv (fadd x y).
Proof.
  intros Px Py F. destruct (fadd_fin_inv x y Px Py F) as (Fx & Fy). destruct (fadd_cases x y Fx Fy) as [(_ & E & _)|E]; [|rewrite E in F; discriminate]. rewrite E. pose proof (nonneg_rv x Px). pose proof (nonneg_rv y Py).
  split; apply round_ge_generic; try apply valid_rnd_N; try apply FLT_exp_valid; try reflexivity; try apply format_rv; lra.
Qed.
Lemma fsum_ge l : forall a, Forall nonneg64 l -> nonneg64 a -> fin (fold_left fadd l a) -> fin a /\ rv a <= rv (fold_left fadd l a) /\ forall x, In x l -> rv x <= rv (fold_left fadd l a).
Proof.
  induction l as [|x l IH]; intros a F A H; cbn [fold_left] in *; [split; [exact H|split; [lra|intros ? []]]|]. inversion F; subst. destruct (IH _ H3 (fadd_nonneg _ _ A H2) H) as (F1 & L1 & L2). destruct (fadd_ge a x A H2 F1) as (M1 & M2). destruct (fadd_fin_inv a x A H2 F1) as (Fa & _).
  split; [exact Fa|]. split; [lra|]. intros y [->|Hy]; [lra|auto].
Qed.
