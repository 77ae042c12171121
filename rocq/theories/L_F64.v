(** Lemmas on double precision. *)
From Coq Require Import ZArith Bool List Reals Lia Lra.
From Flocq Require Import Core BinarySingleNaN Plus_error Relative.
From Verif Require Import Base M_Data L_Vec Loop M_Perc M_F64 S_F64.
Import ListNotations.
Local Open Scope R_scope.

Notation rnd := (round radix2 (FLT_exp (-1074) 53) ZnearestE).
Lemma rnd_eq x : round radix2 (SpecFloat.fexp 53 1024) (round_mode mode_NE) x = rnd x.
Proof. reflexivity. Qed.
Lemma format_pow e : (-1074 <= e)%Z -> generic_format radix2 (FLT_exp (-1074) 53) (bpow radix2 e).
Proof. intro H. apply generic_format_bpow. unfold FLT_exp. lia. Qed.
Lemma rnd_small x : Rabs x <= bpow radix2 1023 -> Rabs (rnd x) < bpow radix2 1024.
Proof.
  intro H. apply Rle_lt_trans with (bpow radix2 1023); [|apply bpow_lt; lia].
  apply abs_round_le_generic; auto; [apply FLT_exp_valid; reflexivity|apply valid_rnd_N|apply format_pow; lia].
Qed.
Lemma fadd_ok x y : fin x -> fin y -> Rabs (rv x + rv y) <= bpow radix2 1023 -> fin (fadd x y) /\ rv (fadd x y) = rnd (rv x + rv y).
Proof.
  intros Fx Fy H. pose proof (Bplus_correct 53 1024 prec53 emax1024 mode_NE x y Fx Fy) as K. rewrite rnd_eq in K. change (B2R x) with (rv x) in K. change (B2R y) with (rv y) in K.
  rewrite Rlt_bool_true in K by (apply rnd_small, H). destruct K as (A & B & _). split; [exact B|exact A].
Qed.
Lemma fmul_ok x y : fin x -> fin y -> Rabs (rv x * rv y) <= bpow radix2 1023 -> fin (fmul x y) /\ rv (fmul x y) = rnd (rv x * rv y).
Proof.
  intros Fx Fy H. pose proof (Bmult_correct 53 1024 prec53 emax1024 mode_NE x y) as K. rewrite rnd_eq in K. change (B2R x) with (rv x) in K. change (B2R y) with (rv y) in K.
  rewrite Rlt_bool_true in K by (apply rnd_small, H). destruct K as (A & B & _). rewrite Fx, Fy in B. split; [exact B|exact A].
Qed.
Lemma int_format z : (Z.abs z < 2 ^ 53)%Z -> generic_format radix2 (FLT_exp (-1074) 53) (IZR z).
Proof.
  intro H. apply generic_format_FLT. exists (Float radix2 z 0); [unfold F2R; cbn; ring|exact H|cbn; lia].
Qed.
Lemma int_small z : (Z.abs z < 2 ^ 53)%Z -> Rabs (IZR z) <= bpow radix2 1023.
Proof.
  intro H. rewrite <- abs_IZR. apply Rle_trans with (bpow radix2 53); [|apply bpow_le; lia]. change (bpow radix2 53) with (IZR (2 ^ 53)). apply IZR_le. lia.
Qed.
Lemma fadd_int x y z : fin x -> fin y -> rv x + rv y = IZR z -> (Z.abs z < 2 ^ 53)%Z -> fin (fadd x y) /\ rv (fadd x y) = IZR z.
Proof.
  intros Fx Fy E H. destruct (fadd_ok x y Fx Fy) as (A & B); [rewrite E; apply int_small, H|]. split; [exact A|]. rewrite B, E. apply round_generic; [apply valid_rnd_N|apply int_format, H].
Qed.
Lemma fmul_int x y z : fin x -> fin y -> rv x * rv y = IZR z -> (Z.abs z < 2 ^ 53)%Z -> fin (fmul x y) /\ rv (fmul x y) = IZR z.
Proof.
  intros Fx Fy E H. destruct (fmul_ok x y Fx Fy) as (A & B); [rewrite E; apply int_small, H|]. split; [exact A|]. rewrite B, E. apply round_generic; [apply valid_rnd_N|apply int_format, H].
Qed.
Lemma fofZ_ok z : (Z.abs z < 2 ^ 53)%Z -> fin (fofZ z) /\ rv (fofZ z) = IZR z.
Proof.
  intro H. pose proof (binary_normalize_correct 53 1024 prec53 emax1024 mode_NE z 0 false) as K. cbv zeta in K. rewrite rnd_eq in K.
  assert (F2R (Float radix2 z 0) = IZR z) as E by (unfold F2R; cbn; ring). rewrite E in K. rewrite Rlt_bool_true in K by (apply rnd_small, int_small, H). destruct K as (A & B & _).
  split; [exact B|]. unfold rv, fofZ. rewrite A. apply round_generic; [apply valid_rnd_N|apply int_format, H].
Qed.
Lemma fzero_ok : fin fzero /\ rv fzero = 0.
Proof. split; reflexivity. Qed.
Lemma fle_ok x y : fin x -> fin y -> fle x y = if Rle_dec (rv x) (rv y) then true else false.
Proof. intros Fx Fy. unfold fle. rewrite Bleb_correct by assumption. unfold Rle_bool, rv. destruct (Rle_dec (B2R x) (B2R y)) as [L|L]; destruct (Rcompare_spec (B2R x) (B2R y)); try reflexivity; lra. Qed.

(** Rounding errors. *)
Lemma half_ulp_eq : half_ulp = u_ro radix2 53.
Proof. unfold half_ulp, u_ro. change (bpow radix2 (Z.opp 53 + 1)) with (bpow radix2 (-53 + 1)). rewrite (bpow_plus radix2 (-53) 1). change (bpow radix2 1) with 2. lra. Qed.
Lemma half_ulp_pos : 0 < half_ulp.
Proof. apply bpow_gt_0. Qed.
Lemma tiny_pos : 0 < tiny.
Proof. apply bpow_gt_0. Qed.
Lemma fadd_err x y : fin x -> fin y -> Rabs (rv x + rv y) <= bpow radix2 1023 -> fin (fadd x y) /\ Rabs (rv (fadd x y) - (rv x + rv y)) <= half_ulp * Rabs (rv x + rv y).
Proof.
  intros Fx Fy H. destruct (fadd_ok x y Fx Fy H) as (A & B). split; [exact A|]. rewrite B.
  destruct (FLT_plus_error_N_ex radix2 (-1074) 53 (fun z => negb (Z.even z)) (rv x) (rv y)) as (eps & He & E).
  - apply (generic_format_B2R 53 1024 x).
  - apply (generic_format_B2R 53 1024 y).
  - rewrite E. replace ((rv x + rv y) * (1 + eps) - (rv x + rv y)) with (eps * (rv x + rv y)) by ring. rewrite Rabs_mult. apply Rmult_le_compat_r; [apply Rabs_pos|].
    eapply Rle_trans; [exact He|]. rewrite <- half_ulp_eq. pose proof half_ulp_pos. apply Rmult_le_reg_r with (1 + half_ulp); [lra|]. unfold Rdiv. rewrite Rmult_assoc, Rinv_l, Rmult_1_r by lra.
    assert (0 <= half_ulp * half_ulp) by (apply Rmult_le_pos; lra). lra.
Qed.
Lemma rnd_err x : Rabs (rnd x - x) <= half_ulp * Rabs x + / 2 * tiny.
Proof.
  assert (0 <= / 2 * tiny) as P by (pose proof tiny_pos; lra). destruct (Rlt_or_le (Rabs x) (bpow radix2 (-1074 + 53 - 1))) as [H|H].
  - apply Rle_trans with (/ 2 * ulp radix2 (FLT_exp (-1074) 53) x); [apply error_le_half_ulp; apply FLT_exp_valid; reflexivity|].
    rewrite ulp_FLT_small; [fold tiny; pose proof half_ulp_pos; pose proof (Rabs_pos x); assert (0 <= half_ulp * Rabs x) by (apply Rmult_le_pos; lra); lra|reflexivity|].
    eapply Rlt_trans; [exact H|]. apply bpow_lt. lia.
  - pose proof (relative_error_N_FLT radix2 (-1074) 53 eq_refl (fun z => negb (Z.even z)) x H) as K. change (/ 2 * bpow radix2 (Z.opp 53 + 1)) with (u_ro radix2 53) in K. rewrite <- half_ulp_eq in K. lra.
Qed.
Lemma fmul_err x y : fin x -> fin y -> Rabs (rv x * rv y) <= bpow radix2 1023 -> fin (fmul x y) /\ Rabs (rv (fmul x y) - rv x * rv y) <= half_ulp * Rabs (rv x * rv y) + / 2 * tiny.
Proof. intros Fx Fy H. destruct (fmul_ok x y Fx Fy H) as (A & B). split; [exact A|]. rewrite B. apply rnd_err. Qed.
