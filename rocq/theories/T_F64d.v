(** C143: distances in double precision. *)
From Coq Require Import SpecFloat ZArith Bool List Reals Lia Lra Psatz.
From Flocq Require Import Core BinarySingleNaN Plus_error Relative.
From Verif Require Import Base ListLib M_Data L_Vec L_Valid Loop M_Perc M_F64 S_F64 L_F64 M_F64d S_F64d L_F64d.
Import ListNotations.
Local Open Scope R_scope.

(** C143: the distance from p to q and the one from q to p are the same double (or end the same way), for all doubles and sizes. *)
Lemma c143_symmetric : forall k p q, dist64 k p q = dist64 k q p.
Proof.
  intros k p q. destruct (Nat.eq_dec (length p) (length q)) as [L|L].
  - assert (map Babs (map (diff_at p q) (seq 0 (length p))) = map Babs (map (diff_at q p) (seq 0 (length q)))) as E by (rewrite L, !map_map; apply map_ext; intro j; apply diff_sym).
    assert (map (fun x => fmul x x) (map (diff_at p q) (seq 0 (length p))) = map (fun x => fmul x x) (map (diff_at q p) (seq 0 (length q)))) as E2.
    { rewrite L, !map_map. apply map_ext. intro j. rewrite (fmul_abs (diff_at p q j)), (fmul_abs (diff_at q p j)), diff_sym. reflexivity. }
    destruct k; cbn [dist64]; unfold fmanhattan, fchebyshev, feuclidean; rewrite !fdiff_ok by auto; cbn [obind]; rewrite ?E, ?E2; reflexivity.
  - assert (fdiff p q = fdiff q p) as E by (rewrite !fdiff_short by auto; rewrite orb_comm; reflexivity).
    assert (forall d, fdiff p q <> Ok d) as N by (intros d; rewrite fdiff_short by auto; destruct (orb _ _); discriminate).
    destruct k; cbn [dist64]; unfold fmanhattan, fchebyshev, feuclidean; rewrite <- E; destruct (fdiff p q); try reflexivity; now destruct (N a).
Qed.
Lemma diffs_nonneg p q : finite64 p -> finite64 q -> Forall nonneg64 (map Babs (map (diff_at p q) (seq 0 (length p)))) /\ Forall nonneg64 (map (fun x => fmul x x) (map (diff_at p q) (seq 0 (length p)))).
Proof.
  intros Fp Fq. rewrite !map_map. split; apply Forall_forall; intros x Hx; apply in_map_iff in Hx as (j & <- & _); [apply abs_nonneg|apply fmul_nonneg]; apply fsub_nan; apply nth_fin; auto.
Qed.
(** C143: between points of finite coordinates and the same size a distance is never not-a-number and never negative. *)
Lemma c143_nonneg : forall k p q, finite64 p -> finite64 q -> length p = length q -> exists r, dist64 k p q = Ok r /\ nonneg64 r.
Proof.
  intros k p q Fp Fq L. destruct (diffs_nonneg p q Fp Fq) as (A & B). assert (nonneg64 fzero) as Z by (split; reflexivity).
  destruct k; cbn [dist64]; unfold fmanhattan, fchebyshev, feuclidean; rewrite fdiff_ok by auto; cbn [obind]; eexists; (split; [reflexivity|]).
  - now apply fsum_nonneg.
  - apply fmax_nonneg; [auto|apply min_normal_ok].
  - apply fsqrt_nonneg. now apply fsum_nonneg.
Qed.
(** C143: the Manhattan distance is 0 exactly between points that stand for the same numbers. *)
Lemma c143_zero : forall p q, finite64 p -> finite64 q -> length p = length q -> (fmanhattan p q = Ok fzero <-> map rv p = map rv q).
Proof.
  intros p q Fp Fq L. unfold fmanhattan. rewrite fdiff_ok by auto. cbn [obind]. destruct (diffs_nonneg p q Fp Fq) as (A & _). split.
  - intro H. injection H as H. apply fsum_zero_inv in H as (_ & H); [|exact A|split; reflexivity]. apply nth_ext with (d := rv fzero) (d' := rv fzero); [now rewrite !map_length|]. rewrite map_length. intros j Hj. rewrite !map_nth. apply fsub_zero; [now apply nth_fin|now apply nth_fin|].
    rewrite map_map in H. rewrite Forall_forall in H. apply H. apply (in_map (fun j => Babs (diff_at p q j))). apply in_seq. lia.
  - intro E. f_equal. apply fsum_zeros. rewrite map_map. apply Forall_forall. intros x Hx. apply in_map_iff in Hx as (j & <- & Hj). apply fsub_zero; [now apply nth_fin|now apply nth_fin|]. rewrite <- !(map_nth rv). now rewrite E.
Qed.
(** C143: if it does not overflow, the Manhattan distance has a relative error of at most n + 1 roundings. *)
Lemma c143_manhattan : forall p q, finite64 p -> finite64 q -> length p = length q -> (1 + half_ulp) ^ (1 + length p) * exact_l1 p q <= bpow radix2 1023 ->
  exists r, fmanhattan p q = Ok r /\ fin r /\ (1 - half_ulp) ^ (1 + length p) * exact_l1 p q <= rv r <= (1 + half_ulp) ^ (1 + length p) * exact_l1 p q.
Proof.
  intros p q Fp Fq L B. unfold fmanhattan. rewrite fdiff_ok by auto. cbn [obind]. eexists. split; [reflexivity|]. rewrite map_map. fold U in *. apply (sum_rel 1 (fun j => Babs (diff_at p q j)) (fun j => Rabs (at64 p j - at64 q j))); [|exact B].
  intros j Hj. pose proof U_small as (U0 & U1). assert (Rabs (at64 p j - at64 q j) <= bpow radix2 1023) as S.
  { apply Rle_trans with (exact_l1 p q). - unfold exact_l1. clear - Hj. induction (length p) as [|n IH]; [lia|]. cbn [sumn]. assert (0 <= sumn n (fun j => Rabs (at64 p j - at64 q j))) by (apply sumn_nonneg; intros; apply Rabs_pos). pose proof (Rabs_pos (at64 p n - at64 q n)). destruct (Nat.eq_dec j n) as [->|]; [lra|]. specialize (IH ltac:(lia)). lra.
    - eapply Rle_trans; [|exact B]. assert (0 <= exact_l1 p q) by (apply sumn_nonneg; intros; apply Rabs_pos). pose proof (pow1 (1 + length p)) as (_ & K). rewrite <- (Rmult_1_l (exact_l1 p q)) at 1. apply Rmult_le_compat_r; auto. }
  destruct (fsub_rel (nth j p fzero) (nth j q fzero) (nth_fin p j Fp) (nth_fin q j Fq) S) as (A & C). split; [apply Rabs_pos|]. split; [unfold fin; rewrite is_finite_Babs; exact A|]. rewrite !pow_1. unfold rv at 1 2. rewrite B2R_Babs. exact C.
Qed.
Lemma sq_rel x y : fin x -> fin y -> (rv x - rv y) * (rv x - rv y) * (1 + U) ^ 3 <= bpow radix2 1023 -> rv x = rv y \/ bpow radix2 (-500) <= Rabs (rv x - rv y) ->
  fin (fmul (fsub x y) (fsub x y)) /\ (1 - U) ^ 3 * ((rv x - rv y) * (rv x - rv y)) <= rv (fmul (fsub x y) (fsub x y)) <= (1 + U) ^ 3 * ((rv x - rv y) * (rv x - rv y)).
Proof.
  intros Fx Fy B S. pose proof U_small as (U0 & U1). set (e := rv x - rv y) in *. assert (0 <= e * e) as P2 by apply Rle_0_sqr. pose proof (pow1 3) as (_ & K3).
  assert (e * e <= bpow radix2 1023) as B1 by (eapply Rle_trans; [|exact B]; rewrite <- (Rmult_1_r (e * e)) at 1; apply Rmult_le_compat_l; auto).
  assert (Rabs e <= bpow radix2 1023) as Be. { destruct (Rle_or_lt (Rabs e) 1) as [H|H]; [apply Rle_trans with 1; [exact H|change 1 with (bpow radix2 0); apply bpow_le; lia]|]. apply Rle_trans with (e * e); [|exact B1]. rewrite <- (Rabs_pos_eq (e * e)) by exact P2. rewrite Rabs_mult. rewrite <- (Rmult_1_r (Rabs e)) at 1. apply Rmult_le_compat_l; lra. }
  destruct (fsub_rel x y Fx Fy Be) as (A & L1 & L2). fold e in L1, L2. set (d := fsub x y) in *. assert (rv d * rv d = Rabs (rv d) * Rabs (rv d)) as Ed by (rewrite <- Rabs_mult, Rabs_pos_eq; [reflexivity|apply Rle_0_sqr]). assert (e * e = Rabs e * Rabs e) as Ee by (rewrite <- Rabs_mult, Rabs_pos_eq; [reflexivity|exact P2]).
  pose proof (Rabs_pos e) as Pe. pose proof (Rabs_pos (rv d)) as Pd.
  assert ((1 - U) ^ 2 * (e * e) <= rv d * rv d <= (1 + U) ^ 2 * (e * e)) as (Q1 & Q2).
  { rewrite Ed, Ee. cbn [pow]. split.
    - replace ((1 - U) * ((1 - U) * 1) * (Rabs e * Rabs e)) with ((1 - U) * Rabs e * ((1 - U) * Rabs e)) by ring. apply Rmult_le_compat; auto; apply Rmult_le_pos; lra.
    - replace ((1 + U) * ((1 + U) * 1) * (Rabs e * Rabs e)) with ((1 + U) * Rabs e * ((1 + U) * Rabs e)) by ring. apply Rmult_le_compat; auto. }
  assert (0 <= rv d * rv d) as P3 by apply Rle_0_sqr.
  assert ((1 + U) ^ 2 * (e * e) <= (1 + U) ^ 3 * (e * e)) as Q3. { apply Rmult_le_compat_r; [exact P2|]. change ((1 + U) ^ 3) with ((1 + U) * (1 + U) ^ 2). pose proof (pow1 2). nra. }
  destruct (fmul_ok d d A A) as (F & E). { rewrite Rabs_pos_eq by exact P3. rewrite (Rmult_comm _ (e * e)) in Q3. rewrite (Rmult_comm _ (e * e)) in Q2. rewrite (Rmult_comm _ (e * e)) in Q3. lra. }
  split; [exact F|]. rewrite E. assert (Rabs (rnd (rv d * rv d) - rv d * rv d) <= U * (rv d * rv d)) as K.
  { destruct S as [S|S].
    - assert (e = 0) as Z by (unfold e; lra). rewrite Z, Rmult_0_l, Rmult_0_r in Q2. assert (rv d * rv d = 0) as -> by lra. rewrite round_0 by apply valid_rnd_N. rewrite Rminus_0_r, Rabs_R0. lra.
    - rewrite <- (Rabs_pos_eq (rv d * rv d)) at 3 by exact P3. apply normal_rel. rewrite (Rabs_pos_eq _ P3). eapply Rle_trans; [|exact Q1]. rewrite Ee. apply Rle_trans with ((1 - U) ^ 2 * (bpow radix2 (-500) * bpow radix2 (-500))).
      + rewrite <- bpow_plus. apply Rle_trans with (bpow radix2 (-2) * bpow radix2 (-500 + -500)); [rewrite <- bpow_plus; apply bpow_le; lia|]. apply Rmult_le_compat_r; [apply bpow_ge_0|]. change (bpow radix2 (-2)) with (/ 4). cbn [pow]. nra.
      + apply Rmult_le_compat_l; [pose proof (pow_low 2); lra|]. pose proof (bpow_ge_0 radix2 (-500)). apply Rmult_le_compat; auto. }
  apply Rabs_le_inv in K. change ((1 - U) ^ 3) with ((1 - U) * (1 - U) ^ 2). change ((1 + U) ^ 3) with ((1 + U) * (1 + U) ^ 2). split; [apply Rle_trans with ((1 - U) * (rv d * rv d)); [rewrite Rmult_assoc; apply Rmult_le_compat_l; lra|lra]|apply Rle_trans with ((1 + U) * (rv d * rv d)); [lra|rewrite Rmult_assoc; apply Rmult_le_compat_l; lra]].
Qed.
Lemma sqrt_rel x : fin x -> Bsign x = false -> rv x = 0 \/ bpow radix2 (-1004) <= rv x -> fin (Bsqrt mode_NE x) /\ (1 - U) ^ 2 * rv x <= rv (Bsqrt mode_NE x) * rv (Bsqrt mode_NE x) <= (1 + U) ^ 2 * rv x /\ 0 <= rv (Bsqrt mode_NE x).
Proof.
  intros Fx Sx H. pose proof U_small as (U0 & U1). destruct (Bsqrt_correct 53 1024 prec53 emax1024 mode_NE x) as (A & B & C). rewrite rnd_eq in A. assert (fin (Bsqrt mode_NE x)) as F by (unfold fin; rewrite B; destruct x as [s|s| |s m e h]; cbn in *; try discriminate; subst; reflexivity).
  split; [exact F|]. assert (0 <= rv (Bsqrt mode_NE x)) as P by (apply nonneg_rv; split; [apply fin_nan, F|rewrite C by (apply fin_nan, F); exact Sx]). split; [|exact P]. assert (0 <= rv x) as Px by (apply nonneg_rv; split; [apply fin_nan, Fx|exact Sx]).
  change (B2R (Bsqrt mode_NE x)) with (rv (Bsqrt mode_NE x)) in A. change (B2R x) with (rv x) in A. set (r := rv (Bsqrt mode_NE x)) in *. set (q := sqrt (rv x)) in *. assert (q * q = rv x) as Q by (apply sqrt_sqrt, Px). pose proof (sqrt_pos (rv x)) as Pq. fold q in Pq.
  assert (Rabs (r - q) <= U * q) as K. { rewrite A. destruct H as [H|H]; [unfold q; rewrite H, sqrt_0, round_0 by apply valid_rnd_N; rewrite Rminus_0_r, Rabs_R0; lra|]. rewrite <- (Rabs_pos_eq q) at 3 by exact Pq. apply normal_rel. rewrite (Rabs_pos_eq _ Pq). apply Rsqr_incr_0_var; [|exact Pq]. unfold Rsqr. rewrite Q. eapply Rle_trans; [|exact H]. rewrite <- bpow_plus. apply bpow_le. lia. }
  apply Rabs_le_inv in K. rewrite <- Q. cbn [pow]. split.
  - replace ((1 - U) * ((1 - U) * 1) * (q * q)) with ((1 - U) * q * ((1 - U) * q)) by ring. apply Rmult_le_compat; try lra; apply Rmult_le_pos; lra.
  - replace ((1 + U) * ((1 + U) * 1) * (q * q)) with ((1 + U) * q * ((1 + U) * q)) by ring. apply Rmult_le_compat; lra.
Qed.
Lemma le_sum n (f : nat -> R) j : (forall i, 0 <= f i) -> (j < n)%nat -> f j <= sumn n f.
Proof. intro P. induction n as [|n IH]; intro H; [lia|]. cbn [sumn]. assert (0 <= sumn n f) by (apply sumn_nonneg; auto). pose proof (P n). destruct (Nat.eq_dec j n) as [->|]; [lra|]. specialize (IH ltac:(lia)). lra. Qed.
(** C143: if it does not overflow and no difference is so small that its square is lost, the square of the Euclidean distance has a relative error of at most n + 5 roundings. *)
Lemma c143_euclidean : forall p q, finite64 p -> finite64 q -> length p = length q -> spread p q -> (1 + half_ulp) ^ (5 + length p) * exact_sq p q <= bpow radix2 1023 ->
  exists r, feuclidean p q = Ok r /\ fin r /\ 0 <= rv r /\ (1 - half_ulp) ^ (5 + length p) * exact_sq p q <= rv r * rv r <= (1 + half_ulp) ^ (5 + length p) * exact_sq p q.
Proof.
  intros p q Fp Fq L Sp B. unfold feuclidean. rewrite fdiff_ok by auto. cbn [obind]. eexists. split; [reflexivity|]. rewrite map_map. fold U in *. pose proof U_small as (U0 & U1). set (e := fun j => (at64 p j - at64 q j) * (at64 p j - at64 q j)). assert (forall j, 0 <= e j) as Pe by (intro; apply Rle_0_sqr).
  change (exact_sq p q) with (sumn (length p) e) in *. assert (0 <= sumn (length p) e) as Ps by (apply sumn_nonneg; auto). set (n := length p) in *.
  assert (forall a b, (a <= b)%nat -> (1 + U) ^ a <= (1 + U) ^ b) as Mono by (intros a b H; apply Rle_pow; [lra|exact H]).
  assert (forall j, (j < n)%nat -> 0 <= e j /\ fin (fmul (diff_at p q j) (diff_at p q j)) /\ (1 - U) ^ 3 * e j <= rv (fmul (diff_at p q j) (diff_at p q j)) <= (1 + U) ^ 3 * e j) as Each.
  { intros j Hj. split; [apply Pe|]. apply sq_rel; [now apply nth_fin|now apply nth_fin| |apply (Sp j Hj)]. eapply Rle_trans; [|exact B]. rewrite Rmult_comm. apply Rmult_le_compat; [pose proof (pow1 3); lra|apply Pe|apply Mono; lia|apply (le_sum n e j); auto]. }
  destruct (sum_rel 3 (fun j => fmul (diff_at p q j) (diff_at p q j)) e n Each) as (F & S1 & S2).
  - eapply Rle_trans; [|exact B]. apply Rmult_le_compat_r; [exact Ps|]. apply Mono. lia.
  - set (s := fsum _) in *. assert (nonneg64 s) as Ns. { unfold s. rewrite <- (map_map (diff_at p q) (fun x => fmul x x)). apply fsum_nonneg; [apply diffs_nonneg; auto|split; reflexivity]. }
    assert (rv s = 0 \/ bpow radix2 (-1004) <= rv s) as Big.
    { destruct (Req_dec (sumn n e) 0) as [Z|Z]; [left; rewrite Z in *; lra|right].
      assert (exists j, (j < n)%nat /\ e j <> 0) as (j & Hj & Ej). { clear - Z. induction n as [|k IH]; [now destruct Z|]. cbn [sumn] in Z. destruct (Req_dec (e k) 0) as [E|E]; [|exists k; split; [lia|exact E]]. destruct IH as (j & Hj & Ej); [lra|]. exists j. split; [lia|exact Ej]. }
      assert (bpow radix2 (-1000) <= e j) as Le. { destruct (Sp j Hj) as [Q|Q]; [destruct Ej; unfold e; rewrite Q; ring|]. assert (e j = Rabs (at64 p j - at64 q j) * Rabs (at64 p j - at64 q j)) as -> by (rewrite <- Rabs_mult, Rabs_pos_eq; [reflexivity|apply Pe]). change (-1000)%Z with (-500 + -500)%Z. rewrite bpow_plus. pose proof (bpow_ge_0 radix2 (-500)). apply Rmult_le_compat; auto. }
      destruct (fsum_ge _ fzero (proj2 (diffs_nonneg p q Fp Fq)) (conj eq_refl eq_refl)) as (_ & _ & Ge). { rewrite map_map. exact F. } rewrite map_map in Ge.
      apply Rle_trans with (rv (fmul (diff_at p q j) (diff_at p q j))); [|apply Ge, (in_map (fun j => fmul (diff_at p q j) (diff_at p q j))), in_seq; unfold n in Hj; lia].
      destruct (Each j Hj) as (_ & _ & E1 & _). eapply Rle_trans; [|exact E1]. apply Rle_trans with (bpow radix2 (-3) * bpow radix2 (-1000)); [rewrite <- bpow_plus; apply bpow_le; lia|]. apply Rmult_le_compat; try apply bpow_ge_0; [|exact Le]. change (bpow radix2 (-3)) with (/ 8). assert (/ 2 <= 1 - U) by lra. assert (0 <= / 2) by lra. replace (/ 8) with ((/ 2) ^ 3) by (cbn; field). apply pow_incr. lra. }
    destruct (sqrt_rel s F (proj2 Ns) Big) as (G & (R1 & R2) & R3). split; [exact G|]. split; [exact R3|]. change (5 + n)%nat with (2 + (3 + n))%nat. rewrite (pow_add (1 - U) 2 (3 + n)), (pow_add (1 + U) 2 (3 + n)), !Rmult_assoc. pose proof (pow1 2) as (_ & K2). pose proof (pow_low 2).
    split; [eapply Rle_trans; [|exact R1]; apply Rmult_le_compat_l; lra|eapply Rle_trans; [exact R2|]; apply Rmult_le_compat_l; lra].
Qed.
(** C143: so two points whose exact distances differ by more than the rounding errors are ordered by the computed distances as they should be. *)
Lemma c143_order : forall p q1 q2, finite64 p -> finite64 q1 -> finite64 q2 -> length p = length q1 -> length p = length q2 -> spread p q1 -> spread p q2 ->
  (1 + half_ulp) ^ (5 + length p) * exact_sq p q2 <= bpow radix2 1023 -> (1 + half_ulp) ^ (5 + length p) * exact_sq p q1 < (1 - half_ulp) ^ (5 + length p) * exact_sq p q2 ->
  exists r1 r2, feuclidean p q1 = Ok r1 /\ feuclidean p q2 = Ok r2 /\ fin r1 /\ fin r2 /\ rv r1 < rv r2 /\ flt r1 r2 = true.
Proof.
  intros p q1 q2 Fp F1 F2 L1 L2 S1 S2 B H. assert (0 <= exact_sq p q2) as P2 by (apply sumn_nonneg; intros; apply Rle_0_sqr). pose proof (pow1 (5 + length p)) as (K1 & K2). unfold U in *.
  assert ((1 - half_ulp) ^ (5 + length p) * exact_sq p q2 <= (1 + half_ulp) ^ (5 + length p) * exact_sq p q2) as Le by (apply Rmult_le_compat_r; lra).
  destruct (c143_euclidean p q1 Fp F1 L1 S1 (Rlt_le _ _ (Rlt_le_trans _ _ _ H (Rle_trans _ _ _ Le B)))) as (r1 & E1 & G1 & N1 & _ & A1). destruct (c143_euclidean p q2 Fp F2 L2 S2 B) as (r2 & E2 & G2 & N2 & A2 & _). exists r1, r2. split; [auto|]. split; [auto|]. split; [auto|]. split; [auto|].
  assert (rv r1 < rv r2) as Lt by (apply Rsqr_incrst_0; auto; unfold Rsqr; exact (Rle_lt_trans _ _ _ A1 (Rlt_le_trans _ _ _ H A2))). split; [exact Lt|]. unfold flt. rewrite Bltb_correct by assumption. apply Rlt_bool_true, Lt.
Qed.
(** C143: what is computed as Chebyshev distance is at least 2^-1022, also between a point and itself; otherwise it is the largest rounded difference. *)
Lemma c143_chebyshev_refuted : forall p q, finite64 p -> finite64 q -> length p = length q -> (forall j, (j < length p)%nat -> Rabs (at64 p j - at64 q j) <= bpow radix2 1023) ->
  exists r, fchebyshev p q = Ok r /\ fin r /\ bpow radix2 (-1022) <= rv r /\ (forall j, (j < length p)%nat -> (1 - half_ulp) * Rabs (at64 p j - at64 q j) <= rv r) /\
    (rv r = bpow radix2 (-1022) \/ exists j, (j < length p)%nat /\ rv r <= (1 + half_ulp) * Rabs (at64 p j - at64 q j)).
Proof.
  intros p q Fp Fq L B. unfold fchebyshev. rewrite fdiff_ok by auto. cbn [obind]. eexists. split; [reflexivity|]. rewrite map_map. destruct min_normal_ok as (M1 & M2 & M3). fold U.
  assert (forall j, (j < length p)%nat -> fin (Babs (diff_at p q j)) /\ (1 - U) * Rabs (at64 p j - at64 q j) <= rv (Babs (diff_at p q j)) <= (1 + U) * Rabs (at64 p j - at64 q j)) as D.
  { intros j Hj. destruct (fsub_rel (nth j p fzero) (nth j q fzero) (nth_fin p j Fp) (nth_fin q j Fq) (B j Hj)) as (A & C). split; [unfold fin; rewrite is_finite_Babs; exact A|]. unfold rv at 1 2. rewrite B2R_Babs. exact C. }
  unfold fmax. clear B Fp Fq L. revert D. generalize (length p) as n. induction n as [|n IH]; intro D.
  - cbn [seq map fold_left]. split; [exact M1|]. rewrite M2. split; [apply Rle_refl|]. split; [intros; lia|left; reflexivity].
  - destruct IH as (F & P & A & C); [intros; apply D; lia|]. rewrite seq_S, map_app, fold_left_app. cbn [map fold_left Nat.add]. set (m := fold_left _ _ _) in *. destruct (D n ltac:(lia)) as (Fn & L1 & L2).
    unfold flt. rewrite !Bltb_correct by assumption. destruct (Rlt_bool_spec (B2R m) (B2R (Babs (diff_at p q n)))) as [Q|Q]; fold (rv m) in Q; fold (rv (Babs (diff_at p q n))) in Q.
    + split; [exact Fn|]. split; [exact (Rle_trans _ _ _ P (Rlt_le _ _ Q))|]. split; [intros j Hj; destruct (Nat.eq_dec j n) as [->|]; [exact L1|]; specialize (A j ltac:(lia)); lra|right; exists n; split; [lia|exact L2]].
    + split; [exact F|]. split; [exact P|]. split; [intros j Hj; destruct (Nat.eq_dec j n) as [->|]; [lra|]; apply A; lia|]. destruct C as [C|(j & Hj & C)]; [left; exact C|right; exists j; split; [lia|exact C]].
Qed.
(** C143: points whose coordinates all differ by at most 2^-538 are at Euclidean distance 0. *)
Lemma c143_underflow_refuted : forall p q, finite64 p -> finite64 q -> length p = length q -> (forall j, (j < length p)%nat -> Rabs (at64 p j - at64 q j) <= bpow radix2 (-538)) -> feuclidean p q = Ok fzero.
Proof.
  intros p q Fp Fq L H. unfold feuclidean. rewrite fdiff_ok by auto. cbn [obind]. rewrite map_map. unfold fsum. rewrite fsum_zeros; [reflexivity|]. apply Forall_forall. intros x Hx. apply in_map_iff in Hx as (j & <- & Hj). apply in_seq in Hj. specialize (H j ltac:(lia)).
  set (d := diff_at p q j). assert (fin d /\ Rabs (rv d) <= bpow radix2 (-538)) as (Fd & Bd).
  { destruct (fsub_cases (nth j p fzero) (nth j q fzero) (nth_fin p j Fp) (nth_fin q j Fq)) as [(A & E & _)|(_ & C)]; assert (Rabs (rnd (at64 p j - at64 q j)) <= bpow radix2 (-538)) as K by (apply abs_round_le_generic; auto; [apply FLT_exp_valid; reflexivity|apply valid_rnd_N|apply format_pow; lia]).
    - split; [exact A|]. unfold d, diff_at. rewrite E. exact K.
    - unfold at64 in K. assert (bpow radix2 (-538) < bpow radix2 1024) by (apply bpow_lt; lia). lra. }
  assert (rv d * rv d <= bpow radix2 (-1076)) as B2. { replace (rv d * rv d) with (Rabs (rv d) * Rabs (rv d)) by (rewrite <- Rabs_mult, Rabs_pos_eq; [reflexivity|apply Rle_0_sqr]). change (-1076)%Z with (-538 + -538)%Z. rewrite bpow_plus. apply Rmult_le_compat; auto; apply Rabs_pos. }
  assert (0 <= rv d * rv d) as P by apply Rle_0_sqr. destruct (fmul_ok d d Fd Fd) as (F & E); [rewrite Rabs_pos_eq by exact P; eapply Rle_trans; [exact B2|apply bpow_le; lia]|]. apply nonneg_zero; [apply fmul_nonneg, fin_nan, Fd|exact F|]. rewrite E.
  destruct (Req_dec (rv d * rv d) 0) as [Z|Z]; [rewrite Z; apply round_0, valid_rnd_N|]. assert (0 < rv d * rv d) as P' by lra. apply (round_N_small_pos radix2 (FLT_exp (-1074) 53) _ _ (mag radix2 (rv d * rv d))).
  - destruct (mag radix2 (rv d * rv d)) as (ex & Hex). cbn. specialize (Hex Z). rewrite Rabs_pos_eq in Hex by exact P. exact Hex.
  - assert (mag radix2 (rv d * rv d) <= -1075)%Z as M. { apply mag_le_bpow; [exact Z|]. rewrite Rabs_pos_eq by exact P. eapply Rle_lt_trans; [exact B2|]. apply bpow_lt. lia. } unfold FLT_exp. lia.
Qed.
Definition f2 (m e : Z) : b64 := binary_normalize 53 1024 prec53 emax1024 mode_NE m e false.
Definition fin_b (l : list b64) : bool := forallb (fun x => is_finite x) l.
Lemma fin_b_ok l : fin_b l = true -> finite64 l.
Proof. unfold fin_b, finite64. rewrite forallb_forall, Forall_forall. auto. Qed.
Definition is_ok (o : outcome b64) (a : b64) : bool :=
  match o with Ok r => match B2SF r, B2SF a with
    | S754_zero s, S754_zero t => Bool.eqb s t
    | S754_finite s m e, S754_finite t k f => Bool.eqb s t && Pos.eqb m k && Z.eqb e f
    | _, _ => false end | _ => false end.
Lemma is_ok_eq o a : is_ok o a = true -> o = Ok a.
Proof.
  unfold is_ok. destruct o as [r| |]; try discriminate. intro H. f_equal. apply sf_eq. destruct (B2SF r), (B2SF a); try discriminate.
  - apply eqb_prop in H. now subst.
  - apply andb_true_iff in H as (H & E). apply andb_true_iff in H as (H & M). apply eqb_prop in H. apply Pos.eqb_eq in M. apply Z.eqb_eq in E. now subst.
Qed.
(** C143: finite points can be at infinite distance in all three. *)
Lemma c143_overflow_refuted : exists p q, finite64 p /\ finite64 q /\ length p = length q /\ forall k, dist64 k p q = Ok (B754_infinity false).
Proof.
  exists [f2 (2 ^ 53 - 1) 971], [f2 (- (2 ^ 53 - 1)) 971]. split; [apply fin_b_ok; vm_compute; reflexivity|]. split; [apply fin_b_ok; vm_compute; reflexivity|]. split; [reflexivity|].
  intros []; vm_compute; reflexivity.
Qed.
Lemma f2_val m e : (Z.abs m < 2 ^ 53)%Z -> (-1074 <= e <= 0)%Z -> rv (f2 m e) = IZR m * bpow radix2 e.
Proof.
  intros Hm He. pose proof (binary_normalize_correct 53 1024 prec53 emax1024 mode_NE m e false) as K. cbv zeta in K. rewrite rnd_eq in K. assert (rnd (F2R (Float radix2 m e)) = F2R (Float radix2 m e)) as Q. { apply round_generic; [apply valid_rnd_N|]. apply generic_format_FLT. exists (Float radix2 m e); [reflexivity|exact Hm|cbn; lia]. }
    rewrite Q in K. rewrite Rlt_bool_true in K; [apply K|]. unfold F2R. cbn [Fnum Fexp]. rewrite Rabs_mult, (Rabs_pos_eq (bpow _ _)) by apply bpow_ge_0. apply Rle_lt_trans with (bpow radix2 1023 * 1); [|rewrite Rmult_1_r; apply bpow_lt; lia]. apply Rmult_le_compat; [apply Rabs_pos|apply bpow_ge_0|apply int_small, Hm|]. change 1 with (bpow radix2 0). apply bpow_le. lia.
Qed.
(** C143: the triangle inequality fails by rounding: 1, -2^-54 and -3 2^-54 on a line. *)
Lemma c143_triangle_refuted : forall k, k = Man \/ k = Che -> exists p q s a b c, finite64 p /\ finite64 q /\ finite64 s /\ dist64 k p q = Ok a /\ dist64 k q s = Ok b /\ dist64 k p s = Ok c /\ fin a /\ fin b /\ fin c /\ rv a + rv b < rv c.
Proof.
  intros k Hk. exists [f2 1 0], [f2 (-1) (-54)], [f2 (-3) (-54)], (f2 1 0), (f2 1 (-53)), (f2 (2 ^ 52 + 1) (-52)). do 3 (split; [apply fin_b_ok; vm_compute; reflexivity|]).
  do 3 (split; [destruct Hk as [-> | ->]; apply is_ok_eq; vm_compute; reflexivity|]). do 3 (split; [vm_compute; reflexivity|]).
  rewrite !f2_val by lia. change (bpow radix2 0) with 1. change (bpow radix2 (-53)) with (/ IZR (2 ^ 53)). change (bpow radix2 (-52)) with (/ IZR (2 ^ 52)). change (2 ^ 53)%Z with 9007199254740992%Z. change (2 ^ 52)%Z with 4503599627370496%Z. change (4503599627370496 + 1)%Z with 4503599627370497%Z. lra.
Qed.
(** C143: the hypotheses hold of (3, 0) and (0, 4), at distance 5; (3, 0) is at Chebyshev distance 2^-1022 from itself. *)
Lemma c143_euclidean_ex : let p := [f2 3 0; f2 0 0] in let q := [f2 0 0; f2 4 0] in
  finite64 p /\ finite64 q /\ spread p q /\ (1 + half_ulp) ^ (5 + length p) * exact_sq p q <= bpow radix2 1023 /\ (1 + half_ulp) ^ (5 + length p) * exact_l1 p q <= bpow radix2 1023 /\
  feuclidean p q = Ok (f2 5 0) /\ fmanhattan p q = Ok (f2 7 0) /\ fchebyshev p p = Ok fmin_normal.
Proof.
  intros p q. split; [apply fin_b_ok; vm_compute; reflexivity|]. split; [apply fin_b_ok; vm_compute; reflexivity|].
  assert (at64 p 0 - at64 q 0 = 3 /\ at64 p 1 - at64 q 1 = -4) as (E0 & E1). { unfold at64, p, q. cbn [nth]. rewrite !f2_val by lia. change (bpow radix2 0) with 1. split; ring. }
  pose proof U_small as (U0 & U1). fold U.
  assert (forall x, x <= 25 -> 0 <= x -> (1 + U) ^ 7 * x <= bpow radix2 1023) as B. { intros x Hx Px. apply Rle_trans with (bpow radix2 12); [|apply bpow_le; lia]. apply Rle_trans with (2 ^ 7 * 25); [apply Rmult_le_compat; auto; [apply pow_le; lra|apply pow_incr; lra]|]. change (bpow radix2 12) with 4096. lra. }
  split. { intros [|[|j]] H; [right; rewrite E0|right; rewrite E1|cbn in H; lia]; (apply Rle_trans with (bpow radix2 0); [apply bpow_le; lia|change (bpow radix2 0) with 1]). - rewrite Rabs_pos_eq; lra. - rewrite Rabs_left; lra. }
  split; [|split]. 
  - apply B; unfold exact_sq, p at 1; cbn [length sumn]; rewrite E0, E1; lra.
  - apply B; unfold exact_l1, p at 1; cbn [length sumn]; rewrite E0, E1, Rabs_pos_eq, Rabs_left by lra; lra.
  - split; [apply is_ok_eq; vm_compute; reflexivity|]. split; apply is_ok_eq; vm_compute; reflexivity.
Qed.
(** C143: two different points at Euclidean distance 0: 2^-600 and 0. *)
Lemma c143_underflow_refuted_ex : finite64 [f2 1 (-600)] /\ f2 1 (-600) <> fzero /\ feuclidean [f2 1 (-600)] [fzero] = Ok fzero.
Proof. split; [apply fin_b_ok; vm_compute; reflexivity|]. split; [|apply is_ok_eq; vm_compute; reflexivity]. intro H. apply (f_equal (fun x => is_finite_strict x)) in H. vm_compute in H. discriminate. Qed.

