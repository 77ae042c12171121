(** C136: the decision function in double precision. *)
From Coq Require Import ZArith Bool List Reals Lia Lra Permutation.
From Flocq Require Import Core BinarySingleNaN.
From Verif Require Import Base M_Data L_Vec Loop L_Kernel M_Perc M_F64 S_F64 L_F64.
Import ListNotations.
Local Open Scope R_scope.

Lemma aget_at (v : list b64) j : (j < length v)%nat -> aget v j = Ok (nth j v fzero).
Proof. intro H. unfold aget. rewrite (nth_error_nth' v fzero H). reflexivity. Qed.
Lemma vget_at (v : list b64) j : (j < length v)%nat -> vget v j = Ok (nth j v fzero).
Proof. intro H. unfold vget. rewrite (nth_error_nth' v fzero H). reflexivity. Qed.
Lemma fin_at (v : list b64) j : Forall fin v -> fin (nth j v fzero).
Proof. intro H. revert j. induction H as [|x v Hx H IH]; intros [|j]; cbn; auto; try reflexivity. Qed.

Definition grow (k : nat) : R := (1 + half_ulp) ^ k.
Lemma grow_le k : 2 * INR k * half_ulp <= 1 -> grow k <= 1 + 2 * INR k * half_ulp.
Proof.
  pose proof half_ulp_pos as U. induction k as [|k IH]; intro H; [unfold grow; cbn; lra|]. rewrite S_INR in *. assert (0 <= INR k) as N by apply pos_INR. assert (0 <= INR k * half_ulp) by (apply Rmult_le_pos; lra).
  specialize (IH ltac:(lra)). unfold grow in *. cbn [pow]. set (g := (1 + half_ulp) ^ k) in *.
  assert ((1 + half_ulp) * g <= (1 + half_ulp) * (1 + 2 * INR k * half_ulp)) as K by (apply Rmult_le_compat_l; lra).
  assert (half_ulp * (2 * INR k * half_ulp) <= half_ulp * 1) as K2 by (apply Rmult_le_compat_l; lra). lra.
Qed.
Lemma grow_ge k : 1 <= grow k.
Proof. pose proof half_ulp_pos. unfold grow. induction k as [|k IH]; cbn [pow]; [lra|]. assert (1 * 1 <= (1 + half_ulp) * (1 + half_ulp) ^ k) by (apply Rmult_le_compat; lra). lra. Qed.
Lemma grow_S k : grow (S k) = (1 + half_ulp) * grow k.
Proof. reflexivity. Qed.

Section Err.
Variables (n : nat) (w x : list b64) (b : b64).
Hypotheses (Lw : length w = n) (Lx : length x = n) (Fw : Forall fin w) (Fx : Forall fin x) (Fb : fin b) (Hn : (Z.of_nat n < 2 ^ 52)%Z) (HA : magnitude n w x b <= bpow radix2 1020).
Let A k := Rabs (rv b) + sumn k (fun j => Rabs (at64 w j * at64 x j)).
Let s k := rv b + sumn k (fun j => at64 w j * at64 x j).
Lemma A_step k : A (S k) = A k + Rabs (at64 w k * at64 x k).
Proof. unfold A. cbn [sumn]. lra. Qed.
Lemma s_step k : s (S k) = s k + at64 w k * at64 x k.
Proof. unfold s. cbn [sumn]. lra. Qed.
Lemma A_mono k m : (k <= m)%nat -> A k <= A m.
Proof. induction 1 as [|m L IH]; [lra|]. rewrite A_step. pose proof (Rabs_pos (at64 w m * at64 x m)). lra. Qed.
Lemma A_pos k : 0 <= A k.
Proof. unfold A. pose proof (Rabs_pos (rv b)). pose proof (sumn_nonneg k (fun j => Rabs (at64 w j * at64 x j)) (fun j _ => Rabs_pos _)). lra. Qed.
Lemma s_abs k : Rabs (s k) <= A k.
Proof. induction k as [|k IH]; [unfold s, A; cbn; rewrite !Rplus_0_r; lra|]. rewrite s_step, A_step. eapply Rle_trans; [apply Rabs_triang|]. lra. Qed.
Lemma n_small : 2 * (INR n + 1) * half_ulp <= 1.
Proof.
  rewrite INR_IZR_INZ. replace (IZR (Z.of_nat n) + 1) with (IZR (Z.of_nat n + 1)) by (rewrite plus_IZR; reflexivity). assert (IZR (Z.of_nat n + 1) <= IZR (2 ^ 52)) as H by (apply IZR_le; lia).
  unfold half_ulp. change (bpow radix2 (-53)) with (/ IZR (2 ^ 53)). assert (IZR (2 ^ 53) = 2 * IZR (2 ^ 52)) as E by (rewrite <- mult_IZR; reflexivity). rewrite E.
  assert (0 < IZR (2 ^ 52)) as P by (apply IZR_lt; reflexivity). apply Rmult_le_reg_r with (2 * IZR (2 ^ 52)); [lra|]. rewrite Rmult_assoc, Rinv_l by lra. lra.
Qed.
Lemma small_k k : (k <= S n)%nat -> 2 * INR k * half_ulp <= 1.
Proof.
  intro H. apply le_INR in H. rewrite S_INR in H. pose proof half_ulp_pos. pose proof n_small. eapply Rle_trans; [|exact H1].
  apply Rmult_le_compat_r; lra.
Qed.
Lemma tiny_small : (INR n + 1) * tiny <= 1.
Proof.
  pose proof n_small as H. assert (tiny <= half_ulp) as T by (apply bpow_le; lia). pose proof tiny_pos. pose proof half_ulp_pos. pose proof (pos_INR n).
  assert ((INR n + 1) * tiny <= (INR n + 1) * half_ulp) by (apply Rmult_le_compat_l; lra). lra.
Qed.
Lemma big_ok a : a <= 8 * bpow radix2 1020 -> a <= bpow radix2 1023.
Proof. intro H. change 1023%Z with (3 + 1020)%Z. rewrite bpow_plus. change (bpow radix2 3) with 8. exact H. Qed.
Lemma one_le : 1 <= bpow radix2 1020.
Proof. change 1 with (bpow radix2 0). apply bpow_le. lia. Qed.
Let inv k f := fin f /\ Rabs (rv f - s k) <= (grow (S k) - 1) * A k + INR k * grow k * (/ 2 * tiny).
Lemma err_step k f : (k < n)%nat -> inv k f -> inv (S k) (fadd f (fmul (nth k w fzero) (nth k x fzero))).
Proof.
  intros Hk (Ff & E). pose proof half_ulp_pos as U. pose proof tiny_pos as T. set (p := nth k w fzero). set (q := nth k x fzero).
  assert (A n <= bpow radix2 1020) as HA' by exact HA. pose proof (A_mono (S k) n Hk) as M1. rewrite A_step in M1. pose proof (A_pos k) as Pk. pose proof one_le as One.
  set (t := at64 w k * at64 x k) in *. pose proof (Rabs_pos t) as Pt. assert (rv p * rv q = t) as Et by reflexivity.
  destruct (fmul_err p q (fin_at w k Fw) (fin_at x k Fx)) as (Fm & Em); [rewrite Et; apply big_ok; lra|]. rewrite Et in Em.
  pose proof (grow_ge k) as G1. pose proof (grow_le (S k) (small_k (S k) ltac:(lia))) as G2. pose proof (small_k (S k) ltac:(lia)) as G3. pose proof (grow_le k (small_k k ltac:(lia))) as G4. pose proof (small_k k ltac:(lia)) as G5.
  assert (INR k <= INR n) as Kn by (apply le_INR; lia). pose proof (pos_INR k) as K0. pose proof tiny_small as Ts.
  assert (INR k * grow k * (/ 2 * tiny) <= INR k * tiny) as B1. { assert (INR k * tiny * grow k <= INR k * tiny * 2) by (apply Rmult_le_compat_l; [apply Rmult_le_pos; lra|lra]). lra. }
  assert (INR k * tiny <= 1) as B2. { assert (INR k * tiny <= (INR n + 1) * tiny) by (apply Rmult_le_compat_r; lra). lra. }
  assert ((grow (S k) - 1) * A k <= 1 * A k) as B3 by (apply Rmult_le_compat_r; lra).
  assert (Rabs (rv f) <= 2 * A k + 1) as Bf. { replace (rv f) with ((rv f - s k) + s k) by ring. eapply Rle_trans; [apply Rabs_triang|]. pose proof (s_abs k). lra. }
  assert (half_ulp <= 1) as U1. { assert (0 <= INR n * half_ulp) by (apply Rmult_le_pos; [apply pos_INR|lra]). pose proof n_small. lra. }
  assert (half_ulp * Rabs t <= 1 * Rabs t) as Ut by (apply Rmult_le_compat_r; lra).
  assert (tiny <= 1) as T1. { assert (0 <= INR n * tiny) by (apply Rmult_le_pos; [apply pos_INR|lra]). lra. }
  assert (Rabs (rv (fmul p q)) <= 2 * Rabs t + 1) as Bm. { replace (rv (fmul p q)) with ((rv (fmul p q) - t) + t) by ring. eapply Rle_trans; [apply Rabs_triang|]. lra. }
  destruct (fadd_err f (fmul p q) Ff Fm) as (Fs & Es). { apply big_ok. eapply Rle_trans; [apply Rabs_triang|]. lra. }
  split; [exact Fs|]. rewrite s_step. fold t.
  set (F := rv f) in *. set (P := rv (fmul p q)) in *. set (Z := rv (fadd f (fmul p q))) in *.
  assert (Rabs ((F - s k) + (P - t)) <= (grow (S k) - 1) * A k + INR k * grow k * (/ 2 * tiny) + (half_ulp * Rabs t + / 2 * tiny)) as E1 by (eapply Rle_trans; [apply Rabs_triang|]; lra).
  set (D := Rabs ((F - s k) + (P - t))) in *.
  assert (Rabs (F + P) <= D + A (S k)) as E2. { replace (F + P) with (((F - s k) + (P - t)) + s (S k)) by (rewrite s_step; fold t; ring). eapply Rle_trans; [apply Rabs_triang|]. pose proof (s_abs (S k)). unfold D. lra. }
  assert (Rabs (Z - (s k + t)) <= (1 + half_ulp) * D + half_ulp * A (S k)) as E3.
  { replace (Z - (s k + t)) with ((Z - (F + P)) + ((F - s k) + (P - t))) by ring. eapply Rle_trans; [apply Rabs_triang|]. fold D. assert (half_ulp * Rabs (F + P) <= half_ulp * (D + A (S k))) by (apply Rmult_le_compat_l; lra). lra. }
  eapply Rle_trans; [exact E3|]. rewrite A_step. fold t. rewrite (grow_S (S k)), S_INR. rewrite (grow_S k) in *. set (g := grow k) in *. set (h := / 2 * tiny) in *. set (u := half_ulp) in *.
  assert (0 <= h) as H0 by (unfold h; lra).
  assert ((1 + u) * D <= (1 + u) * (((1 + u) * g - 1) * A k + INR k * g * h + (u * Rabs t + h))) as E4 by (apply Rmult_le_compat_l; lra).
  assert (u * Rabs t <= ((1 + u) * g - 1) * Rabs t) as E5. { apply Rmult_le_compat_r; [exact Pt|]. assert ((1 + u) * 1 <= (1 + u) * g) by (apply Rmult_le_compat_l; lra). lra. }
  assert ((1 + u) * (u * Rabs t) <= (1 + u) * (((1 + u) * g - 1) * Rabs t)) as E6 by (apply Rmult_le_compat_l; lra).
  assert ((1 + u) * h * 1 <= (1 + u) * h * g) as E7 by (apply Rmult_le_compat_l; [apply Rmult_le_pos; lra|lra]).
  assert ((1 + u) * ((1 + u) * g) * (A k + Rabs t) = (1 + u) * (((1 + u) * g - 1) * A k) + (1 + u) * (((1 + u) * g - 1) * Rabs t) + (1 + u) * (A k + Rabs t)) as E8 by ring.
  assert ((INR k + 1) * ((1 + u) * g) * h = (1 + u) * (INR k * g * h) + (1 + u) * h * g) as E9 by ring.
  rewrite Rmult_minus_distr_r, E8, E9. lra.
Qed.
Lemma err_all : exists f, fdecision n w x b = Ok f /\ fin f /\ Rabs (rv f - exact_value n w x b) <= error_bound n (magnitude n w x b).
Proof.
  destruct (ofold_seq (fun f j => let* a := aget w j in let* c := vget x j in Ok (fadd f (fmul a c))) inv n b) as (f & E & Ff & B).
  - split; [exact Fb|]. unfold s. cbn [sumn]. replace (rv b - (rv b + 0)) with 0 by ring. rewrite Rabs_R0. pose proof (grow_ge 1). pose proof (A_pos 0). cbn [INR]. assert (0 <= (grow 1 - 1) * A 0) by (apply Rmult_le_pos; lra). lra.
  - intros k f Hk I. rewrite aget_at, vget_at by lia. cbn [obind]. eexists. split; [reflexivity|]. apply err_step; auto.
  - exists f. split; [exact E|]. split; [exact Ff|]. eapply Rle_trans; [exact B|]. change (A n) with (magnitude n w x b). unfold error_bound.
    pose proof (grow_le (S n) (small_k (S n) ltac:(lia))) as G. rewrite S_INR in G. pose proof (A_pos n) as P. change (A n) with (magnitude n w x b) in P.
    assert ((grow (S n) - 1) * magnitude n w x b <= 2 * (INR n + 1) * half_ulp * magnitude n w x b) as K by (apply Rmult_le_compat_r; lra).
    pose proof (grow_le n (small_k n ltac:(lia))) as G4. pose proof (small_k n ltac:(lia)) as G5. pose proof tiny_pos as T. pose proof (pos_INR n) as N.
    assert (INR n * tiny * grow n <= INR n * tiny * 2) by (apply Rmult_le_compat_l; [apply Rmult_le_pos; lra|lra]). lra.
Qed.
End Err.

(** C136: rounding. For vectors of finite doubles whose terms do not come near the largest double, the computed decision value is a finite double whose
    distance from the exact value is at most 2 (n + 1) 2^-53 times the sum of the absolute values of the terms, and n times the smallest double. *)
Lemma c136_error : forall (n : nat) (w x : list b64) (b : b64), length w = n -> length x = n -> Forall fin w -> Forall fin x -> fin b -> (Z.of_nat n < 2 ^ 52)%Z ->
  magnitude n w x b <= bpow radix2 1020 ->
  exists f, fdecision n w x b = Ok f /\ fin f /\ Rabs (rv f - exact_value n w x b) <= error_bound n (magnitude n w x b).
Proof. intros n w x b. apply err_all. Qed.

Lemma val_of z : (Z.abs z < 2 ^ 53)%Z -> rv (fofZ z) = IZR z.
Proof. intro H. apply fofZ_ok, H. Qed.
Lemma ex_values : magnitude 1 [fofZ 3] [fofZ (-2)] (fofZ 1) = 7 /\ exact_value 1 [fofZ 3] [fofZ (-2)] (fofZ 1) = -5.
Proof.
  unfold magnitude, exact_value, at64. cbn [sumn nth]. rewrite !val_of by reflexivity. split; [|lra]. unfold Rabs. destruct (Rcase_abs 1), (Rcase_abs (3 * -2)); lra.
Qed.
Lemma c136_error_ex : length [fofZ 3] = 1%nat /\ Forall fin [fofZ 3] /\ Forall fin [fofZ (-2)] /\ fin (fofZ 1) /\ (Z.of_nat 1 < 2 ^ 52)%Z /\ magnitude 1 [fofZ 3] [fofZ (-2)] (fofZ 1) <= bpow radix2 1020.
Proof.
  destruct ex_values as (-> & _). split; [reflexivity|]. split; [repeat constructor|]. split; [repeat constructor|]. split; [reflexivity|]. split; [reflexivity|].
  apply Rle_trans with (bpow radix2 3); [change (bpow radix2 3) with 8; lra|apply bpow_le; lia].
Qed.
Lemma feval_dec w b x : length x = length w -> fevaluate w b x = let* f := fdecision (length w) w x b in Ok (if fle fzero f then 1%Z else (-1)%Z).
Proof.
  intro L. unfold fevaluate, fdecision. rewrite L, Nat.eqb_refl. cbn [negb]. f_equal. apply ofold_ext. intros f j H. apply in_seq in H. rewrite !aget_at, vget_at by lia. reflexivity.
Qed.
Lemma nz_rv v j : nz (map rv v) j = at64 v j.
Proof. unfold nz, at64. rewrite <- (map_nth rv v fzero j). reflexivity. Qed.
Lemma reval_dec (w x : list R) b : length x = length w -> primal_evaluate w b x = Ok (if Rle_dec 0 (b + sumn (length w) (fun j => nz w j * nz x j)) then 1%Z else (-1)%Z).
Proof.
  intro L. unfold primal_evaluate. rewrite L, Nat.eqb_refl. cbn [negb].
  assert (forall v j, (j < length v)%nat -> aget v j = Ok (nz v j)) as G by (intros v j H; unfold aget, nz; rewrite (nth_error_nth' v 0 H); reflexivity).
  destruct (ofold_seq (fun f j => let* a := aget w j in let* c := aget x j in Ok (f + a * c)) (fun k f => f = b + sumn k (fun j => nz w j * nz x j)) (length w) b) as (f & -> & ->).
  - cbn. ring.
  - intros k f H ->. rewrite !G by lia. cbn [obind]. eexists. split; [reflexivity|]. cbn [sumn]. ring.
  - reflexivity.
Qed.
(** C136: so when the exact value is further from 0 than that, evaluate() in doubles gives the class of exact arithmetic. *)
Lemma c136_sign : forall (w x : list b64) (b : b64), length x = length w -> Forall fin w -> Forall fin x -> fin b -> (Z.of_nat (length w) < 2 ^ 52)%Z ->
  magnitude (length w) w x b <= bpow radix2 1020 -> error_bound (length w) (magnitude (length w) w x b) < Rabs (exact_value (length w) w x b) ->
  fevaluate w b x = primal_evaluate (map rv w) (rv b) (map rv x).
Proof.
  intros w x b L Fw Fx Fb Hn HA H. destruct (c136_error (length w) w x b eq_refl L Fw Fx Fb Hn HA) as (f & E & Ff & B). rewrite feval_dec by exact L. rewrite E. cbn [obind].
  rewrite reval_dec by (rewrite !map_length; exact L). rewrite map_length. rewrite (sumn_ext _ _ (fun j => at64 w j * at64 x j)) by (intros; rewrite !nz_rv; reflexivity). fold (exact_value (length w) w x b).
  f_equal. rewrite fle_ok by (auto; reflexivity). change (rv fzero) with 0. set (s := exact_value (length w) w x b) in *. set (e := error_bound _ _) in *. clearbody s e. revert H B. unfold Rabs.
  destruct (Rcase_abs s), (Rcase_abs (rv f - s)), (Rle_dec 0 (rv f)), (Rle_dec 0 s); intros; try reflexivity; lra.
Qed.
Lemma c136_sign_ex : error_bound 1 (magnitude 1 [fofZ 3] [fofZ (-2)] (fofZ 1)) < Rabs (exact_value 1 [fofZ 3] [fofZ (-2)] (fofZ 1)) /\ fevaluate [fofZ 3] (fofZ 1) [fofZ (-2)] = Ok (-1)%Z.
Proof.
  split; [|vm_compute; reflexivity]. destruct ex_values as (-> & ->). unfold error_bound. cbn [INR]. assert (half_ulp <= / 16) as H by (change (/ 16) with (bpow radix2 (-4)); apply bpow_le; lia).
  assert (tiny <= / 16) as T by (change (/ 16) with (bpow radix2 (-4)); apply bpow_le; lia). unfold Rabs. destruct (Rcase_abs (-5)); lra.
Qed.
(** C136: whole numbers. When all numbers are integers and the terms add up to less than 2^53, nothing is rounded: the decision value is exact, and so is the class. *)
Lemma c136_whole : forall (w x : list b64) (b : b64), length x = length w -> Forall fin w -> Forall fin x -> fin b ->
  whole (rv b) -> (forall v, In v w \/ In v x -> whole (rv v)) -> magnitude (length w) w x b < IZR (2 ^ 53) ->
  (exists f, fdecision (length w) w x b = Ok f /\ fin f /\ rv f = exact_value (length w) w x b) /\ fevaluate w b x = primal_evaluate (map rv w) (rv b) (map rv x).
Proof.
  intros w x b L Fw Fx Fb Wb Wv HA. assert (forall v j, (forall a, In a v -> whole (rv a)) -> whole (at64 v j)) as W.
  { intros v j H. unfold at64. destruct (Nat.lt_ge_cases j (length v)) as [K|K]; [apply H, nth_In, K|]. rewrite nth_overflow by exact K. exists 0%Z. reflexivity. }
  assert (exists f, fdecision (length w) w x b = Ok f /\ fin f /\ rv f = exact_value (length w) w x b) as (f & E & Ff & Ef).
  { destruct (ofold_seq (fun f j => let* a := aget w j in let* c := vget x j in Ok (fadd f (fmul a c)))
      (fun k f => fin f /\ rv f = exact_value k w x b /\ whole (exact_value k w x b) /\ Rabs (exact_value k w x b) <= magnitude k w x b) (length w) b) as (f & E & Ff & Ef & _).
    - unfold exact_value, magnitude. cbn [sumn]. rewrite !Rplus_0_r. split; [exact Fb|]. split; [reflexivity|]. split; [exact Wb|lra].
    - intros k f Hk (Ff & Ef & (z & Ez) & Bk). rewrite aget_at, vget_at by lia. cbn [obind]. eexists. split; [reflexivity|].
      assert (forall m, (k < m)%nat -> magnitude k w x b + Rabs (at64 w k * at64 x k) <= magnitude m w x b) as Mk.
      { unfold magnitude. induction 1 as [|m Hm IH]; cbn [sumn]; [lra|]. pose proof (Rabs_pos (at64 w m * at64 x m)). lra. }
      specialize (Mk (length w) Hk). assert (0 <= magnitude k w x b) as Pk by (unfold magnitude; pose proof (Rabs_pos (rv b)); pose proof (sumn_nonneg k (fun j => Rabs (at64 w j * at64 x j)) (fun j _ => Rabs_pos _)); lra).
      destruct (W w k (fun a H => Wv a (or_introl H))) as (zw & Ew). destruct (W x k (fun a H => Wv a (or_intror H))) as (zx & Ex).
      assert (exact_value (S k) w x b = IZR (z + zw * zx)) as ES by (unfold exact_value in *; cbn [sumn]; rewrite plus_IZR, mult_IZR, <- Ez, <- Ew, <- Ex; ring).
      assert (Rabs (exact_value (S k) w x b) <= magnitude (S k) w x b) as BS.
      { unfold exact_value, magnitude in *. cbn [sumn]. rewrite <- !Rplus_assoc. eapply Rle_trans; [apply Rabs_triang|]. lra. }
      assert (forall y, Rabs (IZR y) < IZR (2 ^ 53) -> (Z.abs y < 2 ^ 53)%Z) as Zy by (intros y Hy; rewrite <- abs_IZR in Hy; apply lt_IZR in Hy; exact Hy).
      destruct (fmul_int (nth k w fzero) (nth k x fzero) (zw * zx) (fin_at w k Fw) (fin_at x k Fx)) as (Fm & Em).
      { rewrite mult_IZR, <- Ew, <- Ex. reflexivity. }
      { apply Zy. rewrite mult_IZR, <- Ew, <- Ex. lra. }
      destruct (fadd_int f (fmul (nth k w fzero) (nth k x fzero)) (z + zw * zx) Ff Fm) as (Fs & Es).
      { rewrite Ef, Em, Ez, plus_IZR. reflexivity. }
      { apply Zy. rewrite <- ES. assert (magnitude (S k) w x b = magnitude k w x b + Rabs (at64 w k * at64 x k)) by (unfold magnitude; cbn [sumn]; ring). lra. }
      split; [exact Fs|]. split; [rewrite Es, ES; reflexivity|]. split; [exists (z + zw * zx)%Z; exact ES|exact BS].
    - exists f. auto. }
  split; [exists f; auto|]. rewrite feval_dec by exact L. rewrite E. cbn [obind]. rewrite reval_dec by (rewrite !map_length; exact L). rewrite map_length.
  rewrite (sumn_ext _ _ (fun j => at64 w j * at64 x j)) by (intros; rewrite !nz_rv; reflexivity). fold (exact_value (length w) w x b).
  f_equal. rewrite fle_ok by (auto; reflexivity). change (rv fzero) with 0. rewrite Ef. destruct (Rle_dec 0 _); reflexivity.
Qed.
Lemma c136_whole_ex : whole (rv (fofZ 1)) /\ (forall v, In v [fofZ 3] \/ In v [fofZ (-2)] -> whole (rv v)) /\ magnitude 1 [fofZ 3] [fofZ (-2)] (fofZ 1) < IZR (2 ^ 53).
Proof.
  split; [exists 1%Z; apply val_of; reflexivity|]. split; [|destruct ex_values as (-> & _); apply (IZR_lt 7); reflexivity]. intros v [[<-|[]]|[<-|[]]]; [exists 3%Z|exists (-2)%Z]; apply val_of; reflexivity.
Qed.
(** C136: a coordinate or weight that is not a number makes the decision value not a number, and the class -1, whatever else; so does an infinite coordinate with weight 0. *)
Lemma nan_stays w x : forall js f, (forall j, In j js -> (j < length w)%nat /\ (j < length x)%nat) -> is_nan f = true ->
  exists g, ofold (fun f j => let* a := aget w j in let* c := vget x j in Ok (fadd f (fmul a c))) js f = Ok g /\ is_nan g = true.
Proof.
  induction js as [|j js IH]; intros f H N; [exists f; auto|]. cbn [ofold]. destruct (H j (or_introl eq_refl)). rewrite aget_at, vget_at by lia. cbn [obind]. apply IH; [intros k K; apply H; right; exact K|].
  destruct f; try discriminate. reflexivity.
Qed.
Definition poison (w x : list b64) (j : nat) : Prop := is_nan (fmul (nth j w fzero) (nth j x fzero)) = true.
Lemma poison_dec n w x b j : length w = n -> length x = n -> (j < n)%nat -> poison w x j -> exists g, fdecision n w x b = Ok g /\ is_nan g = true.
Proof.
  intros Lw Lx Hj P. unfold fdecision. assert (seq 0 n = seq 0 j ++ seq j (S (n - S j))) as -> by (rewrite <- seq_app; f_equal; lia). rewrite ofold_app.
  assert (forall js f, (forall k, In k js -> (k < n)%nat) -> exists g, ofold (fun f j => let* a := aget w j in let* c := vget x j in Ok (fadd f (fmul a c))) js f = Ok g) as T.
  { induction js as [|k js IH]; intros f H; [exists f; reflexivity|]. cbn [ofold]. specialize (H k (or_introl eq_refl)) as Hk. rewrite aget_at, vget_at by lia. cbn [obind]. apply IH. intros q Q. apply H. right. exact Q. }
  destruct (T (seq 0 j) b) as (f & ->); [intros k K; apply in_seq in K; lia|]. cbn [obind seq ofold Nat.add]. rewrite aget_at, vget_at by lia. cbn [obind].
  apply nan_stays; [intros k K; apply in_seq in K; lia|]. unfold poison in P. unfold fadd. destruct (fmul (nth j w fzero) (nth j x fzero)); try discriminate. destruct f; reflexivity.
Qed.
Lemma nan_class f : is_nan f = true -> fle fzero f = false.
Proof. destruct f; try discriminate. reflexivity. Qed.
Lemma c136_nan_refuted : forall (w x : list b64) (b : b64) (j : nat), length x = length w -> (j < length w)%nat ->
  is_nan (nth j x fzero) = true \/ is_nan (nth j w fzero) = true \/ (rv (nth j w fzero) = 0 /\ fin (nth j w fzero) /\ ~ fin (nth j x fzero)) -> fevaluate w b x = Ok (-1)%Z.
Proof.
  intros w x b j L Hj H. rewrite feval_dec by exact L. destruct (poison_dec (length w) w x b j eq_refl L Hj) as (g & -> & N).
  - unfold poison, fmul. destruct H as [H|[H|(Z & F & I)]].
    + destruct (nth j x fzero); try discriminate. destruct (nth j w fzero); reflexivity.
    + destruct (nth j w fzero); try discriminate. reflexivity.
    + destruct (nth j w fzero) as [sw|sw| |sw mw ew Bw]; try discriminate; [|exfalso; revert Z; unfold rv, B2R; apply F2R_neq_0; destruct sw; discriminate].
      destruct (nth j x fzero); try reflexivity; exfalso; apply I; reflexivity.
  - cbn [obind]. rewrite nan_class by exact N. reflexivity.
Qed.
(** C136: the order of the features matters: with the same terms in another order, evaluate() may answer the other class. *)
Definition big : b64 := binary_normalize 53 1024 prec53 emax1024 mode_NE 1 53 false.
Definition minus_big : b64 := binary_normalize 53 1024 prec53 emax1024 mode_NE (-1) 53 false.
Definition minus_half : b64 := binary_normalize 53 1024 prec53 emax1024 mode_NE (-1) (-1) false.
Lemma c136_order_refuted : exists (w x w' x' : list b64) (b : b64), Permutation (combine w x) (combine w' x') /\ length w = length x /\ length w' = length x' /\ Forall fin (w ++ x) /\ fin b /\
  fevaluate w b x = Ok 1%Z /\ fevaluate w' b x' = Ok (-1)%Z.
Proof.
  exists [fofZ 1; fofZ 1; fofZ 1], [big; minus_half; minus_big], [fofZ 1; fofZ 1; fofZ 1], [big; minus_big; minus_half], fzero.
  split; [apply perm_skip, perm_swap|]. split; [reflexivity|]. split; [reflexivity|]. split; [repeat constructor|]. split; [reflexivity|]. split; vm_compute; reflexivity.
Qed.
