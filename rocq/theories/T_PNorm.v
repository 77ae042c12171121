(** Proofs about the norms of points. *)
From Coq Require Import ZArith Bool Reals Lia Lra List.
From Verif Require Import Base Loop M_Data M_Norm S_Norm S_Ens T_Norm M_Mod T_Mod M_PNorm S_PNorm.
Import ListNotations.
Local Open Scope R_scope.

Lemma pow_lt_mono a b n : 0 <= a < b -> (1 <= n)%nat -> a ^ n < b ^ n.
Proof.
  intros H N. destruct n as [|n]; [lia|]. clear N. induction n as [|n IH]; [cbn; lra|]. change (a ^ S (S n)) with (a * a ^ S n). change (b ^ S (S n)) with (b * b ^ S n). assert (0 <= a ^ S n) by (apply pow_le; lra). nra.
Qed.
Lemma pow_le_inv a b n : 0 <= a -> 0 <= b -> (1 <= n)%nat -> a ^ n <= b ^ n -> a <= b.
Proof. intros A B N H. apply Rnot_lt_le. intro L. pose proof (pow_lt_mono b a n (conj B L) N). lra. Qed.
Lemma pow_eq_inv a b n : 0 <= a -> 0 <= b -> (1 <= n)%nat -> a ^ n = b ^ n -> a = b.
Proof. intros A B N H. apply Rle_antisym; apply (pow_le_inv _ _ n); auto; lra. Qed.
Lemma cpow_nat v n : 0 <= v -> (1 <= n)%nat -> cpow (Fin v) (INR n) = Fin (v ^ n).
Proof.
  intros H N. cbn [cpow]. destruct (Rlt_dec 0 v) as [P|P]; [rewrite Rpower_pow by exact P; reflexivity|]. assert (v = 0) as -> by lra. rewrite pow_i by lia. destruct (Rlt_dec 0 (INR n)) as [_|X]; [reflexivity|elim X; apply lt_0_INR; lia].
Qed.
Lemma pow_sum_nat n x : (1 <= n)%nat -> pow_sum (INR n) x = Fin (power_sum n x).
Proof.
  intro N. unfold pow_sum. replace (power_sum n x) with (0 + power_sum n x) by ring. generalize 0 as s. induction x as [|v x IH]; intro s; cbn [fold_left power_sum]; [f_equal; ring|].
  rewrite cpow_nat by (auto; apply Rabs_pos). cbn [eadd]. rewrite IH. f_equal. ring.
Qed.
Lemma power_sum_pos n x : 0 <= power_sum n x.
Proof. induction x as [|v x IH]; cbn [power_sum]; [lra|]. pose proof (pow_le (Rabs v) n (Rabs_pos v)). lra. Qed.
Lemma cpow_root s n : 0 <= s -> (1 <= n)%nat -> exists r, cpow (Fin s) (1 / INR n) = Fin r /\ 0 <= r /\ r ^ n = s.
Proof.
  intros H N. assert (0 < INR n) as I by (apply lt_0_INR; lia). cbn [cpow]. destruct (Rlt_dec 0 s) as [P|P].
  - exists (Rpower s (1 / INR n)). split; [reflexivity|]. split; [left; apply exp_pos|]. rewrite <- Rpower_pow by apply exp_pos. rewrite Rpower_mult. replace (1 / INR n * INR n) with 1 by (field; lra). apply Rpower_1. exact P.
  - assert (s = 0) as -> by lra. destruct (Rlt_dec 0 (1 / INR n)) as [_|X]; [|elim X; apply Rdiv_lt_0_compat; lra]. exists 0. split; [reflexivity|]. split; [lra|]. apply pow_i. lia.
Qed.
Lemma norm_is tiny n x : (1 <= n)%nat -> exists r, pnorm tiny (Z.of_nat n) x = Fin r /\ is_norm n x r.
Proof.
  intro N. unfold pnorm. destruct (Z.eqb_spec (Z.of_nat n) 0); [lia|]. rewrite <- INR_IZR_INZ, pow_sum_nat by exact N. destruct (cpow_root (power_sum n x) n (power_sum_pos n x) N) as (r & E & P). exists r. split; [exact E|exact P].
Qed.
(** C149: norm(n) is the n-norm. *)
Lemma c149_norm : forall (tiny : R) (n : nat) (x : list R), (1 <= n)%nat -> exists r, pnorm tiny (Z.of_nat n) x = Fin r /\ is_norm n x r.
Proof. exact norm_is. Qed.
Lemma c149_norm_ex : is_norm 2 [3; -4] 5 /\ is_norm 1 [3; -4] 7 /\ (1 <= 2)%nat.
Proof. unfold is_norm. cbn [power_sum]. rewrite (Rabs_pos_eq 3) by lra. rewrite (Rabs_left (-4)) by lra. repeat split; try lra. lia. Qed.

Lemma convex t u v n : 0 <= t <= 1 -> 0 <= u -> 0 <= v -> (t * u + (1 - t) * v) ^ n <= t * u ^ n + (1 - t) * v ^ n.
Proof.
  intros T U V. induction n as [|n IH]; [cbn; lra|]. cbn [pow]. set (m := t * u + (1 - t) * v) in *. assert (0 <= m) by (unfold m; nra).
  apply Rle_trans with (m * (t * u ^ n + (1 - t) * v ^ n)); [apply Rmult_le_compat_l; assumption|].
  assert (0 <= (u - v) * (u ^ n - v ^ n)) as K. { destruct (Rle_dec u v) as [L|L]; [pose proof (pow_incr u v n (conj U L)); nra|]. assert (v <= u) as L' by lra. pose proof (pow_incr v u n (conj V L')). nra. }
  assert (t * (u * u ^ n) + (1 - t) * (v * v ^ n) - m * (t * u ^ n + (1 - t) * v ^ n) = t * (1 - t) * ((u - v) * (u ^ n - v ^ n))) as E by (unfold m; ring). assert (0 <= t * (1 - t)) by nra. pose proof (Rmult_le_pos _ _ H0 K). lra.
Qed.
Lemma power_sum_zero n x : (1 <= n)%nat -> (power_sum n x = 0 <-> Forall (fun v => v = 0) x).
Proof.
  intro N. induction x as [|v x IH]; cbn [power_sum]; [split; [constructor|reflexivity]|]. pose proof (pow_le (Rabs v) n (Rabs_pos v)). pose proof (power_sum_pos n x). split.
  - intro E. constructor; [|apply IH; lra]. destruct (Req_dec v 0) as [|Nz]; [assumption|]. pose proof (pow_lt (Rabs v) n (Rabs_pos_lt v Nz)). lra.
  - intro F. inversion F as [|? ? Ev Fx]; subst. apply IH in Fx. rewrite Fx, Rabs_R0, pow_i by lia. ring.
Qed.
Lemma plus_0l x y : length x = length y -> Forall (fun v => v = 0) x -> plus x y = y.
Proof. revert y. induction x as [|v x IH]; intros [|w y] L F; try discriminate; [reflexivity|]. inversion F; subst. cbn [plus]. rewrite Rplus_0_l, IH; auto. Qed.
Lemma plus_0r x y : length x = length y -> Forall (fun v => v = 0) y -> plus x y = x.
Proof. revert y. induction x as [|v x IH]; intros [|w y] L F; try discriminate; [reflexivity|]. inversion F; subst. cbn [plus]. rewrite Rplus_0_r, IH; auto. Qed.
Lemma minkowski n x y a b c : (1 <= n)%nat -> length x = length y -> is_norm n x a -> is_norm n y b -> is_norm n (plus x y) c -> c <= a + b.
Proof.
  intros N L [A Ea] [B Eb] [C Ec].
  destruct (Req_dec a 0) as [->|Na]. { rewrite pow_i in Ea by lia. symmetry in Ea. apply power_sum_zero in Ea; [|exact N]. rewrite plus_0l in Ec by auto. rewrite <- Eb in Ec. apply (pow_eq_inv c b n) in Ec; auto. lra. }
  destruct (Req_dec b 0) as [->|Nb]. { rewrite pow_i in Eb by lia. symmetry in Eb. apply power_sum_zero in Eb; [|exact N]. rewrite plus_0r in Ec by auto. rewrite <- Ea in Ec. apply (pow_eq_inv c a n) in Ec; auto. lra. }
  assert (0 < a) as Pa by lra. assert (0 < b) as Pb by lra. set (t := a / (a + b)). assert (0 <= t <= 1) as T. { unfold t. split; [apply Rle_mult_inv_pos; lra|]. apply (Rmult_le_reg_r (a + b)); [lra|]. unfold Rdiv. rewrite Rmult_assoc, Rinv_l by lra. lra. }
  assert (power_sum n (plus x y) <= (a + b) ^ n * (t * (power_sum n x / a ^ n) + (1 - t) * (power_sum n y / b ^ n))) as K.
  { clear Ea Eb Ec. revert y L. induction x as [|u x IH]; intros [|v y] L; try discriminate; cbn [plus power_sum]; [unfold Rdiv; rewrite !Rmult_0_l, !Rmult_0_r, Rplus_0_l, Rmult_0_r; lra|].
    specialize (IH y ltac:(cbn in L; lia)). assert (Rabs (u + v) ^ n <= (a + b) ^ n * (t * (Rabs u ^ n / a ^ n) + (1 - t) * (Rabs v ^ n / b ^ n))) as S.
    { apply Rle_trans with (((a + b) * (t * (Rabs u / a) + (1 - t) * (Rabs v / b))) ^ n).
      - apply pow_incr. split; [apply Rabs_pos|]. apply Rle_trans with (Rabs u + Rabs v); [apply Rabs_triang|]. right. unfold t. field. lra.
      - rewrite Rpow_mult_distr. apply Rmult_le_compat_l; [apply pow_le; lra|]. apply Rle_trans with (t * (Rabs u / a) ^ n + (1 - t) * (Rabs v / b) ^ n).
        + apply convex; [exact T| |]; apply Rle_mult_inv_pos; try lra; apply Rabs_pos.
        + right. unfold Rdiv. rewrite !Rpow_mult_distr, !pow_inv. reflexivity. }
    apply Rle_trans with ((a + b) ^ n * (t * (Rabs u ^ n / a ^ n) + (1 - t) * (Rabs v ^ n / b ^ n)) + (a + b) ^ n * (t * (power_sum n x / a ^ n) + (1 - t) * (power_sum n y / b ^ n))); [lra|]. right. field. split; apply pow_nonzero; lra. }
  rewrite <- Ea, <- Eb, <- Ec in K. assert (a ^ n <> 0) by (apply pow_nonzero; lra). assert (b ^ n <> 0) by (apply pow_nonzero; lra).
  apply (pow_le_inv c (a + b) n); auto; [lra|]. eapply Rle_trans; [exact K|]. right. field. auto.
Qed.
Lemma power_sum_scale n c x : power_sum n (map (Rmult c) x) = Rabs c ^ n * power_sum n x.
Proof. induction x as [|v x IH]; cbn [map power_sum]; [ring|]. rewrite IH, Rabs_mult, Rpow_mult_distr. ring. Qed.
(** C149: for n at least 1 it is a norm: zero at the zero points only, homogeneous, and the triangle inequality holds. *)
Lemma c149_laws : forall (tiny : R) (n : nat) (c : R) (x y : list R), (1 <= n)%nat -> length x = length y ->
  exists rx ry rs rc, pnorm tiny (Z.of_nat n) x = Fin rx /\ pnorm tiny (Z.of_nat n) y = Fin ry /\ pnorm tiny (Z.of_nat n) (plus x y) = Fin rs /\ pnorm tiny (Z.of_nat n) (map (Rmult c) x) = Fin rc /\
    rs <= rx + ry /\ rc = Rabs c * rx /\ (rx = 0 <-> Forall (fun v => v = 0) x).
Proof.
  intros tiny n c x y N L. destruct (norm_is tiny n x N) as (rx & Ex & Hx), (norm_is tiny n y N) as (ry & Ey & Hy), (norm_is tiny n (plus x y) N) as (rs & Es & Hs), (norm_is tiny n (map (Rmult c) x) N) as (rc & Ec & Hc).
  exists rx, ry, rs, rc. repeat (split; [assumption|]). split; [eapply minkowski; eassumption|]. destruct Hx as [Px Hx], Hc as [Pc Hc]. split.
  - apply (pow_eq_inv _ _ n); auto; [apply Rmult_le_pos; [apply Rabs_pos|exact Px]|]. rewrite Hc, power_sum_scale, Rpow_mult_distr, Hx. reflexivity.
  - rewrite <- (power_sum_zero n x N), <- Hx. split; [intros ->; apply pow_i; lia|]. intro E. destruct (Req_dec rx 0) as [|Nz]; [assumption|]. elim (pow_nonzero rx n Nz E).
Qed.
Lemma c149_laws_ex : length [3; -4] = length [1; 0] /\ plus [3; -4] [1; 0] = [4; -4].
Proof. split; [reflexivity|]. cbn [plus]. f_equal; [lra|]. f_equal. lra. Qed.

Lemma power_sum_in n x v : In v x -> Rabs v ^ n <= power_sum n x.
Proof. induction x as [|w x IH]; intros []; cbn [power_sum]; [subst; pose proof (power_sum_pos n x); lra|]. pose proof (pow_le (Rabs w) n (Rabs_pos w)). specialize (IH H). lra. Qed.
Lemma norm_in n x r v : (1 <= n)%nat -> is_norm n x r -> In v x -> Rabs v <= r.
Proof. intros N [P E] I. apply (pow_le_inv _ _ n); auto; [apply Rabs_pos|]. rewrite E. now apply power_sum_in. Qed.
Lemma power_sum_up n k x r : (forall v, In v x -> Rabs v <= r) -> 0 <= r -> power_sum (n + k) x <= power_sum n x * r ^ k.
Proof.
  intros H P. induction x as [|v x IH]; cbn [power_sum]; [lra|]. specialize (IH (fun w I => H w (or_intror I))). specialize (H v (or_introl eq_refl)). rewrite pow_add.
  pose proof (pow_incr (Rabs v) r k (conj (Rabs_pos v) H)). pose proof (pow_le (Rabs v) n (Rabs_pos v)). nra.
Qed.
(** C149: the norms decrease with n, and are never below an absolute value of a coordinate. *)
Lemma c149_order : forall (tiny : R) (n m : nat) (x : list R), (1 <= n <= m)%nat ->
  exists r s, pnorm tiny (Z.of_nat n) x = Fin r /\ pnorm tiny (Z.of_nat m) x = Fin s /\ s <= r /\ forall v, In v x -> Rabs v <= s.
Proof.
  intros tiny n m x N. destruct (norm_is tiny n x ltac:(lia)) as (r & Er & Hr), (norm_is tiny m x ltac:(lia)) as (s & Es & Hs). exists r, s. repeat (split; [assumption|]). split; [|intros v; apply (norm_in m); [lia|exact Hs]].
  destruct Hs as [Ps Hs]. pose proof Hr as [Pr Hr']. apply (pow_le_inv _ _ m); auto; [lia|]. rewrite Hs. replace m with (n + (m - n))%nat by lia. eapply Rle_trans; [apply (power_sum_up n (m - n) x r)|].
  - intros v. apply (norm_in n); [lia|exact Hr].
  - exact Pr.
  - rewrite <- Hr', <- pow_add. lra.
Qed.
Lemma c149_order_ex : (1 <= 1 <= 2)%nat /\ is_norm 1 [3; -4] 7 /\ is_norm 2 [3; -4] 5.
Proof. split; [lia|]. split; apply c149_norm_ex. Qed.

Lemma max_abs_spec tiny x : tiny <= max_abs tiny x /\ (forall v, In v x -> Rabs v <= max_abs tiny x) /\ (max_abs tiny x = tiny \/ exists v, In v x /\ max_abs tiny x = Rabs v).
Proof.
  revert tiny. induction x as [|w x IH]; intro t; unfold max_abs; cbn [fold_left]; [split; [lra|]; split; [intros v []|now left]|].
  fold (max_abs (if Rlt_dec t (Rabs w) then Rabs w else t) x). destruct (IH (if Rlt_dec t (Rabs w) then Rabs w else t)) as (A & B & C). split; [destruct (Rlt_dec t (Rabs w)); lra|]. split.
  - intros v [<-|I]; [destruct (Rlt_dec t (Rabs w)); lra|now apply B].
  - destruct C as [C|(v & I & C)]; [|right; exists v; split; [now right|exact C]]. rewrite C. destruct (Rlt_dec t (Rabs w)); [right; exists w; split; [now left|reflexivity]|now left].
Qed.
(** C149: NORM_LINF (0) is the largest absolute value when some coordinate is at least the smallest normal double. *)
Lemma c149_max : forall (tiny : R) (x : list R), (exists v, In v x /\ tiny <= Rabs v) ->
  exists r, pnorm tiny 0 x = Fin r /\ (exists v, In v x /\ r = Rabs v) /\ forall v, In v x -> Rabs v <= r.
Proof.
  intros tiny x (v & I & T). exists (max_abs tiny x). split; [reflexivity|]. destruct (max_abs_spec tiny x) as (A & B & C). split; [|exact B]. destruct C as [C|C]; [|exact C]. exists v. split; [exact I|]. specialize (B v I). lra.
Qed.
Lemma c149_max_ex : exists v, In v [0; -2] /\ 1 / 1000 <= Rabs v.
Proof. exists (-2). split; [right; left; reflexivity|]. rewrite Rabs_left by lra. lra. Qed.
(** C149: otherwise it is that number: the zero point, and the point without coordinates, have a positive norm. *)
Lemma c149_max_refuted : forall (tiny : R) (x : list R), 0 < tiny -> (forall v, In v x -> Rabs v <= tiny) ->
  pnorm tiny 0 x = Fin tiny /\ (Forall (fun v => v = 0) x -> exists r, pnorm tiny 0 x = Fin r /\ 0 < r).
Proof.
  intros tiny x P H. assert (pnorm tiny 0 x = Fin tiny) as E. { unfold pnorm. cbn [Z.eqb]. f_equal. destruct (max_abs_spec tiny x) as (A & _ & [C|(v & I & C)]); [exact C|]. specialize (H v I). lra. }
  split; [exact E|]. intros _. exists tiny. auto.
Qed.
Lemma c149_max_refuted_ex : forall v, In v [0; 0] -> Rabs v <= 1 / 1000.
Proof. intros v [<-|[<-|[]]]; rewrite Rabs_R0; lra. Qed.
(** C149: with a negative order every point with a zero coordinate has norm 0, and the point without coordinates an infinite one. *)
Lemma c149_negative_refuted : forall (tiny : R) (p : Z) (x : list R), (p < 0)%Z -> In 0 x -> pnorm tiny p x = Fin 0 /\ pnorm tiny p [] = Inf.
Proof.
  intros tiny p x P I. apply IZR_lt in P as PR. assert (~ 0 < 1 / IZR p) as Q. { intro X. assert (1 / IZR p * IZR p = 1) by (field; lra). nra. } unfold pnorm. destruct (Z.eqb_spec p 0); [lia|].
  assert (forall y, fold_left (fun s v => eadd s (cpow (Fin (Rabs v)) (IZR p))) y Inf = Inf) as F by (induction y as [|v y IH]; [reflexivity|exact IH]).
  assert (forall s, fold_left (fun s v => eadd s (cpow (Fin (Rabs v)) (IZR p))) x s = Inf) as G.
  { induction x as [|v x IH]; intro s; [destruct I|]. cbn [fold_left]. destruct I as [->|I]; [|apply IH; exact I]. replace (eadd s (cpow (Fin (Rabs 0)) (IZR p))) with Inf; [apply F|]. cbn [cpow]. rewrite Rabs_R0. destruct (Rlt_dec 0 0); [lra|]. destruct (Rlt_dec 0 (IZR p)); [lra|]. destruct s; reflexivity. }
  unfold pow_sum. rewrite G. cbn [cpow fold_left]. destruct (Rlt_dec 0 (1 / IZR p)); [contradiction|]. split; [reflexivity|]. destruct (Rlt_dec 0 0); [lra|reflexivity].
Qed.
Lemma c149_negative_refuted_ex : (-1 < 0)%Z /\ In 0 [7; 0].
Proof. split; [lia|]. right. left. reflexivity. Qed.

Lemma cpow_rpow s p : 0 < p -> cpow (Fin s) p = Fin (rpow s p).
Proof. intro P. cbn [cpow]. unfold rpow. destruct (Rlt_dec 0 s); [reflexivity|]. destruct (Rlt_dec 0 p); [reflexivity|contradiction]. Qed.
Lemma pow_sum_normp q x : 0 < q -> pow_sum q x = Fin (normp q x).
Proof.
  intro P. unfold pow_sum, normp. replace (sum (map (absp q) x)) with (0 + sum (map (absp q) x)) by ring. generalize 0 as s. induction x as [|v x IH]; intro s; cbn [fold_left map sum]; [f_equal; ring|].
  rewrite cpow_rpow, rpow_absp by exact P. cbn [eadd]. rewrite IH. f_equal. ring.
Qed.
(** C149: normalize(x, q) scales every point other than zero to q-norm 1; given a vector it also writes the result there. *)
Lemma c149_normalize : forall (q : R) (x : list R), 0 < q -> (exists v, In v x /\ v <> 0) ->
  exists c, 0 < c /\ pnormalize_q q x = map Some (map (Rmult c) x) /\ vnormalize_q q x = (map Some (map (Rmult c) x), map Some (map (Rmult c) x)) /\ normp q (map (Rmult c) x) = 1.
Proof.
  intros q x P (v & I & Nv). assert (0 < 1 / q) as Q by (apply Rdiv_lt_0_compat; lra). assert (0 < normp q x) as Ps.
  { unfold normp. induction x as [|w x IH]; [destruct I|]. cbn [map sum]. pose proof (absp_nonneg q w). pose proof (normp_nonneg q x) as X. unfold normp in X. destruct I as [->|I]; [|specialize (IH I); lra]. unfold absp at 1. destruct (Req_EM_T v 0); [contradiction|]. pose proof (exp_pos (q * ln (Rabs v))). unfold Rpower. lra. }
  destruct (rpow_inv q (normp q x) P Ps) as [Pn En]. set (n := rpow (normp q x) (1 / q)) in *. exists (/ n). assert (pnormalize_q q x = map Some (map (Rmult (/ n)) x)) as E.
  { unfold pnormalize_q. rewrite pow_sum_normp, cpow_rpow by assumption. fold n. rewrite map_map. apply map_ext. intro w. destruct (Req_EM_T n 0); [lra|]. f_equal. unfold Rdiv. ring. }
  split; [now apply Rinv_0_lt_compat|]. split; [exact E|]. split; [unfold vnormalize_q; rewrite E; reflexivity|].
  rewrite (map_ext (Rmult (/ n)) (fun v => v / n)) by (intro; unfold Rdiv; ring). rewrite normp_div, En by exact Pn. field. lra.
Qed.
Lemma c149_normalize_ex : exists v, In v [0; 3] /\ v <> 0.
Proof. exists 3. split; [right; left; reflexivity|lra]. Qed.
(** C149: the zero point becomes a point whose coordinates are not numbers. *)
Lemma c149_zero_refuted : forall (q : R) (x : list R), 0 < q -> Forall (fun v => v = 0) x -> pnormalize_q q x = map (fun _ => None) x.
Proof.
  intros q x P F. assert (normp q x = 0) as E. { unfold normp. induction F as [|v x -> F IH]; [reflexivity|]. cbn [map sum]. rewrite IH. unfold absp. destruct (Req_EM_T 0 0); lra. }
  unfold pnormalize_q. rewrite pow_sum_normp, E, cpow_rpow by (try assumption; apply Rdiv_lt_0_compat; lra). unfold rpow. destruct (Rlt_dec 0 0); [lra|]. apply map_ext. intro v. destruct (Req_EM_T 0 0); [reflexivity|lra].
Qed.
Lemma c149_zero_refuted_ex : Forall (fun v => v = 0) [0; 0] /\ 0 < 2.
Proof. split; [repeat constructor|lra]. Qed.

Lemma zpower_pos q x : (0 <= zpower_sum q x)%Z.
Proof. induction x as [|v x IH]; cbn [zpower_sum]; [lia|]. pose proof (Z.pow_nonneg (Z.abs v) (Z.of_nat q) (Z.abs_nonneg v)). lia. Qed.
Lemma ipow_sum_ok q x : (zpower_sum q x <= 2 ^ 31 - 1)%Z -> ipow_sum q x = Ok (zpower_sum q x).
Proof.
  unfold ipow_sum. replace (zpower_sum q x) with (0 + zpower_sum q x)%Z by ring. assert (0 <= 0)%Z as P by lia. revert P. generalize 0%Z at 2 3 4 5 as s. induction x as [|v x IH]; intros s P H; cbn [ofold zpower_sum] in *; [f_equal; ring|].
  pose proof (Z.pow_nonneg (Z.abs v) (Z.of_nat q) (Z.abs_nonneg v)). pose proof (zpower_pos q x). destruct (Z.ltb_spec (2 ^ 31 - 1) (Z.abs v ^ Z.of_nat q)); [lia|]. destruct (Z.ltb_spec (2 ^ 31 - 1) (s + Z.abs v ^ Z.of_nat q)); [lia|]. cbn [obind]. rewrite IH by lia. f_equal. ring.
Qed.
Lemma zpower_R q x : IZR (zpower_sum q x) = power_sum q (map IZR x).
Proof. induction x as [|v x IH]; cbn [zpower_sum power_sum map]; [reflexivity|]. rewrite plus_IZR, IH, <- abs_IZR, pow_IZR. reflexivity. Qed.
Lemma zpow_pos1 q v : (v <> 0 -> 1 <= Z.abs v ^ Z.of_nat q)%Z.
Proof. intro N. pose proof (Z.pow_pos_nonneg (Z.abs v) (Z.of_nat q)). lia. Qed.
Lemma nonzeros_cons v x : nonzeros (v :: x) = ((if Z.eq_dec v 0 then 0 else 1) + nonzeros x)%nat.
Proof. unfold nonzeros. cbn [filter]. destruct (Z.eqb_spec v 0), (Z.eq_dec v 0); try contradiction; reflexivity. Qed.
Lemma nonzeros_1 q x : (1 <= q)%nat -> ((1 <= nonzeros x)%nat -> (1 <= zpower_sum q x)%Z) /\ (nonzeros x = 0%nat -> zpower_sum q x = 0%Z /\ forall u, In u x -> u = 0%Z).
Proof.
  intro Q. induction x as [|v x [IA IB]]; [split; [cbn; lia|intros _; split; [reflexivity|intros u []]]|]. rewrite nonzeros_cons. cbn [zpower_sum]. pose proof (zpow_pos1 q v). pose proof (zpower_pos q x). destruct (Z.eq_dec v 0) as [->|N].
  - rewrite Z.abs_0, Z.pow_0_l by lia. split; [intro X; specialize (IA X); lia|]. intro X. destruct (IB X) as [E F]. split; [lia|]. intros u [<-|I]; auto.
  - specialize (H N). split; [lia|]. cbn. lia.
Qed.
Lemma nonzeros_2 q x u : (1 <= q)%nat -> In u x -> ((2 <= nonzeros x)%nat -> (Z.abs u ^ Z.of_nat q < zpower_sum q x)%Z) /\ (nonzeros x = 1%nat -> u = 0%Z \/ (Z.abs u ^ Z.of_nat q = zpower_sum q x)%Z).
Proof.
  intros Q. induction x as [|v x IH]; intros I; [destruct I|]. rewrite nonzeros_cons. cbn [zpower_sum]. pose proof (zpow_pos1 q v) as V. pose proof (zpower_pos q x). destruct (nonzeros_1 q x Q) as [A B].
  destruct I as [->|I].
  - split; intro X; [assert (1 <= nonzeros x)%nat as Y by (destruct (Z.eq_dec u 0); lia); specialize (A Y); lia|]. destruct (Z.eq_dec u 0); [now left|]. right. destruct (B ltac:(lia)). lia.
  - destruct (IH I) as [C D]. destruct (Z.eq_dec v 0) as [->|N]; [rewrite Z.abs_0, Z.pow_0_l by lia; split; intro X; [specialize (C X); lia|destruct (D X); [now left|right; lia]]|]. specialize (V N). split; intro X.
    + clear D. enough (Z.abs u ^ Z.of_nat q <= zpower_sum q x)%Z by lia. clear - I. induction x as [|w x IH]; [destruct I|]. cbn [zpower_sum]. pose proof (zpower_pos q x). pose proof (Z.pow_nonneg (Z.abs w) (Z.of_nat q) (Z.abs_nonneg w)). destruct I as [->|I]; [lia|]. specialize (IH I). lia.
    + left. apply B; [lia|exact I].
Qed.
Lemma map_outcome_map {A B} (f : A -> outcome B) (g : A -> B) l : (forall x, In x l -> f x = Ok (g x)) -> map_outcome f l = Ok (map g l).
Proof. induction l as [|x l IH]; intro H; [reflexivity|]. cbn [map_outcome map]. rewrite (H x (or_introl eq_refl)). cbn [obind]. rewrite IH by (intros; apply H; now right). reflexivity. Qed.
Lemma trunc_small x : Rabs x < 1 -> rtrunc x = 0%Z.
Proof.
  intro H. apply Rabs_def2 in H. destruct (Rle_dec 0 x) as [P|P]; [apply trunc_is; lra|]. change 0%Z with (- 0)%Z. apply trunc_isn; lra.
Qed.
(** C149: an int point never gets norm 1 unless it had a single coordinate other than 0: with two or more it becomes the zero point, with one its sign is kept, and for the zero point it is undefined. *)
Lemma c149_int_refuted : forall (q : nat) (x : list Z), (1 <= q)%nat -> (zpower_sum q x <= 2 ^ 31 - 1)%Z ->
  ((2 <= nonzeros x)%nat -> inormalize q x = Ok (map (fun _ => 0%Z) x)) /\ (nonzeros x = 1%nat -> inormalize q x = Ok (map Z.sgn x)) /\ (nonzeros x = 0%nat -> x <> [] -> inormalize q x = UB).
Proof.
  intros q x Q H. assert (0 < INR q) as Iq by (apply lt_0_INR; lia). assert (0 < 1 / INR q) as Iq' by (apply Rdiv_lt_0_compat; lra). unfold inormalize. rewrite ipow_sum_ok by exact H. cbn [obind].
  destruct (cpow_root (IZR (zpower_sum q x)) q (IZR_le 0 _ (zpower_pos q x)) Q) as (r & E & Pr & Er). rewrite cpow_rpow in E by exact Iq'. injection E as E. rewrite E. clear E.
  assert (forall u, In u x -> (Z.abs u ^ Z.of_nat q < zpower_sum q x)%Z -> Rabs (IZR u) < r) as LT.
  { intros u I L. apply Rnot_le_lt. intro G. pose proof (pow_incr r (Rabs (IZR u)) q (conj Pr G)) as K. rewrite Er, Rabs_Zabs, pow_IZR in K. apply le_IZR in K. lia. }
  destruct (nonzeros_1 q x Q) as [A B]. split; [|split].
  - intro X. assert (0 < r) as P. { destruct (Req_dec r 0) as [->|]; [|lra]. rewrite pow_i in Er by lia. apply eq_IZR in Er. specialize (A ltac:(lia)). lia. }
    apply map_outcome_map. intros u I. destruct (Req_EM_T r 0); [lra|]. f_equal. apply trunc_small. unfold Rdiv. rewrite Rabs_mult, (Rabs_pos_eq (/ r)) by (left; now apply Rinv_0_lt_compat).
    specialize (LT u I (proj1 (nonzeros_2 q x u Q I) X)). apply (Rmult_lt_reg_r r); [exact P|]. rewrite Rmult_assoc, Rinv_l by lra. lra.
  - intro X. assert (0 < r) as P. { destruct (Req_dec r 0) as [->|]; [|lra]. rewrite pow_i in Er by lia. apply eq_IZR in Er. specialize (A ltac:(lia)). lia. }
    apply map_outcome_map. intros u I. destruct (Req_EM_T r 0); [lra|]. f_equal. destruct (proj2 (nonzeros_2 q x u Q I) X) as [->|Eu].
    + unfold Rdiv. rewrite Rmult_0_l. apply trunc_small. rewrite Rabs_R0. lra.
    + assert (r = Rabs (IZR u)) as ->. { apply (pow_eq_inv _ _ q); auto; [apply Rabs_pos|]. rewrite Er, Rabs_Zabs, pow_IZR, Eu. reflexivity. }
      destruct (Z.lt_trichotomy u 0) as [L|[->|L]]; [|rewrite Rabs_R0 in P; lra|].
      * apply IZR_lt in L as LR. rewrite Rabs_left by exact LR. replace (IZR u / - IZR u) with (-1) by (field; lra). rewrite (trunc_isn (-1) 1) by lra. rewrite Z.sgn_neg by exact L. reflexivity.
      * apply IZR_lt in L as LR. rewrite Rabs_pos_eq by lra. replace (IZR u / IZR u) with 1 by (field; lra). rewrite (trunc_is 1 1) by lra. rewrite Z.sgn_pos by exact L. reflexivity.
  - intros X Nx. destruct (B X) as [Z0 _]. rewrite Z0 in Er. destruct (Req_dec r 0) as [->|Nr]; [|elim (pow_nonzero r q Nr Er)]. destruct x as [|v x]; [congruence|]. cbn [map_outcome]. destruct (Req_EM_T 0 0); [reflexivity|congruence].
Qed.
Lemma c149_int_refuted_ex : nonzeros [3; -4]%Z = 2%nat /\ nonzeros [0; -4]%Z = 1%nat /\ (zpower_sum 2 [3; -4]%Z <= 2 ^ 31 - 1)%Z.
Proof. split; [reflexivity|]. split; [reflexivity|]. discriminate. Qed.
