(** Property lemmas for regression: C47, C48, C49. *)
From Coq Require Import Bool List Reals Lra Lia Permutation Sorted.
From Verif Require Import Base ListLib L_Vec Loop M_Point S_Point L_Point M_Reg S_Reg.
Import ListNotations.
Local Open Scope R_scope.

Lemma isort_before (far : nat -> R) (leb : nat -> nat -> bool) l : (forall i j, In i l -> In j l -> (leb i j = true <-> far i <= far j)) -> StronglySorted lt l -> StronglySorted (before far) (isort leb l).
Proof.
  intros L S. assert (forall l', incl l' l -> StronglySorted lt l' -> StronglySorted (before far) (isort leb l')) as G; [|apply G; [apply incl_refl|auto]].
  induction l' as [|x l' IH]; intros I S'; cbn [isort]; [constructor|]. inversion S'; subst.
  assert (StronglySorted (before far) (isort leb l')) as A by (apply IH; [intros z Hz; apply I; now right|auto]).
  assert (forall y, In y (isort leb l') -> (x < y)%nat /\ In y l) as B.
  { intros y Hy. apply isort_In in Hy. rewrite Forall_forall in H2. split; [auto|]. apply I. now right. }
  assert (In x l) as Hx by (apply I; now left). revert A B. generalize (isort leb l'). intro r. induction r as [|y r IHr]; intros A B; cbn [insert_sorted]; [constructor; constructor|].
  inversion A; subst. destruct (B y (or_introl eq_refl)) as [Lxy Iy]. destruct (leb x y) eqn:E.
  - apply L in E; auto. constructor; [auto|]. constructor.
    + destruct E as [E|E]; [now left|right; auto].
    + apply Forall_forall. intros z Hz. rewrite Forall_forall in H4. destruct (B z (or_intror Hz)) as [Lz _]. destruct (H4 z Hz) as [Q|[Q Q']]; [left; lra|]. destruct E as [E|E]; [left; lra|right; split; [lra|auto]].
  - constructor; [apply IHr; auto; intros; apply B; now right|]. apply Forall_forall. intros z Hz. apply (Permutation_in _ (insert_sorted_perm leb x r)) in Hz as [<-|Hz].
    + left. destruct (Rle_lt_dec (far x) (far y)) as [Q|Q]; [|auto]. apply L in Q; auto. congruence.
    + rewrite Forall_forall in H4. auto.
Qed.
Lemma seq_sorted a n : StronglySorted lt (seq a n).
Proof. revert a. induction n as [|n IH]; intro a; cbn; constructor; auto. apply Forall_forall. intros x Hx. apply in_seq in Hx. lia. Qed.
Lemma sorted_parts {A} (P : A -> A -> Prop) u v : StronglySorted P (u ++ v) -> StronglySorted P u /\ forall a b, In a u -> In b v -> P a b.
Proof.
  induction u as [|x u IH]; cbn; intro S; [split; [constructor|intros a b []]|]. inversion S; subst. destruct (IH H1) as [A1 A2]. rewrite Forall_forall in H2. split.
  - constructor; [auto|]. apply Forall_forall. intros z Hz. apply H2. apply in_or_app. now left.
  - intros a b [<-|Ha] Hb; [apply H2; apply in_or_app; now right|auto].
Qed.
Lemma total_app a b : total (a ++ b) = total a + total b.
Proof. induction a as [|x a IH]; cbn; [lra|]. rewrite IH. lra. Qed.
Lemma sumn_firstn (l : list R) k : (k <= length l)%nat -> sumn k (nz l) = total (firstn k l).
Proof.
  revert l. induction k as [|k IH]; intros l H; [reflexivity|]. destruct l as [|x l]; [cbn in H; lia|]. rewrite sumn_S. cbn [firstn total].
  rewrite <- (IH l) by (cbn in H; lia). reflexivity.
Qed.

(** C47: the value is the mean of the labels of the k nearest samples, earlier samples first among equally near ones. *)
Lemma c47_mean : forall dist (k : nat) (s : list sample) q, (0 < k <= length s)%nat ->
  exists N, knn_regress dist k s q = Ok (Some (total (map (fun i => snd (nth i s ([], 0))) N) / INR k)) /\
    first_k (length s) k (fun i => dist q (fst (nth i s ([], 0)))) N.
Proof.
  intros dist k s q [K0 K]. unfold knn_regress. set (ds := map (fun p => dist q (fst p)) s). cbv zeta.
  set (leb := fun i j => negb (if Rlt_dec (nth j ds 0) (nth i ds 0) then true else false)). set (far := fun i => dist q (fst (nth i s ([], 0)))).
  assert (forall i, (i < length s)%nat -> nth i ds 0 = far i) as D.
  { intros i Hi. unfold ds, far. rewrite (nth_indep _ 0 ((fun p => dist q (fst p)) ([], 0))) by now rewrite map_length. apply (map_nth (fun p => dist q (fst p))). }
  set (idx := isort leb (seq 0 (length s))).
  assert (StronglySorted (before far) idx) as S.
  { apply isort_before; [|apply seq_sorted]. intros i j Hi Hj. apply in_seq in Hi. apply in_seq in Hj. unfold leb. rewrite !D by lia. destruct (Rlt_dec _ _); cbn; split; intro Q; (discriminate || lra || reflexivity). }
  assert (length idx = length s) as L by (unfold idx; rewrite isort_length; apply seq_length).
  assert (forall a, In a idx <-> (a < length s)%nat) as M. { intro a. unfold idx. rewrite isort_In, in_seq. lia. }
  rewrite (osum_ok k _ (nz (map (fun i => snd (nth i s ([], 0))) idx))).
  2:{ intros j Hj. assert (j < length idx)%nat as Lj by (unfold idx in *; lia). rewrite (vget_nth idx j 0%nat Lj). cbn [obind].
      assert (nth j idx 0 < length s)%nat as B by (apply M, nth_In; auto). rewrite (vget_nth s _ ([], 0) B). cbn [obind]. f_equal.
      unfold nz. rewrite (nth_indep _ 0 ((fun i => snd (nth i s ([], 0))) 0%nat)) by now rewrite map_length. symmetry. apply (map_nth (fun i => snd (nth i s ([], 0)))). }
  cbn [obind]. destruct (Nat.eqb_spec k 0); [lia|]. exists (firstn k idx). rewrite sumn_firstn by (rewrite map_length; lia). rewrite firstn_map. split; [reflexivity|].
  rewrite <- (firstn_skipn k idx) in S. apply sorted_parts in S as [S1 S2]. split; [rewrite firstn_length; lia|]. split; [exact S1|].
  assert (forall a, In a (firstn k idx) -> In a idx) as I by (intros a Ha; rewrite <- (firstn_skipn k idx); apply in_or_app; now left).
  split; [intros a Ha; apply M, I, Ha|]. intros a b Ha Hb Nb. apply S2; [auto|]. apply M in Hb. rewrite <- (firstn_skipn k idx) in Hb. apply in_app_or in Hb as [Hb|Hb]; [contradiction|auto].
Qed.
Lemma c47_mean_ex : (0 < 2 <= length [([0], 1); ([1], 5); ([3], 7)])%nat.
Proof. cbn. lia. Qed.
(** C47: so it lies between the smallest and the largest label. *)
Lemma c47_between : forall dist (k : nat) (s : list sample) q lo hi, (0 < k <= length s)%nat -> (forall p, In p s -> lo <= snd p <= hi) ->
  exists v, knn_regress dist k s q = Ok (Some v) /\ lo <= v <= hi.
Proof.
  intros dist k s q lo hi K H. destruct (c47_mean dist k s q K) as (N & E & (L & _ & B & _)). eexists. split; [exact E|].
  assert (INR (length N) * lo <= total (map (fun i => snd (nth i s ([], 0))) N) <= INR (length N) * hi) as G.
  { clear E L. induction N as [|a N IH]; [cbn; lra|]. assert (lo <= snd (nth a s ([], 0)) <= hi) by (apply H, nth_In, B; now left). cbn [map total length]. rewrite S_INR. destruct IH; [intros; apply B; now right|]. lra. }
  rewrite L in G. assert (0 < INR k) by (apply lt_0_INR; lia). split.
  - apply (Rmult_le_reg_r (INR k)); [auto|]. unfold Rdiv. rewrite Rmult_assoc, Rinv_l by lra. lra.
  - apply (Rmult_le_reg_r (INR k)); [auto|]. unfold Rdiv. rewrite Rmult_assoc, Rinv_l by lra. lra.
Qed.
Lemma c47_between_ex : (0 < 2 <= length [([0], 1); ([1], 5); ([3], 7)])%nat /\ forall p, In p [([0], 1); ([1], 5); ([3], 7)] -> 1 <= snd p <= 7.
Proof. split; [cbn; lia|]. intros p [<-|[<-|[<-|[]]]]; cbn; lra. Qed.
(** C47: the guard: more neighbours than samples are read out of bounds. *)
Lemma c47_few_refuted : forall dist (k : nat) (s : list sample) q, (length s < k)%nat -> knn_regress dist k s q = UB.
Proof.
  intros dist k s q K. unfold knn_regress. cbv zeta. set (idx := isort _ _). assert (length idx = length s) as L by (unfold idx; rewrite isort_length; apply seq_length).
  assert (forall a, In a idx -> (a < length s)%nat) as M. { intros a Ha. unfold idx in Ha. apply isort_In, in_seq in Ha. lia. }
  unfold osum. rewrite <- (Nat.sub_add (length s) k) by lia. rewrite Nat.add_comm, seq_app, ofold_app.
  destruct (ofold_seq (fun s0 i => let* v := (let* i0 := vget idx i in let* p := vget s i0 in Ok (snd p)) in Ok (s0 + v)) (fun _ _ => True) (length s) 0) as (t & -> & _); [auto| |].
  - intros i t Hi _. rewrite (vget_nth idx i 0%nat) by lia. cbn [obind]. rewrite (vget_nth s _ ([], 0)) by (apply M, nth_In; lia). cbn [obind]. eauto.
  - cbn [obind]. destruct (k - length s)%nat eqn:Q; [lia|]. cbn [seq ofold]. rewrite Nat.add_0_l. unfold vget at 1. rewrite (proj2 (nth_error_None idx (length s))) by lia. reflexivity.
Qed.
Lemma c47_few_refuted_ex : (length [([0], 1)] < 3)%nat.
Proof. cbn. lia. Qed.

(** C48: the mean of the squared differences. *)
Lemma c48_mean_square : forall a b, length a = length b -> a <> [] -> mse a b = Ok (Some (sumn (length a) (fun i => (nz a i - nz b i) ^ 2) / INR (length a))).
Proof.
  intros a b L N. unfold mse. rewrite <- L, Nat.eqb_refl. rewrite (psum_ok (length a) _ (fun i => (nz a i - nz b i) ^ 2)).
  - cbn [obind]. destruct (Nat.eqb_spec (length a) 0); [destruct a; [congruence|discriminate]|reflexivity].
  - cbn [dims]. auto.
  - reflexivity.
  - intros i Hi. cbn. do 2 f_equal. unfold nz. ring.
Qed.
Lemma c48_mean_square_ex : length [1; 2] = length [1; 4] /\ [1; 2] <> [].
Proof. split; [reflexivity|discriminate]. Qed.
(** C48: non-negative, zero iff the vectors are equal, symmetric. *)
Lemma c48_measure : forall a b, length a = length b -> a <> [] -> exists v, mse a b = Ok (Some v) /\ 0 <= v /\ (v = 0 <-> a = b) /\ mse b a = Ok (Some v).
Proof.
  intros a b L N. assert (b <> []) as N' by (destruct a, b; try discriminate; congruence). eexists. split; [now apply c48_mean_square|].
  assert (0 < INR (length a)) as P by (apply lt_0_INR; destruct a; [congruence|cbn; lia]).
  assert (0 <= sumn (length a) (fun i => (nz a i - nz b i) ^ 2)) as G by (apply sumn_nonneg; intros; apply pow2_ge_0). split; [|split].
  - apply Rmult_le_pos; [auto|]. left. now apply Rinv_0_lt_compat.
  - split.
    + intro E. apply Rmult_integral in E as [E|E]; [|apply Rinv_neq_0_compat in E; lra || (exfalso; lra)].
      apply (nth_ext _ _ 0 0 L). intros i Hi. assert ((nz a i - nz b i) ^ 2 = 0) as Q by (revert i Hi; apply sumn_zero_inv; auto; intros; apply pow2_ge_0). unfold nz in Q. nra.
    + intros <-. rewrite sumn_zero; [unfold Rdiv; ring|]. intros; ring.
  - rewrite c48_mean_square by auto. do 2 f_equal. rewrite L. f_equal. apply sumn_ext. intros; ring.
Qed.
Lemma c48_measure_ex : length [1; 2] = length [1; 4] /\ [1; 2] <> [].
Proof. split; [reflexivity|discriminate]. Qed.
(** C48: vectors of different length are refused. *)
Lemma c48_lengths : forall a b, length a <> length b -> mse a b = Abort.
Proof. intros a b L. unfold mse. apply Nat.eqb_neq in L. now rewrite L. Qed.
Lemma c48_lengths_ex : length [1] <> length [1; 4].
Proof. cbn. lia. Qed.

(** *** least mean squares *)
Lemma func_ok x w b : length x = length w -> ofold (fun f k => let* v := vget x k in let* a := vget w k in Ok (f + v * a)) (seq 0 (length x)) b = Ok (b + sumn (length x) (fun k => nz w k * nz x k)).
Proof.
  intro L. destruct (ofold_seq (fun f k => let* v := vget x k in let* a := vget w k in Ok (f + v * a)) (fun i t => t = b + sumn i (fun k => nz w k * nz x k)) (length x) b) as (t & -> & ->); [cbn; lra| |reflexivity].
  intros i t Hi ->. rewrite !vget_nz by lia. cbn [obind sumn]. eexists. split; [reflexivity|]. lra.
Qed.
Lemma combine_nth_map (f : R -> R -> R) a b i : length a = length b -> (i < length a)%nat -> nz (map (fun p => f (fst p) (snd p)) (combine a b)) i = f (nz a i) (nz b i).
Proof.
  revert b i. induction a as [|x a IH]; intros [|y b] i L H; try discriminate; cbn in H; [lia|]. destruct i as [|i]; [reflexivity|]. cbn [combine map]. unfold nz in *. cbn [nth]. apply IH; [cbn in L|]; lia.
Qed.
Lemma step_ok rate dim s x y : length x = dim -> length (lm_w s) = dim -> exists s', lms_step rate dim s (x, y) = Ok s' /\
  lms_moves rate 1 x y (lm_w s) (lm_bias s) (lm_w s') (lm_bias s') /\ lm_cost s' = lm_cost s + residual (lm_w s) (lm_bias s) x y * residual (lm_w s) (lm_bias s) x y.
Proof.
  intros <- Lw. unfold lms_step. cbn [fst snd]. rewrite Lw, Nat.eqb_refl. cbn [andb]. rewrite func_ok by auto. cbn [obind]. eexists. split; [reflexivity|]. cbn [lm_w lm_bias lm_cost]. fold (residual (lm_w s) (lm_bias s) x y).
  split; [|reflexivity]. split; [rewrite map_length, combine_length; lia|]. split; [|lra]. intros k Hk.
  exact (combine_nth_map (fun a v => a + rate * residual (lm_w s) (lm_bias s) x y * v) _ _ k Lw Hk).
Qed.
Lemma pass_ok rate dim data : Forall (fun e => length (fst e) = dim) data -> forall s, length (lm_w s) = dim -> exists s' c, ofold (lms_step rate dim) data s = Ok s' /\
  lms_steps rate 1 data (lm_w s) (lm_bias s) (lm_w s') (lm_bias s') c /\ lm_cost s' = lm_cost s + c /\ length (lm_w s') = dim.
Proof.
  induction 1 as [|[x y] data Hx _ IH]; intros s Ls; cbn [ofold].
  - exists s, 0. split; [reflexivity|]. split; [constructor|]. split; [lra|auto].
  - cbn [fst] in Hx. destruct (step_ok rate dim s x y Hx Ls) as (s1 & -> & M & C1). cbn [obind]. destruct (IH s1) as (s' & c & E & St & C2 & L2); [destruct M; lia|].
    exists s', (residual (lm_w s) (lm_bias s) x y * residual (lm_w s) (lm_bias s) x y + c). split; [exact E|]. split; [econstructor; eauto|]. split; [lra|auto].
Qed.
Definition lms_stops (EPS : R) (late : nat -> bool) (costs : list R) : Prop :=
  exists c r, costs = c :: r /\ (Rabs (c - match r with [] => 0 | c' :: _ => c' end) <= EPS \/ late (length r) = true).
Lemma loop_ok rate EPS dim late data : Forall (fun e => length (fst e) = dim) data -> forall m p w0 b0 w b costs prev,
  lms_passes rate 1 data w0 b0 w b costs -> length costs = p -> length w = dim -> prev = match costs with [] => 0 | c :: _ => c end ->
  exists w' b' costs' st, lms_loop rate EPS dim late data m p w b prev = Ok (w', b', st) /\ lms_passes rate 1 data w0 b0 w' b' costs' /\ length w' = dim /\
    (length costs' <= p + m)%nat /\ ((length costs' = p + m)%nat \/ lms_stops EPS late costs') /\ (p + Nat.min m 1 <= length costs')%nat.
Proof.
  intro H. induction m as [|m IH]; intros p w0 b0 w b costs prev P Lc Lw ->; cbn [lms_loop].
  - exists w, b, costs, p. split; [reflexivity|]. split; [auto|]. split; [auto|]. split; [lia|]. split; [left; lia|]. cbn. lia.
  - destruct (pass_ok rate dim data H (mkLms w b 0) Lw) as (s & c & -> & St & C & Ls). cbn [obind lm_w lm_bias lm_cost] in *. cbv zeta.
    assert (lm_cost s * (1 / 2) = c / 2) as -> by lra.
    assert (lms_passes rate 1 data w0 b0 (lm_w s) (lm_bias s) (c / 2 :: costs)) as P' by (econstructor; eauto).
    destruct (Rle_dec _ _) as [Q|Q].
    { exists (lm_w s), (lm_bias s), (c / 2 :: costs), p. split; [reflexivity|]. split; [auto|]. split; [auto|]. cbn [length]. split; [lia|]. split; [|lia]. right. exists (c / 2), costs. auto. }
    destruct (late p) eqn:E.
    { exists (lm_w s), (lm_bias s), (c / 2 :: costs), p. split; [reflexivity|]. split; [auto|]. split; [auto|]. cbn [length]. split; [lia|]. split; [|lia]. right. exists (c / 2), costs. rewrite Lc. auto. }
    destruct (IH (S p) w0 b0 (lm_w s) (lm_bias s) (c / 2 :: costs) (c / 2) P') as (w' & b' & cs & st & E' & A1 & A2 & A3 & A4 & A5); [cbn; lia|auto|auto|].
    exists w', b', cs, st. split; [exact E'|]. split; [auto|]. split; [auto|]. split; [lia|]. split; [destruct A4 as [A4|A4]; [left; lia|now right]|]. lia.
Qed.
(** C49: training makes at least one and at most max_it passes over the data from zero weights, each example moving the weights by the rate against its error
    and the bias by the error itself; it stops early only when the cost changes by at most EPS between passes or the time is over.
    What differs from the property: the bias is not moved by the learning rate. *)
Lemma c49_training : forall rate EPS dim late data max_it bias0, Forall (fun e => length (fst e) = dim) data ->
  exists w b costs st, lms_train rate EPS dim late data max_it bias0 = Ok (w, b, st) /\ length w = dim /\
    lms_passes rate 1 data (repeat 0 dim) bias0 w b costs /\ (length costs <= max_it)%nat /\ (max_it = 0%nat \/ (0 < length costs)%nat) /\
    ((length costs = max_it)%nat \/ lms_stops EPS late costs).
Proof.
  intros rate EPS dim late data max_it bias0 H. destruct (loop_ok rate EPS dim late data H max_it 0 (repeat 0 dim) bias0 (repeat 0 dim) bias0 [] 0) as (w & b & cs & st & E & A1 & A2 & A3 & A4 & A5);
    [constructor|reflexivity|apply repeat_length|reflexivity|]. exists w, b, cs, st. split; [exact E|]. split; [auto|]. split; [auto|]. split; [lia|]. split; [|exact A4]. destruct max_it; [now left|right; lia].
Qed.
Lemma c49_training_ex : Forall (fun e : list R * R => length (fst e) = 2%nat) [([1; 2], 3); ([0; 1], -1)].
Proof. repeat constructor. Qed.
(** C49: the learning rate does not apply to the bias: with rate 1/2, one example and one pass, the bias moves by the whole error, so that no run of the rule with
    one rate for weights and bias gives this result. *)
Lemma c49_bias_refuted : exists w b st, lms_train (1 / 2) (1 / 10000000) 1 (fun _ => false) [([0], 1)] 1 0 = Ok (w, b, st) /\ b = 1 /\
  forall w' b' costs, lms_passes (1 / 2) (1 / 2) [([0], 1)] [0] 0 w' b' costs -> length costs = 1%nat -> b' = 1 / 2.
Proof.
  unfold lms_train. cbn [lms_loop]. destruct (step_ok (1 / 2) 1 (mkLms [0] 0 0) [0] 1 eq_refl eq_refl) as (s & E & (_ & _ & B) & _). cbn [ofold repeat lm_w lm_bias] in *. rewrite E. cbn [obind].
  assert (lm_bias s = 1 /\ forall w' b' costs, lms_passes (1 / 2) (1 / 2) [([0], 1)] [0] 0 w' b' costs -> length costs = 1%nat -> b' = 1 / 2) as [Q1 Q2].
  { split; [rewrite B; unfold residual, nz; cbn [length sumn nth]; lra|].
    intros w' b' costs P L. inversion P as [|? ? w1 b1 ? ? cs c P1 St]; subst; [discriminate|]. cbn in L. destruct cs; [|discriminate]. inversion P1; subst.
    inversion St as [|x y l ? ? w2 b2 ? ? c' M St']; subst. inversion St'; subst. destruct M as (_ & _ & M). rewrite M. unfold residual, nz. cbn [length sumn nth]. lra. }
  destruct (Rle_dec _ _); do 3 eexists; (split; [reflexivity|]); auto.
Qed.
(** C49: after the step of an example its own error is the old one times minus the rate times the squared length: the step of the bias alone removes the error and
    the step of the weights comes on top. *)
Lemma c49_residual : forall rate x y w b w' b', length x = length w -> lms_moves rate 1 x y w b w' b' ->
  residual w' b' x y = - (rate * sumn (length x) (fun k => nz x k * nz x k)) * residual w b x y.
Proof.
  intros rate x y w b w' b' L (Lw & W & ->). unfold residual at 1. set (e := residual w b x y) in *.
  rewrite (sumn_ext (length x) (fun k => nz w' k * nz x k) (fun k => nz w k * nz x k + (rate * e) * (nz x k * nz x k))).
  - rewrite sumn_add, sumn_scal. unfold e, residual. ring.
  - intros k Hk. rewrite W by lia. ring.
Qed.
Lemma c49_residual_ex : exists w' b', length [1; 2] = length [0; 0] /\ lms_moves (1 / 10) 1 [1; 2] 3 [0; 0] 0 w' b'.
Proof.
  destruct (step_ok (1 / 10) 2 (mkLms [0; 0] 0 0) [1; 2] 3 eq_refl eq_refl) as (s & _ & M & _). exists (lm_w s), (lm_bias s). split; [reflexivity|exact M].
Qed.
(** C49: the trained function is evaluated as bias plus weighted sum, and as 0 on points of another dimension. *)
Lemma c49_value : forall w b p, primal_value w b p = Ok (if Nat.eqb (length p) (length w) then b + sumn (length w) (fun k => nz w k * nz p k) else 0).
Proof.
  intros w b p. unfold primal_value. destruct (Nat.eqb_spec (length p) (length w)) as [L|]; [|reflexivity].
  destruct (ofold_seq (fun f i => let* a := vget w i in let* x := vget p i in Ok (f + a * x)) (fun i t => t = b + sumn i (fun k => nz w k * nz p k)) (length w) b) as (t & -> & ->); [cbn; lra| |reflexivity].
  intros i t Hi ->. rewrite !vget_nz by lia. cbn [obind sumn]. eexists. split; [reflexivity|]. lra.
Qed.
Lemma c49_value_ex : primal_value [1; 2] 3 [1] = Ok 0.
Proof. reflexivity. Qed.
