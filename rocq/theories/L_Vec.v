(** Finite sums of reals and the Cauchy-Schwarz inequality. *)
From Coq Require Import Bool List Reals Lra Lia Psatz.
Import ListNotations.
Local Open Scope R_scope.

(** sum of f i for i < n *)
Fixpoint sumn (n : nat) (f : nat -> R) : R :=
  match n with O => 0 | S m => sumn m f + f m end.

Lemma sumn_ext n f g : (forall i, (i < n)%nat -> f i = g i) -> sumn n f = sumn n g.
Proof. induction n as [|n IH]; intro H; cbn; auto. rewrite IH, H; auto. Qed.
Lemma sumn_add n f g : sumn n (fun i => f i + g i) = sumn n f + sumn n g.
Proof. induction n as [|n IH]; cbn; [lra|]. rewrite IH. lra. Qed.
Lemma sumn_sub n f g : sumn n (fun i => f i - g i) = sumn n f - sumn n g.
Proof. induction n as [|n IH]; cbn; [lra|]. rewrite IH. lra. Qed.
Lemma sumn_scal n c f : sumn n (fun i => c * f i) = c * sumn n f.
Proof. induction n as [|n IH]; cbn; [lra|]. rewrite IH. lra. Qed.
Lemma sumn_const n c : sumn n (fun _ => c) = INR n * c.
Proof. induction n as [|n IH]; [cbn; lra|]. cbn [sumn]. rewrite IH, S_INR. lra. Qed.
Lemma sumn_nonneg n f : (forall i, (i < n)%nat -> 0 <= f i) -> 0 <= sumn n f.
Proof. induction n as [|n IH]; intro H; cbn; [lra|]. assert (0 <= sumn n f) by auto. assert (0 <= f n) by auto. lra. Qed.
Lemma sumn_le n f g : (forall i, (i < n)%nat -> f i <= g i) -> sumn n f <= sumn n g.
Proof. induction n as [|n IH]; intro H; cbn; [lra|]. assert (sumn n f <= sumn n g) by auto. assert (f n <= g n) by auto. lra. Qed.
Lemma sumn_pos n f : (0 < n)%nat -> (forall i, (i < n)%nat -> 0 < f i) -> 0 < sumn n f.
Proof.
  destruct n as [|n]; intros Hn H; [lia|]. cbn. assert (0 <= sumn n f) by (apply sumn_nonneg; intros; left; auto). assert (0 < f n) by auto. lra.
Qed.
Lemma sumn_zero n f : (forall i, (i < n)%nat -> f i = 0) -> sumn n f = 0.
Proof. intro H. rewrite (sumn_ext n f (fun _ => 0)) by auto. rewrite sumn_const. lra. Qed.
Lemma sumn_zero_inv n f : (forall i, (i < n)%nat -> 0 <= f i) -> sumn n f = 0 -> forall i, (i < n)%nat -> f i = 0.
Proof.
  induction n as [|n IH]; intros H E i Hi; [lia|]. cbn in E.
  assert (0 <= sumn n f) by (apply sumn_nonneg; auto). assert (0 <= f n) by auto.
  destruct (Nat.eq_dec i n) as [->|]; [lra|]. apply IH; auto; [lra|lia].
Qed.
Lemma sumn_swap n m f : sumn n (fun i => sumn m (fun j => f i j)) = sumn m (fun j => sumn n (fun i => f i j)).
Proof.
  induction n as [|n IH]; cbn [sumn]; [symmetry; apply sumn_zero; auto|]. rewrite IH, sumn_add. auto.
Qed.

Lemma cauchy n f g : (sumn n (fun i => f i * g i)) ^ 2 <= sumn n (fun i => f i * f i) * sumn n (fun i => g i * g i).
Proof.
  induction n as [|n IH]; cbn [sumn]; [lra|].
  set (A := sumn n (fun i => f i * f i)) in *. set (Bb := sumn n (fun i => g i * g i)) in *. set (C := sumn n (fun i => f i * g i)) in *.
  assert (0 <= A) as HA by (apply sumn_nonneg; intros; nra). assert (0 <= Bb) as HB by (apply sumn_nonneg; intros; nra).
  set (a := f n). set (b := g n).
  assert (2 * (C * (a * b)) <= A * (b * b) + Bb * (a * a)) as K.
  { assert (0 <= A * (b * b)) by nra. assert (0 <= Bb * (a * a)) by nra.
    destruct (Rle_lt_dec (2 * (C * (a * b))) 0) as [N|P]; [lra|]. 
    apply Rsqr_incr_0_var; [|lra]. unfold Rsqr.
    assert (C ^ 2 * ((a * b) * (a * b)) <= A * Bb * ((a * b) * (a * b))) by (apply Rmult_le_compat_r; nra).
    pose proof (pow2_ge_0 (A * (b * b) - Bb * (a * a))) as SQ.
    replace (2 * (C * (a * b)) * (2 * (C * (a * b)))) with (4 * (C ^ 2 * (a * b * (a * b)))) by ring.
    replace ((A * (b * b) + Bb * (a * a)) * (A * (b * b) + Bb * (a * a))) with ((A * (b * b) - Bb * (a * a)) ^ 2 + 4 * (A * Bb * (a * b * (a * b)))) by ring.
    lra. }
  replace ((C + a * b) ^ 2) with (C ^ 2 + 2 * (C * (a * b)) + a * b * (a * b)) by ring.
  replace ((A + a * a) * (Bb + b * b)) with (A * Bb + (A * (b * b) + Bb * (a * a)) + a * b * (a * b)) by ring.
  lra.
Qed.

Lemma cauchy_sqrt n f g : sumn n (fun i => f i * g i) <= sqrt (sumn n (fun i => f i * f i)) * sqrt (sumn n (fun i => g i * g i)).
Proof.
  assert (0 <= sumn n (fun i => f i * f i)) as HA by (apply sumn_nonneg; intros; nra). assert (0 <= sumn n (fun i => g i * g i)) as HB by (apply sumn_nonneg; intros; nra).
  destruct (Rle_lt_dec (sumn n (fun i => f i * g i)) 0) as [N|P].
  - pose proof (sqrt_pos (sumn n (fun i => f i * f i))). pose proof (sqrt_pos (sumn n (fun i => g i * g i))). nra.
  - rewrite <- sqrt_mult by auto. apply Rsqr_incr_0_var; [|apply sqrt_pos]. rewrite Rsqr_sqrt by (apply Rmult_le_pos; auto).
    pose proof (cauchy n f g) as K. unfold Rsqr. lra.
Qed.

(** Minkowski's inequality for the Euclidean norm. *)
Lemma minkowski n f g :
  sqrt (sumn n (fun i => (f i + g i) * (f i + g i))) <= sqrt (sumn n (fun i => f i * f i)) + sqrt (sumn n (fun i => g i * g i)).
Proof.
  assert (0 <= sumn n (fun i => f i * f i)) as HA by (apply sumn_nonneg; intros; nra). assert (0 <= sumn n (fun i => g i * g i)) as HB by (apply sumn_nonneg; intros; nra).
  apply Rsqr_incr_0_var; [|pose proof (sqrt_pos (sumn n (fun i => f i * f i))); pose proof (sqrt_pos (sumn n (fun i => g i * g i))); lra].
  rewrite Rsqr_sqrt by (apply sumn_nonneg; intros; apply Rle_0_sqr).
  rewrite (sumn_ext n _ (fun i => f i * f i + 2 * (f i * g i) + g i * g i)) by (intros; lra).
  rewrite !sumn_add, sumn_scal. pose proof (cauchy_sqrt n f g) as K.
  pose proof (Rsqr_sqrt _ HA) as SA. pose proof (Rsqr_sqrt _ HB) as SB. unfold Rsqr in *.
  set (a := sqrt (sumn n (fun i => f i * f i))) in *. set (b := sqrt (sumn n (fun i => g i * g i))) in *. nra.
Qed.

(** Sums over lists. *)
Lemma fold_sum (A : Type) (h : A -> R) l : forall acc, fold_left (fun a x => a + h x) l acc = acc + fold_right (fun x a => h x + a) 0 l.
Proof. induction l as [|x l IH]; intro acc; cbn; [lra|]. rewrite IH. lra. Qed.

Definition nz (v : list R) (i : nat) : R := nth i v 0.

Lemma sumn_S n f : sumn (S n) f = f O + sumn n (fun i => f (S i)).
Proof. induction n as [|n IH]; [cbn; lra|]. cbn [sumn] in *. rewrite IH. lra. Qed.

Lemma sum_combine (h : R -> R -> R) : forall p q, length p = length q ->
  fold_right (fun x a => h (fst x) (snd x) + a) 0 (combine p q) = sumn (length p) (fun i => h (nz p i) (nz q i)).
Proof.
  induction p as [|x p IH]; intros [|y q] H; cbn [combine fold_right length]; try discriminate; auto.
  rewrite sumn_S, IH by (injection H; auto). reflexivity.
Qed.

Lemma nz_ext p q : length p = length q -> (forall i, (i < length p)%nat -> nz p i = nz q i) -> p = q.
Proof.
  revert q. induction p as [|x p IH]; intros [|y q] H E; try discriminate; auto. f_equal.
  - apply (E 0%nat). cbn. lia.
  - apply IH; [injection H; auto|]. intros i Hi. apply (E (S i)). cbn. lia.
Qed.

Lemma Forall_nz (P : R -> Prop) p i : Forall P p -> (i < length p)%nat -> P (nz p i).
Proof. intros H Hi. rewrite Forall_forall in H. apply H. apply nth_In. auto. Qed.

Lemma nz_map {A} (f : A -> R) (d : A) l : forall i, (i < length l)%nat -> nz (map f l) i = f (nth i l d).
Proof. unfold nz. induction l as [|x l IH]; intros [|i] H; cbn in *; try lia; auto. apply IH. lia. Qed.
