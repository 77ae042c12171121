(** Lemmas about point expressions. *)
From Coq Require Import ZArith Bool List Reals Lra Lia.
From Verif Require Import Base ListLib M_Point S_Point L_Vec.
Import ListNotations.

Lemma psize_ok n e : dims n e -> psize e = Ok (if hasv e then n else 0).
Proof.
  induction e as [v|s|o a IHa b IHb|o a IHa]; cbn [dims psize hasv]; try (intros <-; reflexivity); auto.
  - intros [Ha Hb]. rewrite IHa, IHb by auto. cbn [obind].
    destruct (hasv a), (hasv b); cbn [orb]; rewrite ?Nat.eqb_refl, ?orb_true_r; cbn [orb]; auto;
    destruct (Nat.eqb_spec n 0) as [->|]; cbn [orb]; auto; rewrite ?Nat.eqb_refl; auto.
Qed.

Lemma pidx_ok n e i : dims n e -> i < n -> pidx e i = Ok (den e i).
Proof.
  intros He Hi. induction e as [v|s|o a IHa b IHb|o a IHa]; cbn [dims pidx den] in *; auto.
  - subst. unfold vget. rewrite (nth_error_nth' v 0%R) by auto. auto.
  - destruct He. rewrite IHa, IHb by auto. cbn [obind]. unfold lift2. destruct (den a i), (den b i); auto.
  - rewrite IHa by auto. cbn [obind]. unfold lift1. destruct (den a i); auto.
Qed.

Lemma collect_ok {A} (f : nat -> outcome A) g is : (forall i, In i is -> f i = Ok (g i)) -> collect f is = Ok (map g is).
Proof. induction is as [|i r IH]; intro H; cbn; auto. rewrite H by (left; auto). cbn. rewrite IH by (intros; apply H; right; auto). auto. Qed.

Lemma peval_ok n e : dims n e -> hasv e = true -> peval e = Ok (map (den e) (seq 0 n)).
Proof.
  intros H V. unfold peval. rewrite (psize_ok n) by auto. rewrite V. cbn [obind]. apply collect_ok. intros i Hi. apply in_seq in Hi. apply (pidx_ok n); auto. lia.
Qed.

Lemma osumR_some h : forall n, osumR (map (fun i => Some (h i)) (seq 0 n)) = Some (sumn n h).
Proof.
  unfold osumR. induction n as [|n IH]; auto. rewrite seq_S, map_app, fold_left_app, IH. reflexivity.
Qed.

Lemma psum_ok n e h : dims n e -> hasv e = true -> (forall i, i < n -> den e i = Some (h i)) -> psum e = Ok (Some (sumn n h)).
Proof.
  intros H Hv Hd. unfold psum. rewrite (peval_ok n) by auto. cbn [obind].
  rewrite (map_ext_in _ (fun i => Some (h i))) by (intros i Hi; apply in_seq in Hi; apply Hd; lia). rewrite osumR_some. auto.
Qed.

Lemma pmax_spec tiny n e h : dims n e -> hasv e = true -> (forall i, i < n -> den e i = Some (h i)) ->
  exists m, pmax tiny e = Ok m /\ (m = tiny \/ exists i, i < n /\ m = h i) /\ (tiny <= m)%R /\ (forall i, i < n -> (h i <= m)%R).
Proof.
  intros H Hv Hd. unfold pmax. rewrite (peval_ok n) by auto. cbn [obind].
  rewrite (map_ext_in _ (fun i => Some (h i))) by (intros i Hi; apply in_seq in Hi; apply Hd; lia).
  eexists. split; [reflexivity|]. clear. induction n as [|n IH]; [cbn; split; auto; split; [lra|intros; lia]|].
  rewrite seq_S, map_app, fold_left_app. cbn [map fold_left Nat.add]. destruct IH as (A & B & C).
  set (m := fold_left _ _ tiny) in *. destruct (Rlt_dec m (h n)).
  - split; [right; exists n; auto|]. split; [lra|]. intros i Hi. destruct (Nat.eq_dec i n) as [->|]; [lra|]. specialize (C i ltac:(lia)). lra.
  - split; [destruct A as [A|(i & Hi & A)]; auto; right; exists i; auto|]. split; auto. intros i Hi. destruct (Nat.eq_dec i n) as [->|]; [lra|]. apply C. lia.
Qed.

Lemma pmin_spec huge n e h : dims n e -> hasv e = true -> (forall i, i < n -> den e i = Some (h i)) ->
  exists m, pmin huge e = Ok m /\ (m = huge \/ exists i, i < n /\ m = h i) /\ (m <= huge)%R /\ (forall i, i < n -> (m <= h i)%R).
Proof.
  intros H Hv Hd. unfold pmin. rewrite (peval_ok n) by auto. cbn [obind].
  rewrite (map_ext_in _ (fun i => Some (h i))) by (intros i Hi; apply in_seq in Hi; apply Hd; lia).
  eexists. split; [reflexivity|]. clear. induction n as [|n IH]; [cbn; split; auto; split; [lra|intros; lia]|].
  rewrite seq_S, map_app, fold_left_app. cbn [map fold_left Nat.add]. destruct IH as (A & B & C).
  set (m := fold_left _ _ huge) in *. destruct (Rlt_dec (h n) m).
  - split; [right; exists n; auto|]. split; [lra|]. intros i Hi. destruct (Nat.eq_dec i n) as [->|]; [lra|]. specialize (C i ltac:(lia)). lra.
  - split; [destruct A as [A|(i & Hi & A)]; auto; right; exists i; auto|]. split; auto. intros i Hi. destruct (Nat.eq_dec i n) as [->|]; [lra|]. apply C. lia.
Qed.

Lemma pdot_ok a b : length a = length b -> pdot a b = Ok (sumn (length a) (fun i => nz a i * nz b i)%R).
Proof.
  intro H. unfold pdot. rewrite H, Nat.eqb_refl. f_equal. rewrite (fold_sum _ (fun p => fst p * snd p)%R), Rplus_0_l.
  rewrite (sum_combine Rmult) by auto. rewrite H. auto.
Qed.

Lemma div_el x y : (y <> 0)%R -> arith Div x y = Some (x / y)%R.
Proof. intro H. cbn. destruct (Req_EM_T y 0); tauto. Qed.
Lemma log_el x : (0 < x)%R -> func Log x = Some (ln x).
Proof. intro H. cbn. destruct (Rlt_dec 0 x); tauto. Qed.
Lemma half_el x : (0 <= x)%R -> func PowHalf x = Some (sqrt x).
Proof. intro H. cbn. destruct (Rle_dec 0 x); tauto. Qed.
Lemma sqrto_ok x : (0 <= x)%R -> sqrto (Some x) = Some (sqrt x).
Proof. apply half_el. Qed.
Lemma rdivo_ok x y : (y <> 0)%R -> rdivo (Some x) (Some y) = Some (x / y)%R.
Proof. apply div_el. Qed.
