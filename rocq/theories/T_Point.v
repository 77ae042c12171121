(** Points: arithmetic, assignment, extrema, metrics (C24-C28). *)
From Coq Require Import ZArith Bool List Reals Lra Lia Psatz.
From Verif Require Import Base ListLib M_Data M_Point S_Point L_Vec L_Point.
Import ListNotations.
Local Open Scope nat_scope.

(** C24: any arithmetic expression over points of one dimension evaluates to the point of that dimension
    holding at each coordinate the value of the expression. *)
Lemma c24_expressions : forall (n : nat) (e : px), dims n e -> hasv e = true ->
  peval e = Ok (map (den e) (seq 0 n)).
Proof. exact peval_ok. Qed.

Lemma c24_expressions_ex : let e := B Add (V [1; 2; 3]%R) (B Mul (Sc 2) (V [1; 1; 4]%R)) in dims 3 e /\ hasv e = true /\ den e 2 = Some (3 + 2 * 4)%R.
Proof. cbn. auto. Qed.

(** C24: the binary operators give the element-wise result. *)
Lemma c24_elementwise : forall (o : bop) (a b : vec), length a = length b ->
  peval (B o (V a) (V b)) = Ok (map (fun p => arith o (fst p) (snd p)) (combine a b)) /\
  paccum o a b = Ok (map (fun p => arith o (fst p) (snd p)) (combine a b)).
Proof.
  intros o a b H. unfold paccum. rewrite H, Nat.eqb_refl. split; auto. rewrite (peval_ok (length b)); cbn [dims hasv orb]; auto. f_equal. cbn [den].
  revert b H. induction a as [|x a IH]; intros [|y b] H; try discriminate; auto. cbn [length seq combine map]. f_equal.
  rewrite <- (IH b) by (injection H; auto). rewrite <- seq_shift, map_map. auto.
Qed.

(** C24: operands of different non-zero dimensions are rejected. *)
Lemma c24_mismatch : forall (o : bop) (a b : vec), length a <> length b -> a <> [] -> b <> [] ->
  peval (B o (V a) (V b)) = Abort /\ paccum o a b = Abort /\ pdot a b = Abort.
Proof.
  intros o a b H Ha Hb. unfold peval, paccum, pdot. cbn [psize obind]. destruct (Nat.eqb_spec (length a) (length b)); [tauto|].
  destruct a; [tauto|]. destruct b; [tauto|]. auto.
Qed.

(** C24: an empty operand is not rejected: the sum of a non-empty point and an empty one reads outside
    the empty vector. *)
Lemma c24_empty_refuted : forall (o : bop) (a : vec), a <> [] -> peval (B o (V a) (V [])) = UB.
Proof. intros o [|x a] H; [tauto|]. reflexivity. Qed.

(** C24: dot is symmetric, linear in each argument, non-negative on the diagonal, and the Euclidean norm
    is its root. *)
Lemma c24_dot : forall (a b c : vec) (k : R), length a = length b -> length b = length c ->
  exists ab ba ac kab_c aa n,
    pdot a b = Ok ab /\ pdot b a = Ok ba /\ pdot a c = Ok ac /\
    pdot a (map (fun p => (k * fst p + snd p)%R) (combine b c)) = Ok kab_c /\
    pdot a a = Ok aa /\ pnorm2 a = Ok n /\
    (ab = ba /\ kab_c = k * ab + ac /\ 0 <= n /\ n * n = aa /\ (aa = 0 -> forall x, In x a -> x = 0) /\
     ab * ab <= aa * (let nb := sumn (length b) (fun i => nz b i * nz b i) in nb))%R.
Proof.
  intros a b c k H1 H2.
  assert (length (map (fun p => (k * fst p + snd p)%R) (combine b c)) = length a) as HL by (rewrite map_length, combine_length; lia).
  assert (psum (U Pow2 (U Abs (V a))) = Ok (Some (sumn (length a) (fun i => nz a i * nz a i)%R))) as PN.
  { apply psum_ok; cbn; auto. intros i _. f_equal. fold (nz a i). rewrite <- Rabs_mult. apply Rabs_pos_eq. apply Rle_0_sqr. }
  assert (0 <= sumn (length a) (fun i => nz a i * nz a i))%R as NN by (apply sumn_nonneg; intros; apply Rle_0_sqr).
  do 6 eexists. split; [apply pdot_ok; lia|]. split; [apply pdot_ok; lia|]. split; [apply pdot_ok; lia|]. split; [apply pdot_ok; lia|]. split; [apply pdot_ok; lia|].
  split; [unfold pnorm2; rewrite PN; reflexivity|]. split; [rewrite H1; apply sumn_ext; intros; lra|]. split; [|split; [apply sqrt_pos|split; [apply sqrt_sqrt; auto|split]]].
  - rewrite <- sumn_scal, <- sumn_add. apply sumn_ext. intros i Hi.
    assert (nz (map (fun p => (k * fst p + snd p)%R) (combine b c)) i = k * nz b i + nz c i)%R as ->; [|lra].
    rewrite (nz_map _ (0, 0)%R) by (rewrite combine_length; lia). rewrite combine_nth by auto. auto.
  - intros E x Hx. destruct (In_nth _ _ 0%R Hx) as (i & Hi & <-). fold (nz a i).
    pose proof (sumn_zero_inv _ _ (fun i _ => Rle_0_sqr (nz a i)) E i Hi) as Z. apply Rsqr_0_uniq. auto.
  - cbv zeta. pose proof (cauchy (length a) (nz a) (nz b)) as K. cbn [pow] in K. rewrite <- H1. lra.
Qed.

Lemma c24_dot_ex : length [1; 2]%R = length [3; 4]%R /\ pdot [1; 2]%R [3; 4]%R = Ok (0 + 1 * 3 + 2 * 4)%R.
Proof. split; reflexivity. Qed.

(** C24: normalize divides by the Euclidean norm: a non-zero point becomes a unit vector. *)
Lemma c24_normalize : forall (a : vec), (exists x, In x a /\ x <> 0)%R ->
  exists u, pnormalize a = Ok (map Some u) /\ length u = length a /\ pnorm2 u = Ok 1%R.
Proof.
  intros a (x & Hx & Nx).
  assert (forall v, psum (U Pow2 (U Abs (V v))) = Ok (Some (sumn (length v) (fun i => nz v i * nz v i)%R))) as PN.
  { intro v. apply psum_ok; cbn; auto. intros i _. f_equal. fold (nz v i). rewrite <- Rabs_mult. apply Rabs_pos_eq. apply Rle_0_sqr. }
  set (s := sumn (length a) (fun i => nz a i * nz a i)%R).
  assert (0 <= s)%R as S0 by (apply sumn_nonneg; intros; apply Rle_0_sqr).
  assert (s <> 0)%R as SN.
  { intro E. destruct (In_nth _ _ 0%R Hx) as (i & Hi & Ei). pose proof (sumn_zero_inv _ _ (fun i _ => Rle_0_sqr (nz a i)) E i Hi) as Z.
    apply Rsqr_0_uniq in Z. unfold nz in Z. congruence. }
  assert (0 < sqrt s)%R as SP by (apply sqrt_lt_R0; lra).
  exists (map (fun x => x / sqrt s)%R a). unfold pnormalize, pnorm2. rewrite PN. fold s. cbn [obind]. split; [|split; [apply map_length|]].
  - f_equal. unfold paccum_s. rewrite map_map. apply map_ext. intro y. apply div_el. lra.
  - rewrite PN. cbn [obind]. f_equal. rewrite <- sqrt_1. f_equal. rewrite map_length.
    rewrite (sumn_ext _ _ (fun i => / s * (nz a i * nz a i))%R); [rewrite sumn_scal; fold s; field; auto|].
    intros i Hi. assert (nz (map (fun x => x / sqrt s)%R a) i = nz a i / sqrt s)%R as ->.
    { apply (nz_map (fun x => x / sqrt s)%R 0%R). auto. }
    rewrite <- (sqrt_sqrt s) at 3 by auto. field. lra.
Qed.

Lemma c24_normalize_ex : exists x, In x [0; 3]%R /\ (x <> 0)%R.
Proof. exists 3%R. split; [cbn; auto|lra]. Qed.

(** C24: linspace with two or more samples starts at the lower bound, ends at the upper one and has equal
    steps. *)
Lemma c24_linspace : forall (lo up : R) (n : nat), 2 <= n ->
  length (linspace lo up n) = n /\ nth 0 (linspace lo up n) 0%R = lo /\ nth (n - 1) (linspace lo up n) 0%R = up /\
  forall i, S i < n -> (nth (S i) (linspace lo up n) 0 - nth i (linspace lo up n) 0 = (up - lo) / INR (n - 1))%R.
Proof.
  intros lo up n Hn. unfold linspace. set (h := ((up - lo) / INR (n - 1))%R).
  assert (0 < INR (n - 1))%R as HP by (apply lt_0_INR; lia).
  assert (forall i, i < n -> nth i (map (fun i => lo + INR i * h)%R (seq 0 n)) 0%R = (lo + INR i * h)%R) as E.
  { intros i Hi. pose proof (nz_map (fun i => lo + INR i * h)%R O (seq 0 n) i) as X. unfold nz in X. rewrite X by (rewrite seq_length; auto). rewrite seq_nth by auto. auto. }
  rewrite map_length, seq_length. split; auto. rewrite !E by lia. split; [cbn; lra|]. split; [unfold h; field; lra|].
  intros i Hi. rewrite !E by lia. rewrite S_INR. lra.
Qed.

(** C25: assignment copies the coordinates when the target is not longer than the source. *)
Lemma c25_assign : forall a b : point R, length (p_x a) <= length (p_x b) -> p_x (point_assign a b) = p_x b.
Proof. intros a b H. cbn. unfold passign. rewrite skipn_all2 by auto. apply app_nil_r. Qed.

Lemma c25_assign_ex : let a := mkPoint [1]%R 1 1 0%R in let b := mkPoint [2; 3]%R 2 2 0%R in length (p_x a) <= length (p_x b).
Proof. cbn. auto. Qed.

(** C25: a longer target keeps its dimension and its old tail; label, alpha and id are never copied. *)
Lemma c25_assign_refuted : forall a b : point R,
  (length (p_x b) < length (p_x a) -> p_x (point_assign a b) = p_x b ++ skipn (length (p_x b)) (p_x a) /\ p_x (point_assign a b) <> p_x b) /\
  p_y (point_assign a b) = p_y a /\ p_id (point_assign a b) = p_id a.
Proof.
  intros a b. split; [|auto]. intro H. cbn. unfold passign. split; [reflexivity|].
  intro E. apply (f_equal (@length R)) in E. rewrite app_length, skipn_length in E. lia.
Qed.

(** C26: the maximum of a point holding an element of at least [tiny] (the smallest positive double). *)
Lemma c26_max : forall (tiny : R) (v : vec), (exists x, In x v /\ tiny <= x)%R ->
  exists m, pmax tiny (V v) = Ok m /\ In m v /\ forall x, In x v -> (x <= m)%R.
Proof.
  intros tiny v (x & Hx & Tx). destruct (pmax_spec tiny (length v) (V v) (nz v)) as (m & E & A & B & C); cbn; auto.
  exists m. split; auto.
  assert (forall y, In y v -> (y <= m)%R) as D. { intros y Hy. destruct (In_nth _ _ 0%R Hy) as (i & Hi & <-). apply (C i Hi). }
  split; auto. destruct A as [A|(i & Hi & A)].
  - specialize (D x Hx). replace m with x by lra. auto.
  - rewrite A. apply nth_In. auto.
Qed.

Lemma c26_max_ex : exists x, In x [-1; 2]%R /\ (1 / 1000 <= x)%R.
Proof. exists 2%R. split; [cbn; auto|lra]. Qed.

(** C26: on a point with no positive element max returns [tiny], which is not an element. *)
Lemma c26_max_refuted : forall (tiny : R) (v : vec), (0 < tiny)%R -> (forall x, In x v -> x <= 0)%R ->
  pmax tiny (V v) = Ok tiny /\ ~ In tiny v.
Proof.
  intros tiny v Ht Hv. destruct (pmax_spec tiny (length v) (V v) (nz v)) as (m & E & A & B & C); cbn; auto. rewrite E.
  split; [|intro H; specialize (Hv _ H); lra]. f_equal. destruct A as [A|(i & Hi & A)]; auto.
  assert (nz v i <= 0)%R by (apply Hv, nth_In; auto). lra.
Qed.

(** C26: the minimum, for elements not above the largest double. *)
Lemma c26_min : forall (huge : R) (v : vec), v <> [] -> (forall x, In x v -> x <= huge)%R ->
  exists m, pmin huge (V v) = Ok m /\ In m v /\ forall x, In x v -> (m <= x)%R.
Proof.
  intros huge v NE Hv. destruct (pmin_spec huge (length v) (V v) (nz v)) as (m & E & A & B & C); cbn; auto.
  exists m. split; auto.
  assert (forall y, In y v -> (m <= y)%R) as D. { intros y Hy. destruct (In_nth _ _ 0%R Hy) as (i & Hi & <-). apply (C i Hi). }
  split; auto. destruct A as [A|(i & Hi & A)].
  - destruct v as [|x v]; [tauto|]. specialize (D x (or_introl eq_refl)). specialize (Hv x (or_introl eq_refl)). replace m with x by lra. left. auto.
  - rewrite A. apply nth_In. auto.
Qed.

Lemma c26_min_ex : [3; 5]%R <> [] /\ (forall x, In x [3; 5]%R -> x <= 10)%R.
Proof. split; [discriminate|]. intros x [<-|[<-|[]]]; lra. Qed.
