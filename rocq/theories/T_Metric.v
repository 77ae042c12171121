(** Distances (C27, C28). *)
From Coq Require Import ZArith Bool List Reals Lra Lia Psatz.
From Verif Require Import Base ListLib M_Data M_Point S_Point L_Vec L_Point.
Import ListNotations.
Local Open Scope R_scope.

(** ** Values of the functors *)
Ltac ps h := match goal with |- context [psum ?e] => rewrite (psum_ok _ e h); [|cbn [dims]; auto|reflexivity|] end.

Lemma euclid_ok tiny p q : length p = length q ->
  distance tiny Euclidean p q = Ok (Some (sqrt (sumn (length p) (fun i => (nz p i - nz q i) * (nz p i - nz q i))))).
Proof.
  intro H. unfold distance. rewrite (psum_ok (length p) _ (fun i => (nz p i - nz q i) * (nz p i - nz q i))); cbn [dims]; auto.
  cbn [obind]. rewrite sqrto_ok; auto. apply sumn_nonneg. intros. apply Rle_0_sqr.
Qed.
Lemma manhattan_ok tiny p q : length p = length q ->
  distance tiny Manhattan p q = Ok (Some (sumn (length p) (fun i => Rabs (nz p i - nz q i)))).
Proof. intro H. unfold distance. rewrite (psum_ok (length p) _ (fun i => Rabs (nz p i - nz q i))); cbn [dims]; auto. Qed.

(** C27: the four metric axioms of the Euclidean distance. *)
Lemma c27_euclidean : forall (tiny : R) (p q r : vec), length p = length q -> length q = length r ->
  exists pq qp qr pr,
    distance tiny Euclidean p q = Ok (Some pq) /\ distance tiny Euclidean q p = Ok (Some qp) /\
    distance tiny Euclidean q r = Ok (Some qr) /\ distance tiny Euclidean p r = Ok (Some pr) /\
    0 <= pq /\ (pq = 0 <-> p = q) /\ pq = qp /\ pr <= pq + qr.
Proof.
  intros tiny p q r H1 H2. do 4 eexists. split; [apply euclid_ok; lia|]. split; [apply euclid_ok; lia|]. split; [apply euclid_ok; lia|]. split; [apply euclid_ok; lia|].
  split; [apply sqrt_pos|]. split; [|split].
  - split.
    + intro E. apply sqrt_eq_0 in E; [|apply sumn_nonneg; intros; apply Rle_0_sqr]. apply nz_ext; auto. intros i Hi.
      pose proof (sumn_zero_inv _ _ (fun i _ => Rle_0_sqr (nz p i - nz q i)) E i Hi) as Z. apply Rsqr_0_uniq in Z. lra.
    + intros ->. rewrite sumn_zero; [apply sqrt_0|]. intros. lra.
  - rewrite H1. f_equal. apply sumn_ext. intros. lra.
  - rewrite <- H1. eapply Rle_trans; [|apply (minkowski (length p) (fun i => nz p i - nz q i) (fun i => nz q i - nz r i))].
    apply sqrt_le_1_alt. right. apply sumn_ext. intros. lra.
Qed.

(** C27: the four metric axioms of the Manhattan distance. *)
Lemma c27_manhattan : forall (tiny : R) (p q r : vec), length p = length q -> length q = length r ->
  exists pq qp qr pr,
    distance tiny Manhattan p q = Ok (Some pq) /\ distance tiny Manhattan q p = Ok (Some qp) /\
    distance tiny Manhattan q r = Ok (Some qr) /\ distance tiny Manhattan p r = Ok (Some pr) /\
    0 <= pq /\ (pq = 0 <-> p = q) /\ pq = qp /\ pr <= pq + qr.
Proof.
  intros tiny p q r H1 H2. do 4 eexists. split; [apply manhattan_ok; lia|]. split; [apply manhattan_ok; lia|]. split; [apply manhattan_ok; lia|]. split; [apply manhattan_ok; lia|].
  split; [apply sumn_nonneg; intros; apply Rabs_pos|]. split; [|split].
  - split.
    + intro E. apply nz_ext; auto. intros i Hi.
      pose proof (sumn_zero_inv _ _ (fun i _ => Rabs_pos (nz p i - nz q i)) E i Hi) as Z. cbn beta in Z. destruct (Req_dec (nz p i - nz q i) 0) as [D|D]; [lra|]. apply Rabs_no_R0 in D. tauto.
    + intros ->. apply sumn_zero. intros. rewrite Rminus_diag_eq by auto. apply Rabs_R0.
  - rewrite H1. apply sumn_ext. intros. apply Rabs_minus_sym.
  - rewrite <- H1, <- sumn_add. apply sumn_le. intros i _. replace (nz p i - nz r i) with (nz p i - nz q i + (nz q i - nz r i)) by lra. apply Rabs_triang.
Qed.

Lemma c27_metric_ex : length [1; 2]%R = length [3; 4]%R /\ length [3; 4]%R = length [5; 6]%R.
Proof. auto. Qed.

(** C27: the Chebyshev distance is the largest coordinate difference whenever some difference reaches
    [tiny] (the smallest positive double). *)
Lemma c27_chebyshev : forall (tiny : R) (p q : vec), length p = length q ->
  (exists i, (i < length p)%nat /\ tiny <= Rabs (nz p i - nz q i)) ->
  exists m, distance tiny Chebyshev p q = Ok (Some m) /\ (exists i, (i < length p)%nat /\ m = Rabs (nz p i - nz q i)) /\
    forall i, (i < length p)%nat -> Rabs (nz p i - nz q i) <= m.
Proof.
  intros tiny p q H (j & Hj & Tj). unfold distance.
  destruct (pmax_spec tiny (length p) (U Abs (B Sub (V p) (V q))) (fun i => Rabs (nz p i - nz q i))) as (m & E & A & Bd & C); cbn [dims]; auto.
  rewrite E. cbn [obind]. exists m. split; auto. split; auto. destruct A as [A|A]; auto. exists j. split; auto. specialize (C j Hj). cbn beta in C. lra.
Qed.

(** C27: the Chebyshev distance from a point to itself is not zero. *)
Lemma c27_chebyshev_refuted : forall (tiny : R) (p : vec), 0 < tiny -> distance tiny Chebyshev p p = Ok (Some tiny).
Proof.
  intros tiny p Ht. unfold distance.
  destruct (pmax_spec tiny (length p) (U Abs (B Sub (V p) (V p))) (fun i => 0)) as (m & E & A & Bd & C); cbn [dims]; auto.
  { intros i Hi. cbn. rewrite Rminus_diag_eq by auto. rewrite Rabs_R0. auto. }
  rewrite E. cbn [obind]. do 2 f_equal. destruct A as [A|(i & _ & A)]; auto. lra.
Qed.

(** ** Dissimilarities that are sums over the coordinates *)
(** [f] is, on points with positive coordinates, the sum over the coordinates of [g]. *)
Definition sum_of (tiny : R) (f : functor) (g : R -> R -> R) : Prop :=
  forall p q, length p = length q -> p <> [] -> Forall (fun x => 0 < x) p -> Forall (fun x => 0 < x) q ->
    distance tiny f p q = Ok (Some (sumn (length p) (fun i => g (nz p i) (nz q i)))).

Lemma prod_pos x y : 0 < x -> 0 < y -> 0 < x * y.
Proof. intros. apply Rmult_lt_0_compat; auto. Qed.
Ltac posit := repeat first [assumption | apply Rdiv_lt_0_compat | apply sqrt_lt_R0 | apply Rplus_lt_0_compat | apply prod_pos | apply Rabs_pos_lt; apply Rgt_not_eq | lra].
Ltac el := cbn [bop_el uop_el arith func]; repeat (match goal with
  | |- context [Req_EM_T ?a 0] => let E := fresh in destruct (Req_EM_T a 0) as [E|E]; [exfalso; revert E; apply Rgt_not_eq; posit|]
  | |- context [Rlt_dec 0 ?a] => let E := fresh in destruct (Rlt_dec 0 a) as [E|E]; [|exfalso; apply E; posit]
  | |- context [Rle_dec 0 ?a] => let E := fresh in destruct (Rle_dec 0 a) as [E|E]; [|exfalso; apply E; left; posit]
  end; cbn [bop_el uop_el arith func]).

Lemma sum_intro tiny f g (e : vec -> vec -> px) :
  (forall p q, distance tiny f p q = psum (e p q)) ->
  (forall n p q, length p = n -> length q = n -> dims n (e p q)) -> (forall p q, hasv (e p q) = true) ->
  (forall p q i, 0 < nz p i -> 0 < nz q i -> den (e p q) i = Some (g (nz p i) (nz q i))) -> sum_of tiny f g.
Proof.
  intros H1 H2 H3 H4 p q HL NE Hp Hq. rewrite H1. apply psum_ok; auto. intros i Hi. apply H4; apply (Forall_nz (fun x => 0 < x)); auto. lia.
Qed.

Ltac si e := apply (sum_intro _ _ _ e); [reflexivity|intros; cbn [dims]; auto|reflexivity|intros p q i; unfold nz; cbn [den]; generalize (nth i p 0); generalize (nth i q 0); intros y x Hx Hy; el; auto].

Section Elems.
Variable t : R.
Local Notation d p q := (B Sub (V p) (V q)).
Local Notation sq e := (U Pow2 e).
Lemma so_manhattan : sum_of t Manhattan (fun x y => Rabs (x - y)).
Proof. si (fun p q => U Abs (d p q)). Qed.
Lemma so_canberra : sum_of t Canberra (fun x y => Rabs (x - y) / (Rabs x + Rabs y)).
Proof. si (fun p q => B Div (U Abs (d p q)) (B Add (U Abs (V p)) (U Abs (V q)))). Qed.
Lemma so_squaredchord : sum_of t SquaredChord (fun x y => (sqrt x - sqrt y) * (sqrt x - sqrt y)).
Proof. si (fun p q => sq (B Sub (U PowHalf (V p)) (U PowHalf (V q)))). Qed.
Lemma so_squaredeuclidean : sum_of t SquaredEuclidean (fun x y => (x - y) * (x - y)).
Proof. si (fun p q => sq (d p q)). Qed.
Lemma so_clark : sum_of t Clark (fun x y => (x - y) / (Rabs x + Rabs y) * ((x - y) / (Rabs x + Rabs y))).
Proof. si (fun p q => sq (B Div (d p q) (B Add (U Abs (V p)) (U Abs (V q))))). Qed.
Lemma so_neyman : sum_of t Neyman (fun x y => (x - y) * (x - y) / x).
Proof. si (fun p q => B Div (sq (d p q)) (V p)). Qed.
Lemma so_pearson : sum_of t Pearson (fun x y => (x - y) * (x - y) / y).
Proof. si (fun p q => B Div (sq (d p q)) (V q)). Qed.
Lemma so_squared : sum_of t Squared (fun x y => (x - y) * (x - y) / (x + y)).
Proof. si (fun p q => B Div (sq (d p q)) (B Add (V p) (V q))). Qed.
Lemma so_chi : sum_of t SquaredChiSquared (fun x y => (x - y) * (x - y) / Rabs (x + y)).
Proof. si (fun p q => B Div (sq (d p q)) (U Abs (B Add (V p) (V q)))). Qed.
Lemma so_kl : sum_of t KullbackLeibler (fun x y => x * ln (x / y)).
Proof. si (fun p q => B Mul (V p) (U Log (B Div (V p) (V q)))). Qed.
Lemma so_jeffreys : sum_of t Jeffreys (fun x y => (x - y) * ln (x / y)).
Proof. si (fun p q => B Mul (d p q) (U Log (B Div (V p) (V q)))). Qed.
Lemma so_kdiv : sum_of t KDivergence (fun x y => x * ln (2 * x / (x + y))).
Proof. si (fun p q => B Mul (V p) (U Log (B Div (B Mul (Sc 2) (V p)) (B Add (V p) (V q))))). Qed.
Lemma so_taneja : sum_of t Taneja (fun x y => (x + y) / 2 * ln ((x + y) / (2 * sqrt (x * y)))).
Proof. si (fun p q => B Mul (B Div (B Add (V p) (V q)) (Sc 2)) (U Log (B Div (B Add (V p) (V q)) (B Mul (Sc 2) (U PowHalf (B Mul (V p) (V q))))))). Qed.
Lemma so_kumar : sum_of t KumarJohnson (fun x y => (x * x + y * y) * (x * x + y * y) / (2 * (x * y))).
Proof. si (fun p q => B Div (sq (B Add (sq (V p)) (sq (V q)))) (B Mul (Sc 2) (U Pow1 (B Mul (V p) (V q))))). Qed.
End Elems.

Definition positive (p : vec) : Prop := Forall (fun x => 0 < x) p.
(** What C28 asks of a functor on points with positive coordinates; also, only equal points have
    dissimilarity zero. *)
Definition dissimilarity (t : R) (f : functor) : Prop :=
  forall p q, length p = length q -> p <> [] -> positive p -> positive q ->
    exists r, distance t f p q = Ok (Some r) /\ distance t f q p = Ok (Some r) /\ 0 <= r /\ (r = 0 <-> p = q).

Definition hsum (t : R) (f : functor) (h : nat -> R -> R) (g : R -> R -> R) : Prop :=
  forall p q, length p = length q -> p <> [] -> positive p -> positive q ->
    distance t f p q = Ok (Some (h (length p) (sumn (length p) (fun i => g (nz p i) (nz q i))))).

Lemma dissim_intro t f h g : hsum t f h g ->
  (forall x y, 0 < x -> 0 < y -> g x y = g y x /\ 0 <= g x y /\ (g x y = 0 -> x = y)) -> (forall x, 0 < x -> g x x = 0) ->
  (forall n x, (0 < n)%nat -> 0 <= x -> 0 <= h n x /\ (h n x = 0 <-> x = 0)) -> dissimilarity t f.
Proof.
  intros H G Z HH p q HL NE Hp Hq. assert (0 < length p)%nat as LP by (destruct p; [tauto|cbn; lia]).
  assert (q <> []) as NEq by (intros ->; rewrite HL in LP; cbn in LP; lia).
  assert (forall i, (i < length p)%nat -> 0 < nz p i /\ 0 < nz q i) as PP.
  { intros i Hi. split; apply (Forall_nz (fun x => 0 < x)); auto. lia. }
  set (s := sumn (length p) (fun i => g (nz p i) (nz q i))).
  assert (0 <= s) as S0 by (apply sumn_nonneg; intros i Hi; destruct (PP i Hi); apply G; auto).
  exists (h (length p) s). split; [apply H; auto|]. split; [|split].
  - rewrite H by auto. rewrite <- HL. do 3 f_equal. apply sumn_ext. intros i Hi. destruct (PP i Hi) as [Q1 Q2]. exact (proj1 (G _ _ Q2 Q1)).
  - apply HH; auto.
  - rewrite (proj2 (HH (length p) s LP S0)). split.
    + intro E. apply nz_ext; auto. intros i Hi. destruct (PP i Hi). apply G; auto.
      apply (sumn_zero_inv (length p) (fun i => g (nz p i) (nz q i))); auto. intros k Hk. destruct (PP k Hk). apply G; auto.
    + intros ->. apply sumn_zero. intros i Hi. apply Z. destruct (PP i Hi). auto.
Qed.

Definition h1 (n : nat) (x : R) := x.
Lemma hsum1 t f g : sum_of t f g -> hsum t f h1 g.
Proof. intros H p q. apply H. Qed.
Lemma h1_ok : forall n x, (0 < n)%nat -> 0 <= x -> 0 <= h1 n x /\ (h1 n x = 0 <-> x = 0).
Proof. unfold h1. tauto. Qed.
Lemma hsqrt_ok : forall (n : nat) x, (0 < n)%nat -> 0 <= x -> 0 <= sqrt x /\ (sqrt x = 0 <-> x = 0).
Proof. intros n x _ H. split; [apply sqrt_pos|]. split; [apply sqrt_eq_0; auto|intros ->; apply sqrt_0]. Qed.
Lemma hscal_ok k : 0 < k -> forall (n : nat) x, (0 < n)%nat -> 0 <= x -> 0 <= k * x /\ (k * x = 0 <-> x = 0).
Proof. intros Hk n x _ H. split; [nra|]. split; [intro E; nra|intros ->; lra]. Qed.

Lemma sq_zero x y : (x - y) * (x - y) = 0 -> x = y.
Proof. intro H. apply Rsqr_0_uniq in H. lra. Qed.
Lemma frac_ok a b : 0 <= a -> 0 < b -> 0 <= a / b /\ (a / b = 0 -> a = 0).
Proof.
  intros Ha Hb. split; [apply Rmult_le_pos; auto; left; apply Rinv_0_lt_compat; auto|].
  intro E. apply (f_equal (fun z => z * b)) in E. unfold Rdiv in E. rewrite Rmult_assoc, Rinv_l, Rmult_1_r in E; lra.
Qed.
Lemma frac_sq x y b : 0 < b -> 0 <= (x - y) * (x - y) / b /\ ((x - y) * (x - y) / b = 0 -> x = y).
Proof. intro H. destruct (frac_ok ((x - y) * (x - y)) b (Rle_0_sqr _) H) as [A Bb]. split; auto. intro E. apply sq_zero. auto. Qed.
Lemma frac0 b : 0 / b = 0.
Proof. unfold Rdiv. lra. Qed.

Lemma abs_eq x y : Rabs (x - y) = 0 -> x = y.
Proof. intro H. destruct (Req_dec (x - y) 0) as [E|N]; [lra|]. apply Rabs_no_R0 in N. tauto. Qed.
Lemma abs_self x : Rabs (x - x) = 0.
Proof. rewrite Rminus_diag_eq by auto. apply Rabs_R0. Qed.

Lemma d_manhattan t : dissimilarity t Manhattan.
Proof.
  apply (dissim_intro t _ h1 _ (hsum1 _ _ _ (so_manhattan t))); [|intros; apply abs_self|apply h1_ok].
  intros x y Hx Hy. split; [apply Rabs_minus_sym|]. split; [apply Rabs_pos|apply abs_eq].
Qed.
Lemma d_avgmanhattan t : dissimilarity t AvgManhattan.
Proof.
  apply (dissim_intro t _ (fun n x => x / INR n) (fun x y => Rabs (x - y))); [| |intros; apply abs_self|].
  - intros p q HL NE Hp Hq. pose proof (so_manhattan t p q HL NE Hp Hq) as E. unfold distance in *. rewrite E. cbn [obind]. rewrite rdivo_ok; auto.
    apply not_0_INR. destruct p; [tauto|discriminate].
  - intros x y Hx Hy. split; [apply Rabs_minus_sym|]. split; [apply Rabs_pos|apply abs_eq].
  - intros n x Hn Hx. assert (0 < INR n) by (apply lt_0_INR; auto). destruct (frac_ok x (INR n) Hx H). split; auto. split; auto. intros ->. apply frac0.
Qed.
Lemma d_canberra t : dissimilarity t Canberra.
Proof.
  apply (dissim_intro t _ h1 _ (hsum1 _ _ _ (so_canberra t))); [|intros; rewrite abs_self; apply frac0|apply h1_ok].
  intros x y Hx Hy. assert (0 < Rabs x + Rabs y) as P by (rewrite !Rabs_pos_eq; lra).
  split; [rewrite Rabs_minus_sym, (Rplus_comm (Rabs x)); auto|]. destruct (frac_ok (Rabs (x - y)) _ (Rabs_pos _) P). split; auto. intro E. apply abs_eq. auto.
Qed.
Lemma sqc_ok x y : 0 < x -> 0 < y -> (sqrt x - sqrt y) * (sqrt x - sqrt y) = (sqrt y - sqrt x) * (sqrt y - sqrt x) /\
  0 <= (sqrt x - sqrt y) * (sqrt x - sqrt y) /\ ((sqrt x - sqrt y) * (sqrt x - sqrt y) = 0 -> x = y).
Proof. intros Hx Hy. split; [lra|]. split; [apply Rle_0_sqr|]. intro E. apply sq_zero in E. apply sqrt_inj; lra. Qed.
Lemma d_squaredchord t : dissimilarity t SquaredChord.
Proof. apply (dissim_intro t _ h1 _ (hsum1 _ _ _ (so_squaredchord t))); [apply sqc_ok|intros; lra|apply h1_ok]. Qed.
Lemma d_matusita t : dissimilarity t Matusita.
Proof.
  apply (dissim_intro t _ (fun _ x => sqrt x) (fun x y => (sqrt x - sqrt y) * (sqrt x - sqrt y))); [|apply sqc_ok|intros; lra|apply hsqrt_ok].
  intros p q HL NE Hp Hq. pose proof (so_squaredchord t p q HL NE Hp Hq) as E. unfold distance in *. rewrite E. cbn [obind]. rewrite sqrto_ok; auto.
  apply sumn_nonneg. intros. apply Rle_0_sqr.
Qed.
Lemma d_hellinger t : dissimilarity t Hellinger.
Proof.
  apply (dissim_intro t _ (fun _ x => sqrt (2 * x)) (fun x y => (sqrt x - sqrt y) * (sqrt x - sqrt y))); [|apply sqc_ok|intros; lra|].
  - intros p q HL NE Hp Hq. pose proof (so_squaredchord t p q HL NE Hp Hq) as E. unfold distance in *. rewrite E. cbn [obind olift lift2]. rewrite sqrto_ok; auto.
    apply Rmult_le_pos; [lra|]. apply sumn_nonneg. intros. apply Rle_0_sqr.
  - intros n x Hn Hx. destruct (hsqrt_ok n (2 * x) Hn ltac:(lra)) as [A Bb]. split; auto. rewrite Bb. split; intro; lra.
Qed.
Lemma d_squaredeuclidean t : dissimilarity t SquaredEuclidean.
Proof.
  apply (dissim_intro t _ h1 _ (hsum1 _ _ _ (so_squaredeuclidean t))); [|intros; lra|apply h1_ok].
  intros x y Hx Hy. split; [lra|]. split; [apply Rle_0_sqr|apply sq_zero].
Qed.
Lemma d_euclidean t : dissimilarity t Euclidean.
Proof.
  intros p q HL _ _ _. destruct (c27_euclidean t p q p HL (eq_sym HL)) as (pq & qp & _ & _ & A & Bb & _ & _ & C & D & E & _). exists pq. subst qp. auto.
Qed.
Lemma d_clark t : dissimilarity t Clark.
Proof.
  apply (dissim_intro t _ h1 _ (hsum1 _ _ _ (so_clark t))); [| |apply h1_ok].
  - intros x y Hx Hy. assert (0 < Rabs x + Rabs y) as P by (rewrite !Rabs_pos_eq; lra). split; [|split; [apply Rle_0_sqr|]].
    + rewrite (Rplus_comm (Rabs y)). field. lra.
    + intro E. apply Rsqr_0_uniq in E. apply (f_equal (fun z => z * (Rabs x + Rabs y))) in E. unfold Rdiv in E. rewrite Rmult_assoc, Rinv_l in E; lra.
  - intros x Hx. rewrite Rminus_diag_eq by auto. rewrite frac0. lra.
Qed.
Lemma g_squared x y : 0 < x -> 0 < y -> (x - y) * (x - y) / (x + y) = (y - x) * (y - x) / (y + x) /\ 0 <= (x - y) * (x - y) / (x + y) /\ ((x - y) * (x - y) / (x + y) = 0 -> x = y).
Proof. intros Hx Hy. split; [field; lra|]. apply frac_sq. lra. Qed.
Lemma d_squared t : dissimilarity t Squared.
Proof.
  apply (dissim_intro t _ h1 _ (hsum1 _ _ _ (so_squared t))); [apply g_squared| |apply h1_ok].
  intros x Hx. rewrite Rminus_diag_eq by auto. rewrite Rmult_0_l. apply frac0.
Qed.
Lemma d_probsym t : dissimilarity t ProbabilisticSymmetric.
Proof.
  apply (dissim_intro t _ (fun _ x => 2 * x) (fun x y => (x - y) * (x - y) / (x + y))); [|apply g_squared| |apply hscal_ok; lra].
  - intros p q HL NE Hp Hq. pose proof (so_squared t p q HL NE Hp Hq) as E. unfold distance in *. rewrite E. reflexivity.
  - intros x Hx. rewrite Rminus_diag_eq by auto. rewrite Rmult_0_l. apply frac0.
Qed.
Lemma d_chi t : dissimilarity t SquaredChiSquared.
Proof.
  apply (dissim_intro t _ h1 _ (hsum1 _ _ _ (so_chi t))); [| |apply h1_ok].
  - intros x y Hx Hy. rewrite !Rabs_pos_eq by lra. apply g_squared; auto.
  - intros x Hx. rewrite Rminus_diag_eq by auto. rewrite Rmult_0_l. apply frac0.
Qed.
Lemma d_divergence t : dissimilarity t Divergence.
Proof.
  apply (dissim_intro t _ (fun _ x => 2 * x) (fun x y => (x - y) * (x - y) / ((x + y) * (x + y)))); [| | |apply hscal_ok; lra].
  - intros p q HL NE Hp Hq. unfold distance. rewrite (psum_ok (length p) _ (fun i => (nz p i - nz q i) * (nz p i - nz q i) / ((nz p i + nz q i) * (nz p i + nz q i)))); cbn [dims]; auto.
    intros i Hi. assert (0 < nz p i) by (apply (Forall_nz (fun x => 0 < x)); auto). assert (0 < nz q i) by (apply (Forall_nz (fun x => 0 < x)); auto; lia).
    cbn [den]. fold (nz p i) (nz q i). el. auto.
  - intros x y Hx Hy. split; [field; lra|]. apply frac_sq. apply prod_pos; lra.
  - intros x Hx. rewrite Rminus_diag_eq by auto. rewrite Rmult_0_l. apply frac0.
Qed.
Lemma d_addsym t : dissimilarity t AdditiveSymmetric.
Proof.
  apply (dissim_intro t _ (fun _ x => 2 * x) (fun x y => (x - y) * (x - y) * (x + y) / (x * y))); [| | |apply hscal_ok; lra].
  - intros p q HL NE Hp Hq. unfold distance. rewrite (psum_ok (length p) _ (fun i => (nz p i - nz q i) * (nz p i - nz q i) * (nz p i + nz q i) / (nz p i * nz q i))); cbn [dims]; auto.
    intros i Hi. assert (0 < nz p i) by (apply (Forall_nz (fun x => 0 < x)); auto). assert (0 < nz q i) by (apply (Forall_nz (fun x => 0 < x)); auto; lia).
    cbn [den]. fold (nz p i) (nz q i). el. auto.
  - intros x y Hx Hy. split; [field; lra|]. 
    assert (0 <= (x - y) * (x - y) * (x + y)) as P by (apply Rmult_le_pos; [apply Rle_0_sqr|lra]).
    destruct (frac_ok _ (x * y) P) as [A Bb]; [apply prod_pos; auto|]. split; auto. intro E. specialize (Bb E). apply sq_zero. apply Rmult_integral in Bb. destruct Bb; lra.
  - intros x Hx. rewrite Rminus_diag_eq by auto. rewrite !Rmult_0_l. apply frac0.
Qed.

(** ** Logarithms *)
Lemma ln_le x : 0 < x -> ln x <= x - 1.
Proof. intro H. pose proof (exp_ineq1_le (ln x)) as K. rewrite exp_ln in K by auto. lra. Qed.
Lemma ln_lt x : 0 < x -> x <> 1 -> ln x < x - 1.
Proof. intros H N. assert (ln x <> 0) as NL by (intro E; apply N; apply ln_inv; [auto|lra|rewrite ln_1; auto]). pose proof (exp_ineq1 _ NL) as K. rewrite exp_ln in K by auto. lra. Qed.
Lemma ln_ge x : 0 < x -> 1 - / x <= ln x.
Proof. intro H. pose proof (ln_le (/ x) (Rinv_0_lt_compat _ H)) as K. rewrite ln_Rinv in K by auto. lra. Qed.
Lemma ln_gt x : 0 < x -> x <> 1 -> 1 - / x < ln x.
Proof.
  intros H N. pose proof (ln_lt (/ x) (Rinv_0_lt_compat _ H)) as K. rewrite ln_Rinv in K by auto. assert (/ x <> 1) as NI; [|specialize (K NI); lra].
  intro E. apply N. rewrite <- (Rinv_inv x), E. apply Rinv_1.
Qed.
Lemma ln_div_swap x y : 0 < x -> 0 < y -> ln (x / y) = - ln (y / x).
Proof. intros Hx Hy. rewrite <- ln_Rinv by (apply Rdiv_lt_0_compat; auto). f_equal. field. lra. Qed.

Lemma d_jeffreys t : dissimilarity t Jeffreys.
Proof.
  apply (dissim_intro t _ h1 _ (hsum1 _ _ _ (so_jeffreys t))); [| |apply h1_ok].
  - intros x y Hx Hy. split; [rewrite (ln_div_swap x y) by auto; lra|].
    destruct (Req_dec x y) as [->|N]; [split; [right; rewrite Rminus_diag_eq by auto; lra|auto]|].
    assert (0 < (x - y) * ln (x / y)) as P; [|split; [lra|intro E; lra]].
    assert (0 < x / y) as Q by (apply Rdiv_lt_0_compat; auto).
    destruct (Rtotal_order x y) as [L|[E|G]]; [|tauto|].
    + assert (x / y < 1) by (apply (Rmult_lt_reg_r y); auto; unfold Rdiv; rewrite Rmult_assoc, Rinv_l; lra).
      assert (ln (x / y) < 0) by (rewrite <- ln_1; apply ln_increasing; auto). nra.
    + assert (1 < x / y) by (apply (Rmult_lt_reg_r y); auto; unfold Rdiv; rewrite Rmult_assoc, Rinv_l; lra).
      assert (0 < ln (x / y)) by (rewrite <- ln_1; apply ln_increasing; lra). nra.
  - intros x Hx. rewrite Rminus_diag_eq by auto. lra.
Qed.

Definition tops x y := x * ln (2 * x / (x + y)) + y * ln (2 * y / (x + y)).
Lemma tops_ok x y : 0 < x -> 0 < y -> tops x y = tops y x /\ 0 <= tops x y /\ (tops x y = 0 -> x = y).
Proof.
  intros Hx Hy. unfold tops. split; [rewrite (Rplus_comm y x); lra|].
  assert (0 < 2 * x / (x + y)) as P1 by (apply Rdiv_lt_0_compat; lra). assert (0 < 2 * y / (x + y)) as P2 by (apply Rdiv_lt_0_compat; lra).
  pose proof (ln_ge _ P1) as L1. pose proof (ln_ge _ P2) as L2.
  replace (/ (2 * x / (x + y))) with ((x + y) / (2 * x)) in L1 by (field; lra). replace (/ (2 * y / (x + y))) with ((x + y) / (2 * y)) in L2 by (field; lra).
  assert (x * (1 - (x + y) / (2 * x)) = (x - y) / 2) as E1 by (field; lra). assert (y * (1 - (x + y) / (2 * y)) = (y - x) / 2) as E2 by (field; lra).
  assert (x * (1 - (x + y) / (2 * x)) <= x * ln (2 * x / (x + y))) as M1 by (apply Rmult_le_compat_l; lra).
  assert (y * (1 - (x + y) / (2 * y)) <= y * ln (2 * y / (x + y))) as M2 by (apply Rmult_le_compat_l; lra).
  split; [lra|]. intro Z. destruct (Req_dec x y) as [|N]; auto. exfalso.
  assert (2 * x / (x + y) <> 1) as N1.
  { intro E. apply (f_equal (fun z => z * (x + y))) in E. unfold Rdiv in E. rewrite Rmult_assoc, Rinv_l in E; lra. }
  pose proof (ln_gt _ P1 N1) as G. replace (/ (2 * x / (x + y))) with ((x + y) / (2 * x)) in G by (field; lra).
  assert (x * (1 - (x + y) / (2 * x)) < x * ln (2 * x / (x + y))) by (apply Rmult_lt_compat_l; lra). lra.
Qed.
Lemma d_topsoe t : dissimilarity t Topsoe.
Proof.
  apply (dissim_intro t _ h1 tops); [|apply tops_ok| |apply h1_ok].
  - intros p q HL NE Hp Hq.
    assert (forall i, (i < length p)%nat -> 0 < nz p i /\ 0 < nz q i) as PP by (intros i Hi; split; apply (Forall_nz (fun x => 0 < x)); auto; lia).
    unfold distance.
    rewrite (psum_ok (length p) (B Mul (V p) _) (fun i => nz p i * ln (2 * nz p i / (nz p i + nz q i)))); [|cbn [dims]; auto|reflexivity|].
    2:{ intros i Hi. destruct (PP i Hi). cbn [den]. fold (nz p i) (nz q i). el. auto. }
    rewrite (psum_ok (length p) (B Mul (V q) _) (fun i => nz q i * ln (2 * nz q i / (nz p i + nz q i)))); [|cbn [dims]; auto|reflexivity|].
    2:{ intros i Hi. destruct (PP i Hi). cbn [den]. fold (nz p i) (nz q i). el. auto. }
    cbn [obind olift lift2]. unfold h1, tops. rewrite sumn_add. auto.
  - intros x Hx. unfold tops. replace (2 * x / (x + x)) with 1 by (field; lra). rewrite ln_1. lra.
Qed.
Lemma d_taneja t : dissimilarity t Taneja.
Proof.
  apply (dissim_intro t _ h1 _ (hsum1 _ _ _ (so_taneja t))); [| |apply h1_ok].
  - intros x y Hx Hy. split; [rewrite (Rplus_comm y x), (Rmult_comm y x); auto|].
    assert (0 < sqrt (x * y)) as SP by (apply sqrt_lt_R0, prod_pos; auto).
    assert (sqrt x * sqrt y = sqrt (x * y)) as SM by (symmetry; apply sqrt_mult; lra).
    pose proof (sqrt_sqrt x ltac:(lra)) as SX. pose proof (sqrt_sqrt y ltac:(lra)) as SY.
    assert (x + y = (sqrt x - sqrt y) * (sqrt x - sqrt y) + 2 * sqrt (x * y)) as AG by (rewrite <- SM; nra).
    assert (0 < (x + y) / (2 * sqrt (x * y))) as P by (apply Rdiv_lt_0_compat; lra).
    assert ((x + y) / (2 * sqrt (x * y)) = 1 + (sqrt x - sqrt y) * (sqrt x - sqrt y) / (2 * sqrt (x * y))) as R1 by (rewrite AG at 1; field; lra).
    destruct (frac_ok ((sqrt x - sqrt y) * (sqrt x - sqrt y)) (2 * sqrt (x * y)) (Rle_0_sqr _) ltac:(lra)) as [F1 F2].
    assert (0 <= ln ((x + y) / (2 * sqrt (x * y)))) as L0.
    { destruct (Req_dec ((x + y) / (2 * sqrt (x * y))) 1) as [->|]; [rewrite ln_1; lra|]. left. rewrite <- ln_1. apply ln_increasing; lra. }
    split; [apply Rmult_le_pos; lra|]. intro Z. apply Rmult_integral in Z. destruct Z as [Z|Z]; [lra|].
    assert ((x + y) / (2 * sqrt (x * y)) = 1) as E by (apply ln_inv; [auto|lra|rewrite ln_1; auto]).
    assert ((sqrt x - sqrt y) * (sqrt x - sqrt y) = 0) as Q by (apply F2; lra). apply sq_zero in Q. apply sqrt_inj; lra.
  - intros x Hx. rewrite sqrt_square by lra. replace ((x + x) / (2 * x)) with 1 by (field; lra). rewrite ln_1. lra.
Qed.

(** ** Ratios of sums *)
Lemma pos_nz p q : length p = length q -> positive p -> positive q -> forall i, (i < length p)%nat -> 0 < nz p i /\ 0 < nz q i.
Proof. intros HL Hp Hq i Hi. split; apply (Forall_nz (fun x => 0 < x)); auto. lia. Qed.
Lemma sum_sqv p : p <> [] -> psum (U Pow2 (V p)) = Ok (Some (sumn (length p) (fun i => nz p i * nz p i))).
Proof. intro NE. apply psum_ok; cbn [dims]; auto. Qed.
Lemma sum_mul p q : length p = length q -> psum (B Mul (V p) (V q)) = Ok (Some (sumn (length p) (fun i => nz p i * nz q i))).
Proof. intro HL. apply psum_ok; cbn [dims]; auto. Qed.
Lemma sum_sqd p q : length p = length q -> psum (U Pow2 (B Sub (V p) (V q))) = Ok (Some (sumn (length p) (fun i => (nz p i - nz q i) * (nz p i - nz q i)))).
Proof. intro HL. apply psum_ok; cbn [dims]; auto. Qed.
Lemma sqd_expand n f g : sumn n (fun i => (f i - g i) * (f i - g i)) = sumn n (fun i => f i * f i) + sumn n (fun i => g i * g i) - 2 * sumn n (fun i => f i * g i).
Proof. rewrite <- sumn_scal, <- sumn_add, <- sumn_sub. apply sumn_ext. intros. ring. Qed.
Lemma sumn_comm_mul n f g : sumn n (fun i => f i * g i) = sumn n (fun i => g i * f i).
Proof. apply sumn_ext. intros. ring. Qed.
Lemma len_pos (p : vec) : p <> [] -> (0 < length p)%nat.
Proof. destruct p; [tauto|cbn; lia]. Qed.

Lemma d_sorensen t : dissimilarity t Sorensen.
Proof.
  intros p q HL NE Hp Hq. pose proof (pos_nz p q HL Hp Hq) as PP. pose proof (len_pos p NE) as LP.
  assert (q <> []) as NEq by (intros ->; cbn in HL; lia).
  set (N := sumn (length p) (fun i => Rabs (nz p i - nz q i))). set (D := sumn (length p) (fun i => nz p i + nz q i)).
  assert (0 < D) as DP by (apply sumn_pos; auto; intros i Hi; destruct (PP i Hi); lra).
  assert (0 <= N) as NP by (apply sumn_nonneg; intros; apply Rabs_pos).
  assert (forall a b, length a = length b -> psum (B Add (V a) (V b)) = Ok (Some (sumn (length a) (fun i => nz a i + nz b i)))) as SA.
  { intros a b E. apply psum_ok; cbn [dims]; auto. }
  exists (N / D). split; [|split; [|split]].
  - pose proof (so_manhattan t p q HL NE Hp Hq) as E. unfold distance in *. rewrite E. cbn [obind]. rewrite SA by auto. cbn [obind]. rewrite rdivo_ok; auto. fold D. lra.
  - pose proof (so_manhattan t q p (eq_sym HL) NEq Hq Hp) as E. unfold distance in *. rewrite E. cbn [obind]. rewrite SA by auto. cbn [obind]. rewrite <- HL.
    rewrite (sumn_ext _ (fun i => nz q i + nz p i) (fun i => nz p i + nz q i)) by (intros; lra). fold D.
    rewrite (sumn_ext _ (fun i => Rabs (nz q i - nz p i)) (fun i => Rabs (nz p i - nz q i))) by (intros; apply Rabs_minus_sym). fold N. rewrite rdivo_ok; auto. lra.
  - apply frac_ok; auto.
  - split.
    + intro E. apply frac_ok in E; auto. apply nz_ext; auto. intros i Hi. apply abs_eq.
      apply (sumn_zero_inv (length p) (fun i => Rabs (nz p i - nz q i))); auto. intros; apply Rabs_pos.
    + intros ->. replace N with 0; [apply frac0|]. symmetry. apply sumn_zero. intros. apply abs_self.
Qed.

Lemma sqd_zero p q : length p = length q -> sumn (length p) (fun i => (nz p i - nz q i) * (nz p i - nz q i)) = 0 <-> p = q.
Proof.
  intro HL. split.
  - intro E. apply nz_ext; auto. intros i Hi. apply sq_zero. apply (sumn_zero_inv (length p) (fun i => (nz p i - nz q i) * (nz p i - nz q i))); auto. intros; apply Rle_0_sqr.
  - intros ->. apply sumn_zero. intros. lra.
Qed.

(** The sums of squares and products of two positive points. *)
Lemma prods p q : length p = length q -> p <> [] -> positive p -> positive q ->
  let x := sumn (length p) (fun i => nz p i * nz p i) in let y := sumn (length p) (fun i => nz q i * nz q i) in
  let xy := sumn (length p) (fun i => nz p i * nz q i) in
  0 < x /\ 0 < y /\ 0 < xy /\ 0 <= x + y - 2 * xy /\ (x + y - 2 * xy = 0 <-> p = q) /\ xy <= sqrt x * sqrt y.
Proof.
  intros HL NE Hp Hq x y xy. pose proof (pos_nz p q HL Hp Hq) as PP. pose proof (len_pos p NE) as LP.
  split; [|split; [|split; [|split; [|split]]]]; unfold x, y, xy.
  1-3: apply sumn_pos; auto; intros i Hi; destruct (PP i Hi); apply prod_pos; auto.
  - rewrite <- sqd_expand. apply sumn_nonneg. intros. apply Rle_0_sqr.
  - rewrite <- sqd_expand. apply sqd_zero; auto.
  - apply cauchy_sqrt.
Qed.

Lemma d_jaccard t : dissimilarity t Jaccard.
Proof.
  intros p q HL NE Hp Hq. destruct (prods p q HL NE Hp Hq) as (X & Y & XY & S0 & SZ & _).
  assert (q <> []) as NEq by (intros ->; apply len_pos in NE; cbn in HL; lia).
  set (x := sumn (length p) (fun i => nz p i * nz p i)) in *. set (y := sumn (length p) (fun i => nz q i * nz q i)) in *.
  set (xy := sumn (length p) (fun i => nz p i * nz q i)) in *.
  exists ((x + y - 2 * xy) / (x + y - xy)). split; [|split; [|split]].
  - unfold distance. rewrite sum_sqd, !sum_sqv, sum_mul by auto. cbn [obind olift lift2]. rewrite <- HL. rewrite sqd_expand. fold x y xy. rewrite rdivo_ok; auto. lra.
  - unfold distance. rewrite sum_sqd, !sum_sqv, sum_mul by auto. cbn [obind olift lift2]. rewrite <- HL. rewrite sqd_expand, (sumn_comm_mul _ (nz q) (nz p)). fold x y xy.
    rewrite rdivo_ok by lra. do 3 f_equal; lra.
  - apply frac_ok; lra.
  - rewrite <- SZ. split; [apply frac_ok; lra|]. intros ->. apply frac0.
Qed.

Lemma d_dice t : dissimilarity t Dice.
Proof.
  intros p q HL NE Hp Hq. destruct (prods p q HL NE Hp Hq) as (X & Y & XY & S0 & SZ & _).
  assert (q <> []) as NEq by (intros ->; apply len_pos in NE; cbn in HL; lia).
  set (x := sumn (length p) (fun i => nz p i * nz p i)) in *. set (y := sumn (length p) (fun i => nz q i * nz q i)) in *.
  set (xy := sumn (length p) (fun i => nz p i * nz q i)) in *.
  exists (1 - 2 * xy / (x + y)). assert (1 - 2 * xy / (x + y) = (x + y - 2 * xy) / (x + y)) as RE by (field; lra). split; [|split; [|split]].
  - unfold distance. rewrite !sum_sqv, sum_mul by auto. cbn [obind olift lift2]. rewrite <- HL. fold x y xy. rewrite rdivo_ok by lra. reflexivity.
  - unfold distance. rewrite !sum_sqv, sum_mul by auto. cbn [obind olift lift2]. rewrite <- HL. rewrite (sumn_comm_mul _ (nz q) (nz p)). fold x y xy. rewrite rdivo_ok by lra. cbn [olift lift2]. do 4 f_equal. lra.
  - rewrite RE. apply frac_ok; lra.
  - rewrite <- SZ, RE. split; [apply frac_ok; lra|]. intros ->. apply frac0.
Qed.

Lemma d_cosine t p q : length p = length q -> p <> [] -> positive p -> positive q ->
  exists r, distance t Cosine p q = Ok (Some r) /\ distance t Cosine q p = Ok (Some r) /\ 0 <= r /\ (p = q -> r = 0).
Proof.
  intros HL NE Hp Hq. destruct (prods p q HL NE Hp Hq) as (X & Y & XY & S0 & SZ & CS).
  assert (q <> []) as NEq by (intros ->; apply len_pos in NE; cbn in HL; lia).
  set (x := sumn (length p) (fun i => nz p i * nz p i)) in *. set (y := sumn (length p) (fun i => nz q i * nz q i)) in *.
  set (xy := sumn (length p) (fun i => nz p i * nz q i)) in *.
  assert (0 < sqrt x * sqrt y) as SP by (apply prod_pos; apply sqrt_lt_R0; auto).
  exists (1 - xy / (sqrt x * sqrt y)). split; [|split; [|split]].
  - unfold distance. rewrite !sum_sqv, sum_mul by auto. cbn [obind]. rewrite <- HL. fold x y xy. rewrite !sqrto_ok by lra. cbn [olift lift2]. rewrite rdivo_ok by lra. reflexivity.
  - unfold distance. rewrite !sum_sqv, sum_mul by auto. cbn [obind]. rewrite <- HL. rewrite (sumn_comm_mul _ (nz q) (nz p)). fold x y xy. rewrite !sqrto_ok by lra. cbn [olift lift2].
    rewrite rdivo_ok by lra. cbn [olift lift2]. do 4 f_equal. lra.
  - replace (1 - xy / (sqrt x * sqrt y)) with ((sqrt x * sqrt y - xy) / (sqrt x * sqrt y)) by (field; split; apply Rgt_not_eq, sqrt_lt_R0; auto). apply frac_ok; lra.
  - intro E. assert (xy = x) as -> by (unfold xy, x; rewrite E; auto). assert (y = x) as -> by (unfold y, x; rewrite E; auto). rewrite sqrt_sqrt by lra. field. lra.
Qed.

Lemma d_maxsym t f : f = MaxSymmetric \/ f = MinSymmetric -> dissimilarity t f.
Proof.
  intros Hf p q HL NE Hp Hq. pose proof (pos_nz p q HL Hp Hq) as PP.
  assert (q <> []) as NEq by (intros ->; apply len_pos in NE; cbn in HL; lia).
  set (x := sumn (length p) (fun i => (nz p i - nz q i) * (nz p i - nz q i) / nz p i)). set (y := sumn (length p) (fun i => (nz p i - nz q i) * (nz p i - nz q i) / nz q i)).
  assert (0 <= x) as X0 by (apply sumn_nonneg; intros i Hi; destruct (PP i Hi); apply frac_sq; auto).
  assert (0 <= y) as Y0 by (apply sumn_nonneg; intros i Hi; destruct (PP i Hi); apply frac_sq; auto).
  pose proof (so_neyman t p q HL NE Hp Hq) as A1. pose proof (so_pearson t p q HL NE Hp Hq) as A2.
  pose proof (so_neyman t q p (eq_sym HL) NEq Hq Hp) as A3. pose proof (so_pearson t q p (eq_sym HL) NEq Hq Hp) as A4. rewrite <- HL in A3, A4.
  rewrite (sumn_ext _ _ (fun i => (nz p i - nz q i) * (nz p i - nz q i) / nz q i)) in A3 by (intros i Hi; destruct (PP i Hi); field; lra).
  rewrite (sumn_ext _ _ (fun i => (nz p i - nz q i) * (nz p i - nz q i) / nz p i)) in A4 by (intros i Hi; destruct (PP i Hi); field; lra).
  unfold distance in A1, A2, A3, A4. exists (Rmax x y). split; [|split; [|split]].
  - destruct Hf; subst f; unfold distance; rewrite A1; cbn [obind]; rewrite A2; reflexivity.
  - rewrite Rmax_comm. destruct Hf; subst f; unfold distance; rewrite A3; cbn [obind]; rewrite A4; reflexivity.
  - eapply Rle_trans; [apply X0|apply Rmax_l].
  - split.
    + intro E. assert (x = 0) as XZ by (pose proof (Rmax_l x y); lra). apply nz_ext; auto. intros i Hi. destruct (PP i Hi).
      apply (frac_sq _ _ (nz p i)); auto. apply (sumn_zero_inv (length p) (fun i => (nz p i - nz q i) * (nz p i - nz q i) / nz p i)); auto.
      intros k Hk. destruct (PP k Hk). apply frac_sq; auto.
    + intro E. assert (x = 0) as -> by (apply sumn_zero; intros; rewrite E; rewrite Rminus_diag_eq, Rmult_0_l by auto; apply frac0).
      assert (y = 0) as -> by (apply sumn_zero; intros; rewrite E; rewrite Rminus_diag_eq, Rmult_0_l by auto; apply frac0). apply Rmax_left; lra.
Qed.

Definition hass x y := 1 - (1 + Rmin x y) / (1 + Rmax x y).
Lemma hass_ok x y : 0 < x -> 0 < y -> hass x y = hass y x /\ 0 <= hass x y /\ (hass x y = 0 -> x = y).
Proof.
  intros Hx Hy. unfold hass. split; [rewrite Rmin_comm, Rmax_comm; auto|].
  assert (0 < Rmin x y) by (apply Rmin_glb_lt; auto). assert (Rmin x y <= Rmax x y) by (eapply Rle_trans; [apply Rmin_l|apply Rmax_l]).
  replace (1 - (1 + Rmin x y) / (1 + Rmax x y)) with ((Rmax x y - Rmin x y) / (1 + Rmax x y)) by (field; lra).
  destruct (frac_ok (Rmax x y - Rmin x y) (1 + Rmax x y) ltac:(lra) ltac:(lra)) as [A Bb]. split; auto. intro E. specialize (Bb E).
  revert Bb. unfold Rmax, Rmin. destruct (Rle_dec x y); lra.
Qed.
Lemma d_hassanat t : dissimilarity t Hassanat.
Proof.
  apply (dissim_intro t _ h1 hass); [|apply hass_ok| |apply h1_ok].
  - intros p q HL NE Hp Hq. pose proof (pos_nz p q HL Hp Hq) as PP. unfold distance.
    rewrite (collect_ok _ (fun i => Some (hass (nz p i) (nz q i)))).
    + cbn [obind]. f_equal. rewrite osumR_some. auto.
    + intros i Hi. apply in_seq in Hi. destruct (PP i ltac:(lia)) as [P1 P2].
      unfold vget. rewrite (nth_error_nth' p 0) by lia. cbn [obind]. rewrite (nth_error_nth' q 0) by lia.
      f_equal. fold (nz p i) (nz q i). unfold hassanat_el. assert (0 < Rmin (nz p i) (nz q i)) by (apply Rmin_glb_lt; auto).
      assert (Rmin (nz p i) (nz q i) <= Rmax (nz p i) (nz q i)) by (eapply Rle_trans; [apply Rmin_l|apply Rmax_l]).
      destruct (Rle_dec 0 (Rmin (nz p i) (nz q i))); [|lra]. cbn [bop_el arith]. destruct (Req_EM_T (1 + Rmax (nz p i) (nz q i)) 0); [lra|]. reflexivity.
  - intros x Hx. unfold hass. rewrite Rmin_left, Rmax_left by lra. field. lra.
Qed.

(** ** C28 *)
(** The functors whose value on points with positive coordinates is a dissimilarity. *)
Definition good_functors : list functor :=
  [Euclidean; Manhattan; Canberra; Sorensen; AvgManhattan; Jaccard; Dice; SquaredChord; Matusita; Hellinger; SquaredEuclidean; Clark; Squared;
   ProbabilisticSymmetric; Divergence; AdditiveSymmetric; SquaredChiSquared; Jeffreys; Topsoe; MaxSymmetric; MinSymmetric; Taneja; Hassanat].

(** C28: on points of the same non-zero dimension with positive coordinates these 23 functors
    are defined, symmetric, non-negative, and zero exactly on equal points. *)
Lemma c28_dissimilarities : forall (tiny : R) (f : functor) (p q : vec),
  In f good_functors -> length p = length q -> p <> [] -> Forall (fun x => 0 < x) p -> Forall (fun x => 0 < x) q ->
  exists r, distance tiny f p q = Ok (Some r) /\ distance tiny f q p = Ok (Some r) /\ 0 <= r /\ (r = 0 <-> p = q).
Proof.
  intros t f p q Hf. revert p q. cut (dissimilarity t f); [intros H p q; apply H|].
  repeat (destruct Hf as [<-|Hf]; [auto using d_euclidean, d_manhattan, d_canberra, d_sorensen, d_avgmanhattan, d_jaccard, d_dice, d_squaredchord, d_matusita,
    d_hellinger, d_squaredeuclidean, d_clark, d_squared, d_probsym, d_divergence, d_addsym, d_chi, d_jeffreys, d_topsoe, d_maxsym, d_taneja, d_hassanat|]). destruct Hf.
Qed.
Lemma c28_dissimilarities_ex : In Topsoe good_functors /\ length [1; 2] = length [3; 1/2] /\ [1; 2] <> [] /\
  Forall (fun x => 0 < x) [1; 2] /\ Forall (fun x => 0 < x) [3; 1/2] /\ [1; 2] <> [3; 1/2].
Proof.
  split; [cbn; tauto|]. split; [reflexivity|]. split; [discriminate|]. split; [repeat constructor; lra|]. split; [repeat constructor; lra|]. intro E. injection E. intros. lra.
Qed.

(** C28: the cosine dissimilarity is defined, symmetric, non-negative and zero on equal points. *)
Lemma c28_cosine : forall (tiny : R) (p q : vec),
  length p = length q -> p <> [] -> Forall (fun x => 0 < x) p -> Forall (fun x => 0 < x) q ->
  exists r, distance tiny Cosine p q = Ok (Some r) /\ distance tiny Cosine q p = Ok (Some r) /\ 0 <= r /\ (p = q -> r = 0).
Proof. intros. apply d_cosine; auto. Qed.
Lemma c28_cosine_ex : length [1; 2] = length [2; 4] /\ [1; 2] <> [] /\ Forall (fun x => 0 < x) [1; 2] /\ Forall (fun x => 0 < x) [2; 4].
Proof. split; [reflexivity|]. split; [discriminate|]. split; repeat constructor; lra. Qed.

Ltac one := unfold distance, psum; cbn [peval psize pidx nth_error vget collect seq length obind map lift1 lift2 uop_el bop_el arith func olift sqrto rdivo osumR fold_left].

Lemma one_sum t f g x y : sum_of t f g -> 0 < x -> 0 < y -> distance t f [x] [y] = Ok (Some (g x y)).
Proof. intros H Hx Hy. rewrite (H [x] [y]); [|reflexivity|discriminate|repeat constructor; auto|repeat constructor; auto]. cbn. do 2 f_equal. ring. Qed.

(** C28 refuted for Neyman, Pearson and KDivergence: they are not symmetric. *)
Lemma c28_asymmetric_refuted : forall tiny : R,
  (distance tiny Neyman [1] [2] = Ok (Some 1) /\ distance tiny Neyman [2] [1] = Ok (Some (1 / 2))) /\
  (distance tiny Pearson [1] [2] = Ok (Some (1 / 2)) /\ distance tiny Pearson [2] [1] = Ok (Some 1)) /\
  (exists a b, distance tiny KDivergence [1] [2] = Ok (Some a) /\ distance tiny KDivergence [2] [1] = Ok (Some b) /\ a < 0 < b).
Proof.
  intro t. rewrite !(one_sum t Neyman _ _ _ (so_neyman t)), !(one_sum t Pearson _ _ _ (so_pearson t)), !(one_sum t KDivergence _ _ _ (so_kdiv t)) by lra.
  split; [split; do 2 f_equal; lra|]. split; [split; do 2 f_equal; lra|]. do 2 eexists. split; [reflexivity|]. split; [reflexivity|]. split.
  - assert (ln (2 * 1 / (1 + 2)) < 0); [|lra]. rewrite <- ln_1. apply ln_increasing; lra.
  - assert (0 < ln (2 * 2 / (2 + 1))); [|lra]. rewrite <- ln_1. apply ln_increasing; lra.
Qed.

(** C28 refuted for Kullback-Leibler: negative, and not symmetric. *)
Lemma c28_kl_refuted : forall tiny : R,
  exists a b, distance tiny KullbackLeibler [1] [2] = Ok (Some a) /\ distance tiny KullbackLeibler [2] [1] = Ok (Some b) /\ a < 0 < b.
Proof.
  intro t. rewrite !(one_sum t KullbackLeibler _ _ _ (so_kl t)) by lra. do 2 eexists. split; [reflexivity|]. split; [reflexivity|]. split.
  - assert (ln (1 / 2) < 0); [|lra]. rewrite <- ln_1. apply ln_increasing; lra.
  - assert (0 < ln (2 / 1)); [|lra]. rewrite <- ln_1. apply ln_increasing; lra.
Qed.

(** C28 refuted for Kumar-Johnson: a point is at distance [2 a a] from itself. *)
Lemma c28_kumar_refuted : forall tiny a : R, 0 < a -> distance tiny KumarJohnson [a] [a] = Ok (Some (2 * (a * a))).
Proof. intros t a Ha. rewrite !(one_sum t KumarJohnson _ _ _ (so_kumar t)) by lra. do 2 f_equal. field. lra. Qed.

(** C28 refuted for Lorentzian: 1 - |p - q| is used where 1 + |p - q| is meant, so the value is
    negative for close points and undefined for points one or more apart. *)
Lemma c28_lorentzian_refuted : forall tiny : R,
  (exists r, distance tiny Lorentzian [1] [1 + 1 / 2] = Ok (Some r) /\ r < 0) /\ distance tiny Lorentzian [1] [2] = Ok None.
Proof.
  intro t. split.
  - exists (ln (1 / 2)). split.
    + unfold distance. rewrite (psum_ok 1 _ (fun _ => ln (1 / 2))); [cbn; do 2 f_equal; ring|cbn; auto|reflexivity|].
      intros i Hi. assert (i = O) as -> by lia. cbn [den nth lift2 lift1]. cbn [bop_el uop_el arith func lift1 lift2].
      replace (1 - Rabs (1 - (1 + 1 / 2))) with (1 / 2) by (rewrite Rabs_left; lra). destruct (Rlt_dec 0 (1 / 2)); [reflexivity|lra].
    + rewrite <- ln_1. apply ln_increasing; lra.
  - unfold distance, psum. rewrite (peval_ok 1) by (cbn; auto). cbn [obind seq map]. cbn [den nth lift2 lift1]. cbn [bop_el uop_el arith func lift1 lift2].
    destruct (Rlt_dec 0 (1 - Rabs (1 - 2))) as [L|L]; [|reflexivity]. rewrite Rabs_left in L by lra. lra.
Qed.

(** C28 refuted for Bhattacharyya: never positive, and not zero on equal points. *)
Lemma c28_bhattacharyya_refuted : forall (tiny a : R), 0 < a ->
  distance tiny Bhattacharyya [a] [a] = Ok (Some (- sqrt a)) /\ - sqrt a < 0.
Proof.
  intros t a Ha. split; [|pose proof (sqrt_lt_R0 a Ha); lra].
  unfold distance. rewrite (psum_ok 1 _ (fun _ => a)); [|cbn; auto|reflexivity|].
  - cbn [obind sumn]. rewrite Rplus_0_l, sqrto_ok by lra. reflexivity.
  - intros i Hi. assert (i = O) as -> by lia. cbn [den nth lift2 lift1]. cbn [bop_el uop_el arith func lift1 lift2]. destruct (Rle_dec 0 (a * a)); [|nra]. rewrite sqrt_square by lra. auto.
Qed.

(** C28 refuted for Chord: the two norms are not square-rooted, so a point is not at distance
    zero from itself, and the value is undefined near the origin. *)
Lemma c28_chord_refuted : forall tiny : R,
  distance tiny Chord [2] [2] = Ok (Some (sqrt (3 / 2))) /\ distance tiny Chord [1 / 2] [1 / 2] = Ok None.
Proof.
  intro t. assert (forall a, 0 < a -> distance t Chord [a] [a] = Ok (sqrto (Some (2 - 2 * (a * a / (a * a * (a * a))))))) as H.
  { intros a Ha. assert (0 < a * a) by (apply prod_pos; auto). assert (0 < a * a * (a * a)) by (apply prod_pos; auto). unfold distance. rewrite !sum_sqv, !sum_mul by (auto; discriminate). cbn [obind length sumn]. unfold nz. cbn [nth]. rewrite !Rplus_0_l. cbn [olift lift2].
    rewrite rdivo_ok by lra. reflexivity. }
  split; rewrite H by lra.
  - replace (2 - 2 * (2 * 2 / (2 * 2 * (2 * 2)))) with (3 / 2) by lra. rewrite sqrto_ok by lra. auto.
  - replace (2 - 2 * (1 / 2 * (1 / 2) / (1 / 2 * (1 / 2) * (1 / 2 * (1 / 2))))) with (-6) by lra. unfold sqrto. cbn. destruct (Rle_dec 0 (-6)); [lra|auto].
Qed.

(** C28 refuted for NonIntersection, JensenDifference and Average: integer divisions 1/2 and 1/n
    make the value constantly zero (for Average from dimension two on). *)
Lemma c28_constant_refuted : forall (tiny : R) (p q : vec), length p = length q -> p <> [] -> Forall (fun x => 0 < x) p -> Forall (fun x => 0 < x) q ->
  distance tiny NonIntersection p q = Ok (Some 0) /\ distance tiny JensenDifference p q = Ok (Some 0) /\
  ((2 <= length p)%nat -> distance tiny Average p q = Ok (Some 0)).
Proof.
  intros t p q HL NE Hp Hq. split; [|split].
  - pose proof (so_manhattan t p q HL NE Hp Hq) as E. unfold distance in *. rewrite E. cbn [obind lift1]. do 2 f_equal. lra.
  - pose proof (pos_nz p q HL Hp Hq) as PP. unfold distance. erewrite psum_ok; [cbn [obind lift1]; do 2 f_equal; rewrite Rmult_0_l; reflexivity|cbn [dims]; auto|reflexivity|].
    intros i Hi. destruct (PP i Hi) as [P1 P2]. revert P1 P2. unfold nz. instantiate (1 := fun i => (nth i p 0 * ln (nth i p 0) + nth i q 0 * ln (nth i q 0)) / 2 - (nth i p 0 + nth i q 0) / 2 * ln ((nth i p 0 + nth i q 0) / 2)).
    cbn beta. cbn [den]. generalize (nth i p 0) (nth i q 0). intros x y Hx Hy. el. auto.
  - intro L. unfold distance. rewrite sum_sqd by auto. destruct (length p) as [|[|n]]; [lia|lia|]. rewrite Nat.div_small by lia. cbn [obind lift1].
    cbn [INR]. rewrite Rmult_0_l, sqrto_ok, sqrt_0 by lra. auto.
Qed.
Lemma c28_constant_ex : length [1; 2] = length [2; 5] /\ [1; 2] <> [] /\ Forall (fun x => 0 < x) [1; 2] /\ Forall (fun x => 0 < x) [2; 5] /\ (2 <= length [1; 2])%nat.
Proof. split; [reflexivity|]. split; [discriminate|]. split; [repeat constructor; lra|]. split; [repeat constructor; lra|]. cbn. lia. Qed.

(** C28 refuted for JensenShannon: the first half of the sum is multiplied by the integer 1/2 = 0,
    so it is KDivergence with its arguments swapped. *)
Lemma c28_jensenshannon_refuted : forall (tiny : R) (p q : vec), length p = length q -> p <> [] -> Forall (fun x => 0 < x) p -> Forall (fun x => 0 < x) q ->
  distance tiny JensenShannon p q = distance tiny KDivergence q p.
Proof.
  intros t p q HL NE Hp Hq. assert (q <> []) as NEq by (intros ->; apply len_pos in NE; cbn in HL; lia). pose proof (pos_nz p q HL Hp Hq) as PP.
  rewrite (so_kdiv t q p) by auto. pose proof (so_kdiv t p q HL NE Hp Hq) as E. unfold distance in *. rewrite E. cbn [obind lift1].
  rewrite (psum_ok (length p) (B Mul (V q) _) (fun i => nz q i * ln (2 * nz q i / (nz q i + nz p i)))); [|cbn [dims]; auto|reflexivity|].
  - cbn [obind olift lift2]. rewrite Rmult_0_l, Rplus_0_l, HL. auto.
  - intros i Hi. destruct (PP i Hi). cbn [den]. fold (nz p i) (nz q i). el. rewrite (Rplus_comm (nz q i)). auto.
Qed.
Lemma c28_jensenshannon_ex : length [1] = length [2] /\ [1] <> [] /\ Forall (fun x => 0 < x) [1] /\ Forall (fun x => 0 < x) [2].
Proof. split; [reflexivity|]. split; [discriminate|]. split; repeat constructor; lra. Qed.

(** C28: MinSymmetric also takes the larger of the two sums, so it equals MaxSymmetric. *)
Lemma c28_minsymmetric_refuted : forall (tiny : R) (p q : vec), distance tiny MinSymmetric p q = distance tiny MaxSymmetric p q.
Proof. reflexivity. Qed.

(** C28 refuted for AverageL1Linf: the maximum starts from the smallest positive double. *)
Lemma c28_averagel1_refuted : forall (tiny : R) (p : vec), 0 < tiny -> distance tiny AverageL1Linf p p = Ok (Some (tiny / 2)).
Proof.
  intros t p Ht. pose proof (c27_chebyshev_refuted t p Ht) as C. unfold distance in *.
  destruct (pmax t (U Abs (B Sub (V p) (V p)))) as [m| |]; try discriminate. cbn [obind] in C. injection C as ->.
  rewrite (psum_ok (length p) _ (fun _ => 0)); [|cbn [dims]; auto|reflexivity|].
  - cbn [obind olift lift2]. rewrite sumn_zero by auto. do 2 f_equal. lra.
  - intros i Hi. cbn. rewrite Rminus_diag_eq by auto. rewrite Rabs_R0. auto.
Qed.
