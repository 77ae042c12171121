(** Lemmas on dtoa. *)
From Coq Require Import ZArith QArith Qround Qpower Ascii Bool String List Lia Lqa.
From Verif Require Import Base M_Str S_Str L_Str2 M_Dtoa.
Import ListNotations.
Local Open Scope Q_scope.

Lemma ten_pos m : 0 < ten m.
Proof. unfold ten. apply Qpower_0_lt. reflexivity. Qed.
Lemma ten_next m : ten (m + 1) == 10 * ten m.
Proof. unfold ten. rewrite Qpower_plus by discriminate. change (10 ^ 1) with 10. ring. Qed.
Lemma ten_prev m : ten m == 10 * ten (m - 1).
Proof. rewrite <- ten_next. now replace (m - 1 + 1)%Z with m by lia. Qed.
Lemma ten_inv m : ten m * ten (- m) == 1.
Proof. unfold ten. rewrite <- Qpower_plus by discriminate. now rewrite Z.add_opp_diag_r. Qed.
Lemma ten_Z n : (0 <= n)%Z -> ten n == inject_Z (10 ^ n).
Proof. intros H. unfold ten. change 10 with (inject_Z 10). now rewrite Zpower_Qpower. Qed.

Lemma qle_true a b : Qle_bool a b = true <-> a <= b.
Proof. apply Qle_bool_iff. Qed.
Lemma qle_false a b : Qle_bool a b = false <-> b < a.
Proof.
  destruct (Qle_bool a b) eqn:E; split; intros H; try discriminate; auto.
  - apply Qle_bool_iff in E. exfalso. lra.
  - apply Qnot_le_lt. intros G. apply Qle_bool_iff in G. congruence.
Qed.

(** *** The magnitude *)
Lemma log_from_ok f : forall n, 1 <= n -> n < ten (Z.of_nat f) -> (0 <= log_from f n)%Z /\ ten (log_from f n) <= n /\ n < 10 * ten (log_from f n).
Proof.
  induction f as [|f IH]; intros n L H; cbn [log_from].
  - change (ten (Z.of_nat 0)) with 1 in H. change (ten 0) with 1. split; [lia|]. lra.
  - destruct (Qle_bool 10 n) eqn:E.
    + apply qle_true in E. assert (H1 : 1 <= n / 10) by (apply Qle_shift_div_l; lra). assert (H2 : n / 10 < ten (Z.of_nat f)).
      { apply Qlt_shift_div_r; [reflexivity|]. rewrite Nat2Z.inj_succ in H. unfold Z.succ in H. rewrite ten_next in H. lra. }
      destruct (IH _ H1 H2) as (A & B & C). split; [lia|]. replace (1 + log_from f (n / 10))%Z with (log_from f (n / 10) + 1)%Z by lia. rewrite ten_next.
      assert (G : n / 10 * 10 == n) by (field; discriminate). set (u := n / 10) in *. split; lra.
    + apply qle_false in E. change (ten 0) with 1. split; [lia|]. lra.
Qed.
Lemma two_ten k : (0 <= k)%Z -> (2 ^ k <= 10 ^ k)%Z.
Proof. intros. apply Z.pow_le_mono_l. lia. Qed.
Lemma log2_bound p : (0 < p)%Z -> inject_Z p < ten (Z.of_nat (Z.to_nat (Z.log2 p + 1))).
Proof.
  intros H. assert (L := Z.log2_nonneg p). rewrite Z2Nat.id by lia. rewrite ten_Z by lia. rewrite <- Zlt_Qlt.
  apply Z.lt_le_trans with (2 ^ (Z.log2 p + 1))%Z; [apply Z.log2_spec; auto | apply two_ten; lia].
Qed.
Lemma num_bound n : 0 < n -> n <= inject_Z (Qnum n).
Proof. destruct n as (p, d). unfold Qlt, Qle, inject_Z. cbn. intros H. nia. Qed.
Lemma inv_bound n : 0 < n -> / n <= inject_Z (Zpos (Qden n)).
Proof. destruct n as (p, d). unfold Qlt, Qle, inject_Z, Qinv. cbn. intros H. destruct p as [|p|p]; cbn; try lia; nia. Qed.
Lemma num_pos n : 0 < n -> (0 < Qnum n)%Z.
Proof. destruct n as (p, d). unfold Qlt. cbn. lia. Qed.
Lemma ilog10_big n : 1 <= n -> (0 <= ilog10 n)%Z /\ ten (ilog10 n) <= n /\ n < 10 * ten (ilog10 n).
Proof.
  intros H. unfold ilog10. rewrite (proj2 (qle_true 1 n) H). apply log_from_ok; auto.
  eapply Qle_lt_trans; [apply num_bound; lra|]. apply log2_bound. apply num_pos. lra.
Qed.
Lemma ilog10_small n : 0 < n -> n < 1 -> (ilog10 n <= 0)%Z /\ ten (ilog10 n - 1) < n /\ n <= ten (ilog10 n).
Proof.
  intros P H. unfold ilog10. assert (Qle_bool 1 n = false) as -> by (apply qle_false; auto).
  assert (I : n * / n == 1) by (field; lra). assert (IP : 0 < / n) by (apply Qinv_lt_0_compat; auto).
  assert (L : 1 <= / n) by (apply (Qmult_le_l _ _ n); auto; lra).
  destruct (log_from_ok (Z.to_nat (Z.log2 (Zpos (Qden n)) + 1)) (/ n) L) as (A & B & C).
  { eapply Qle_lt_trans; [apply inv_bound; auto|]. apply log2_bound. lia. }
  set (k := log_from _ (/ n)) in *. clearbody k. assert (T := ten_inv k). assert (T1 := ten_prev (- k)). assert (P1 := ten_pos k). assert (P2 := ten_pos (- k)). assert (P3 := ten_pos (- k - 1)). split; [lia|].
  set (a := ten k) in *. set (b := ten (- k)) in *. set (c := ten (- k - 1)) in *. set (r := / n) in *. clearbody a b c r. split.
  - apply Qnot_le_lt. intros N. assert (n * r <= c * r) by (apply Qmult_le_r; auto). assert (c * r < c * (10 * a)) by (apply Qmult_lt_l; auto). nra.
  - apply Qnot_lt_le. intros N. assert (b * r < n * r) by (apply Qmult_lt_r; auto). assert (b * a <= b * r) by (apply Qmult_le_l; auto). lra.
Qed.

(** *** Digits *)
Lemma floor_bounds n w : 0 < w -> let d := Qfloor (n / w) in 0 <= n - inject_Z d * w /\ n - inject_Z d * w < w.
Proof.
  intros W d. assert (A := Qfloor_le (n / w)). assert (B := Qlt_floor (n / w)). fold d in A, B. rewrite inject_Z_plus in B. change (inject_Z 1) with 1 in B.
  assert (E : n / w * w == n) by (field; lra). set (u := n / w) in *. set (e := inject_Z d) in *. clearbody u e. nra.
Qed.
Lemma floor_digit n w : 0 < w -> 0 <= n -> n < 10 * w -> (0 <= Qfloor (n / w) <= 9)%Z.
Proof.
  intros W N L. assert (0 <= n / w) by (apply Qle_shift_div_l; lra). assert (n / w < 10) by (apply Qlt_shift_div_r; lra).
  assert (A := Qfloor_le (n / w)). assert (B := Qlt_floor (n / w)). split.
  - assert (X : inject_Z 0 < inject_Z (Qfloor (n / w) + 1)) by (change (inject_Z 0) with 0; lra). rewrite <- Zlt_Qlt in X. lia.
  - assert (X : inject_Z (Qfloor (n / w)) < inject_Z 10) by (change (inject_Z 10) with 10; lra). rewrite <- Zlt_Qlt in X. lia.
Qed.
Lemma ten_split a l : inject_Z (10 ^ Z.of_nat l) * ten (a - Z.of_nat l) == ten a.
Proof. rewrite <- ten_Z by lia. unfold ten. rewrite <- Qpower_plus by discriminate. now replace (Z.of_nat l + (a - Z.of_nat l))%Z with a by lia. Qed.

Lemma convert_frac j : forall k f n, (j + k = 9)%nat -> (j < f)%nat -> 0 <= n -> n < ten (- Z.of_nat k) ->
  exists fs, convert f n (- Z.of_nat k - 1) = Ok fs /\ Forall dig fs /\ (List.length fs <= j)%nat /\
  0 <= n - inject_Z (dec fs) * ten (- Z.of_nat k - Z.of_nat (List.length fs)) /\ n - inject_Z (dec fs) * ten (- Z.of_nat k - Z.of_nat (List.length fs)) <= precision.
Proof.
  induction j as [|j IH]; intros k f n Ek Lf N L.
  - assert (k = 9%nat) as -> by lia. change (ten (- Z.of_nat 9)) with precision in L.
    assert (E : Qle_bool n precision = true) by (apply qle_true; lra). exists []. split; [destruct f; cbn [convert]; rewrite E; reflexivity|].
    split; auto. split; auto. change (inject_Z (dec [])) with 0. lra.
  - destruct f as [|f]; [lia|]. cbn [convert]. assert (Z.leb 0 (- Z.of_nat k - 1) = false) as -> by (apply Z.leb_gt; lia). rewrite orb_false_r.
    destruct (Qle_bool n precision) eqn:E; cbn [negb].
    + apply qle_true in E. exists []. split; auto. split; auto. split; [cbn; lia|]. change (inject_Z (dec [])) with 0. lra.
    + cbv zeta. set (w := ten (- Z.of_nat k - 1)). assert (W : 0 < w) by apply ten_pos. assert (T : ten (- Z.of_nat k) == 10 * w) by apply ten_prev.
      assert (D := floor_digit n w W N). destruct (floor_bounds n w W) as (B1 & B2). set (d := Qfloor (n / w)) in *.
      assert (Dd : (0 <= d <= 9)%Z) by (apply D; lra). clear D.
      assert (Z.eqb (- Z.of_nat k - 1) 0 = false) as -> by (apply Z.eqb_neq; lia). cbn [andb app].
      destruct (IH (S k) f (n - inject_Z d * w)) as (fs & C & F & Lf' & R1 & R2); try lia; auto.
      { replace (- Z.of_nat (S k))%Z with (- Z.of_nat k - 1)%Z by lia. exact B2. }
      replace (- Z.of_nat (S k))%Z with (- Z.of_nat k - 1)%Z in * by lia. rewrite C. cbn [obind]. exists (digit d :: fs). split; auto.
      destruct (digit_dig d) as (G1 & G2 & _); [lia|]. split; [constructor; auto|]. split; [cbn; lia|].
      rewrite dec_cons, G2. cbn [List.length]. replace (- Z.of_nat k - Z.of_nat (S (List.length fs)))%Z with (- Z.of_nat k - 1 - Z.of_nat (List.length fs))%Z by lia.
      assert (S := ten_split (- Z.of_nat k - 1) (List.length fs)). fold w in S. rewrite inject_Z_plus, inject_Z_mult.
      set (t := ten (- Z.of_nat k - 1 - Z.of_nat (List.length fs))) in *. set (p := inject_Z (10 ^ Z.of_nat (List.length fs))) in *.
      assert (Q1 : (inject_Z d * p + inject_Z (dec fs)) * t == inject_Z d * w + inject_Z (dec fs) * t) by (rewrite <- S; ring). rewrite Q1. lra.
Qed.

(** The text of a number between 0 and 10^(j+1). *)
Lemma convert_int j : forall f n, (j + 11 <= f)%nat -> 0 <= n -> n < ten (Z.of_nat (S j)) ->
  exists ds tl fs, convert f n (Z.of_nat j) = Ok (ds ++ tl) /\ Forall dig ds /\ List.length ds = S j /\ Forall dig fs /\ (List.length fs <= 9)%nat /\
  (tl = "."%char :: fs \/ tl = [] /\ fs = []) /\ n < inject_Z (dec ds) + 1 /\
  let v := inject_Z (dec ds) + inject_Z (dec fs) * ten (- Z.of_nat (List.length fs)) in 0 <= n - v /\ n - v <= precision.
Proof.
  induction j as [|j IH]; intros f n Lf N L; (destruct f as [|f]; [lia|]); cbn [convert].
  - change (Z.of_nat 0) with 0%Z. rewrite orb_true_r. cbv zeta. set (w := ten 0). assert (W : 0 < w) by reflexivity. change (ten (Z.of_nat 1)) with 10 in L. assert (w == 1) as Ew by reflexivity.
    assert (D := floor_digit n w W N). destruct (floor_bounds n w W) as (B1 & B2). set (d := Qfloor (n / w)) in *. assert (Dd : (0 <= d <= 9)%Z) by (apply D; lra). clear D.
    destruct (digit_dig d) as (G1 & G2 & _); [lia|]. assert (V : dec [digit d] = d) by (rewrite dec_cons, G2; cbn; lia).
    set (n' := n - inject_Z d * w) in *. assert (En : n == inject_Z d + n') by (unfold n'; rewrite Ew; ring). clearbody n'. rewrite Z.eqb_refl. cbn [andb]. destruct (Qle_bool n' 0) eqn:E; cbn [negb].
    + apply qle_true in E. assert (P : Qle_bool n' precision = true) by (apply qle_true; unfold precision; lra).
      assert (convert f n' (0 - 1) = Ok []) as -> by (destruct f; cbn [convert]; rewrite P; reflexivity). cbn [obind app]. exists [digit d], [], []. split; auto. split; auto. split; auto. split; auto. split; [cbn; lia|]. split; auto. split; [rewrite V; lra|].
      cbv zeta. rewrite V. change (inject_Z (dec [])) with 0. unfold precision. lra.
    + apply qle_false in E. destruct (convert_frac 9 0 f n') as (fs & C & F & Lfs & R1 & R2); try lia; auto. change (- Z.of_nat 0 - 1)%Z with (0 - 1)%Z in C. rewrite C. cbn [obind app].
      exists [digit d], ("."%char :: fs), fs. change (- Z.of_nat 0 - Z.of_nat (List.length fs))%Z with (- Z.of_nat (List.length fs))%Z in *. repeat split; auto; rewrite V; lra.
  - assert (Z.leb 0 (Z.of_nat (S j)) = true) as -> by (apply Z.leb_le; lia). rewrite orb_true_r. cbv zeta. set (w := ten (Z.of_nat (S j))). assert (W : 0 < w) by apply ten_pos.
    assert (T : ten (Z.of_nat (S (S j))) == 10 * w) by (replace (Z.of_nat (S (S j))) with (Z.of_nat (S j) + 1)%Z by lia; apply ten_next).
    assert (D := floor_digit n w W N). destruct (floor_bounds n w W) as (B1 & B2). set (d := Qfloor (n / w)) in *. assert (Dd : (0 <= d <= 9)%Z) by (apply D; lra). clear D.
    destruct (digit_dig d) as (G1 & G2 & _); [lia|].
    assert (Z.eqb (Z.of_nat (S j)) 0 = false) as -> by (apply Z.eqb_neq; lia). cbn [andb app]. replace (Z.of_nat (S j) - 1)%Z with (Z.of_nat j) by lia.
    destruct (IH f (n - inject_Z d * w)) as (ds & tl & fs & C & F & Ld & F2 & Lfs & Tl & R0 & R); try lia; auto. rewrite C. cbn [obind].
    exists (digit d :: ds), tl, fs. split; auto. split; [constructor; auto|]. split; [cbn; lia|]. repeat (split; auto). all: cbv zeta in R; rewrite dec_cons, G2, Ld; rewrite inject_Z_plus, inject_Z_mult.
    all: assert (Ew : inject_Z (10 ^ Z.of_nat (S j)) == w) by (symmetry; apply ten_Z; lia); rewrite Ew; set (a := inject_Z d * w) in *; set (b := inject_Z (dec ds)) in *; set (c := inject_Z (dec fs) * _) in *; clearbody a b c; lra.
Qed.

Lemma itos_digits_more f g n r : itos_digits f n = Ok r -> (f <= g)%nat -> itos_digits g n = Ok r.
Proof.
  revert g n r. induction f as [|f IH]; intros [|g] n r H L; try lia; cbn [itos_digits] in *; destruct (Z.eqb n 0); try discriminate; auto.
  destruct (itos_digits f (n / 10)) as [r'| |] eqn:E; try discriminate. rewrite (IH g _ r' E) by lia. exact H.
Qed.
(** The exponent, of at most ten digits. *)
Lemma exponent_ok m : m <> 0%Z -> (Z.abs m < 10 ^ 10)%Z -> exists xs, exponent m = Ok ("e"%char :: (if Z.ltb 0 m then "+"%char else "-"%char) :: xs) /\ Forall dig xs /\ xs <> [] /\ dec xs = Z.abs m /\ (List.length xs <= 10)%nat.
Proof.
  intros N B. destruct (itos_digits_ok 10 (Z.abs m)) as (r & E & F & V & L & P); [change (Z.of_nat 10) with 10%Z; lia|]. exists (rev r). unfold exponent. rewrite (itos_digits_more 10 32 _ r E) by lia. cbn [obind]. split; auto.
  split; [apply Forall_rev; auto|]. split; [|split; [auto | now rewrite rev_length]]. destruct P as (c & t & -> & _); [lia | discriminate].
Qed.
