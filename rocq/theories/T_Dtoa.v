(** C126: numbers as text. *)
From Coq Require Import ZArith QArith Qround Qpower Qabs Ascii Bool String List Lia Lqa.
From Verif Require Import Base M_Str S_Str L_Str2 L_Str3 M_Dtoa S_Dtoa L_Dtoa.
Import ListNotations.
Local Open Scope Q_scope.

Lemma ten_lt a b : (a < b)%Z -> ten a < ten b.
Proof. intros H. apply Qpower_lt_compat_l; auto. reflexivity. Qed.
Lemma ten_le a b : (a <= b)%Z -> ten a <= ten b.
Proof. intros H. destruct (Z.eq_dec a b) as [->|N]; [apply Qle_refl|]. apply Qlt_le_weak, ten_lt. lia. Qed.
Lemma ten_lt_inv a b : ten a < ten b -> (a < b)%Z.
Proof. intros H. apply Z.nle_gt. intros L. apply ten_le in L. lra. Qed.
Lemma denotes_ten ds fs : denotes ds fs == inject_Z (dec ds) + inject_Z (dec fs) * ten (- Z.of_nat (List.length fs)).
Proof.
  unfold denotes. assert (E := ten_inv (Z.of_nat (List.length fs))). rewrite ten_Z in E by lia. set (t := ten _) in *. set (p := inject_Z (10 ^ _)) in *.
  assert (~ p == 0) by (unfold p; intros H; assert (0 < 10 ^ Z.of_nat (List.length fs))%Z by (apply Z.pow_pos_nonneg; lia); unfold Qeq in H; cbn in H; lia).
  assert (t == / p) as ->; [|reflexivity]. apply (Qmult_inj_l _ _ p); auto. rewrite E, Qmult_inv_r; auto. reflexivity.
Qed.

Lemma convert_S f n m : convert (S f) n m = if negb (Qle_bool n precision) || Z.leb 0 m then
  let d := Qfloor (n / ten m) in let n' := (n - inject_Z d * ten m)%Q in
  let* r := convert f n' (m - 1) in Ok (digit d :: (if Z.eqb m 0 && negb (Qle_bool n' 0) then ["."%char] else []) ++ r) else Ok [].
Proof. reflexivity. Qed.
Lemma convert_end f n m : n <= precision -> (m < 0)%Z -> convert f n m = Ok [].
Proof. intros H L. apply qle_true in H. apply Z.leb_gt in L. destruct f; cbn [convert]; rewrite H, L; reflexivity. Qed.

(** What dtoa does with a number that is not 0. *)
Lemma dtoa_num q : ~ q == 0 -> exists sg, signed q sg /\ (List.length sg <= 1)%nat /\ 0 < Qabs q /\ exists n, n == Qabs q /\ 0 < n /\
  let m := ilog10 n in
  let e := orb (orb (Z.leb 14 m) (andb (negb (Qle_bool 0 q)) (Z.leb 9 m))) (Z.leb m (-9)) in
  dtoa (Num q) = if e then let m1 := if Z.ltb m 0 then (m - 1)%Z else m in let* s := convert 32 (n / ten m1) 0 in let* x := exponent m1 in in_buffer (sg ++ s ++ x)
  else let* s := convert 32 n (if Z.ltb m 1 then 0%Z else m) in in_buffer (sg ++ s).
Proof.
  intros N. assert (Qeq_bool q 0 = false) as E by (destruct (Qeq_bool q 0) eqn:E; auto; apply Qeq_bool_eq in E; contradiction).
  unfold dtoa. rewrite E. cbv zeta. destruct (Qle_bool 0 q) eqn:S; cbn [negb andb].
  - apply qle_true in S. exists []. split; [right; auto|]. split; [cbn; lia|]. rewrite Qabs_pos by auto. assert (P : 0 < q) by lra. split; auto. exists q. split; [symmetry; apply Qabs_pos; auto|]. split; auto.
    rewrite orb_false_r. destruct (Z.leb 14 (ilog10 q) || Z.leb (ilog10 q) (-9)); [reflexivity|]. destruct (convert 32 q _); cbn [obind]; auto. now rewrite app_nil_r.
  - apply qle_false in S. exists ["-"%char]. split; [left; auto|]. split; [cbn; lia|]. rewrite Qabs_neg by lra. assert (P : 0 < - q) by lra. split; auto. exists (- q). split; [symmetry; apply Qabs_neg; lra|]. split; auto.
    destruct (Z.leb 14 (ilog10 (- q)) || Z.leb 9 (ilog10 (- q)) || Z.leb (ilog10 (- q)) (-9)); [reflexivity|]. destruct (convert 32 (- q) _); cbn [obind]; auto. now rewrite app_nil_r.
Qed.

Lemma ilog10_plain n : 0 < n -> 1 # 1000000000 < n -> (-8 <= ilog10 n)%Z.
Proof.
  intros P H. destruct (Qlt_le_dec n 1) as [L|L].
  - destruct (ilog10_small n P L) as (A & B & C). change (1 # 1000000000) with (ten (-9)) in H. assert (ten (-9) < ten (ilog10 n)) as D by lra. apply ten_lt_inv in D. lia.
  - destruct (ilog10_big n L). lia.
Qed.
Lemma ilog10_lt n k : 0 < n -> (0 <= k)%Z -> n < ten k -> (ilog10 n < k \/ k = 0 /\ ilog10 n <= 0)%Z.
Proof.
  intros P K H. destruct (Qlt_le_dec n 1) as [L|L].
  - destruct (ilog10_small n P L) as (A & _). lia.
  - destruct (ilog10_big n L) as (A & B & C). left. apply ten_lt_inv. lra.
Qed.
Lemma ilog10_ge n k : 0 < n -> (1 <= k)%Z -> ten k <= n -> (k <= ilog10 n)%Z.
Proof.
  intros P K H. assert (1 <= n). { assert (ten 0 < ten k) by (apply ten_lt; lia). change (ten 0) with 1 in *. lra. }
  destruct (ilog10_big n H0) as (A & B & C). rewrite <- ten_next in C. assert (ten k < ten (ilog10 n + 1)) as D by lra. apply ten_lt_inv in D. lia.
Qed.
Lemma ilog10_tiny n : 0 < n -> n <= 1 # 1000000000 -> (ilog10 n <= -9)%Z.
Proof.
  intros P H. assert (L : n < 1) by lra. destruct (ilog10_small n P L) as (A & B & C). change (1 # 1000000000) with (ten (-9)) in H. assert (ten (ilog10 n - 1) < ten (-9)) as D by lra. apply ten_lt_inv in D. lia.
Qed.

Lemma in_buffer_ok s : (List.length s < 32)%nat -> in_buffer s = Ok s.
Proof. intros H. unfold in_buffer. apply Nat.ltb_lt in H. now rewrite H. Qed.

(** C126: a number that is not too large or small is written as a decimal, cut to within 1e-9 towards zero, with a sign if it is negative and no needless zeros in front. *)
Lemma c126_plain : forall q : Q, moderate q -> exists sg ds tl fs, dtoa (Num q) = Ok (sg ++ ds ++ tl) /\ signed q sg /\ decimal ds tl fs /\
  0 <= Qabs q - denotes ds fs /\ Qabs q - denotes ds fs <= 1 # 1000000000 /\ (List.length fs <= 9)%nat /\ ((1 < List.length ds)%nat -> inject_Z (10 ^ Z.of_nat (List.length ds - 1)) <= Qabs q).
Proof.
  intros q (M1 & M2 & M3). assert (N : ~ q == 0) by (intros E; rewrite E in M1; discriminate). destruct (dtoa_num q N) as (sg & Sg & Lsg & P & n & En & Pn & ->). cbv zeta. rewrite <- En in M1, M2, M3.
  change (inject_Z (10 ^ 14)) with (ten 14) in M2. change (inject_Z (10 ^ 9)) with (ten 9) in M3.
  assert (A := ilog10_plain n Pn M1). destruct (ilog10_lt n 14 Pn) as [B|B]; [lia | exact M2 | | lia].
  assert (C : (negb (Qle_bool 0 q) && Z.leb 9 (ilog10 n))%bool = false).
  { destruct (Qle_bool 0 q) eqn:E; auto. apply qle_false in E. destruct (ilog10_lt n 9 Pn) as [D|D]; [lia | auto | | lia]. cbn. apply Z.leb_gt. lia. }
  assert (Z.leb 14 (ilog10 n) = false) as -> by (apply Z.leb_gt; lia). assert (Z.leb (ilog10 n) (-9) = false) as -> by (apply Z.leb_gt; lia). rewrite C. cbn [orb].
  set (m := if Z.ltb (ilog10 n) 1 then 0%Z else ilog10 n).
  assert (H : (0 <= m < 14)%Z /\ n < ten (m + 1) /\ ((0 < m)%Z -> ten m <= n)).
  { unfold m. destruct (Qlt_le_dec n 1) as [L|L].
    - destruct (ilog10_small n Pn L) as (X & _). assert (Z.ltb (ilog10 n) 1 = true) as -> by (apply Z.ltb_lt; lia). split; [lia|]. change (ten (0 + 1)) with 10. split; [lra | lia].
    - destruct (ilog10_big n L) as (X & Y & Z). destruct (Z.ltb_spec (ilog10 n) 1) as [G|G].
      + split; [lia|]. replace (ilog10 n) with 0%Z in * by lia. change (ten (0 + 1)) with 10. change (ten 0) with 1 in Z. split; [lra | lia].
      + split; [lia|]. rewrite ten_next. split; auto. }
  clearbody m. destruct H as (Rm & Hi & Lo). destruct (convert_int (Z.to_nat m) 32 n) as (ds & tl & fs & Cv & F & Ld & F2 & Lfs & Tl & V3 & V1 & V2); [lia | lra | rewrite Nat2Z.inj_succ, Z2Nat.id by lia; exact Hi |].
  rewrite Z2Nat.id in Cv by lia. rewrite Cv. cbn [obind]. rewrite in_buffer_ok.
  - exists sg, ds, tl, fs. split; auto. split; auto. rewrite denotes_ten, <- En. split; [split; [exact F|]; split; [intros ->; discriminate | auto]|]. split; [exact V1|]. split; [exact V2|]. split; [exact Lfs|].
    intros L. rewrite <- ten_Z by lia. replace (Z.of_nat (List.length ds - 1)) with m by lia. apply Lo. lia.
  - rewrite !app_length. destruct Tl as [->|(-> & _)]; cbn [List.length]; lia.
Qed.
Lemma c126_plain_ex : moderate (-22 # 7) /\ dtoa (Num (-22 # 7)) = Ok (list_ascii_of_string "-3.142857142").
Proof. split; [|vm_compute; reflexivity]. unfold moderate. vm_compute. intuition discriminate. Qed.

(** C126: beyond, as a decimal with one digit other than 0 before the dot, within 1e-9, and a power of ten; unless it is a power of ten itself and small. *)
Lemma c126_exp : forall q : Q, extreme q -> (forall k, Qabs q == ten k -> 1 <= Qabs q) -> exists sg c tl fs s xs, dtoa (Num q) = Ok (sg ++ c :: tl ++ "e"%char :: s :: xs) /\ signed q sg /\ decimal [c] tl fs /\ c <> "0"%char /\
  Forall dig xs /\ xs <> [] /\ (s = "+"%char \/ s = "-"%char) /\
  let e := ten (if Ascii.eqb s "+" then dec xs else - dec xs) in 0 <= Qabs q - denotes [c] fs * e /\ Qabs q - denotes [c] fs * e <= (1 # 1000000000) * e.
Proof.
  intros q (X1 & X2 & X3) Pw. assert (N : ~ q == 0). { intros E. rewrite E in X1. revert X1. vm_compute. auto. }
  destruct (dtoa_num q N) as (sg & Sg & Lsg & P & n & En & Pn & ->). cbv zeta.
  set (b := (negb (Qle_bool 0 q) && Z.leb 9 (ilog10 n))%bool).
  assert (U : (Z.leb 14 (ilog10 n) || b || Z.leb (ilog10 n) (-9))%bool = true).
  { destruct (Z.leb_spec 14 (ilog10 n)) as [A|A]; [reflexivity|]. destruct (Z.leb_spec (ilog10 n) (-9)) as [B|B]; [now rewrite orb_true_r|]. rewrite orb_false_r. cbn [orb].
    destruct b eqn:Eb; auto. exfalso. apply X3. unfold moderate. rewrite <- En. split; [|split].
    - apply Qnot_le_lt. intros L. apply ilog10_tiny in L; auto. lia.
    - apply Qnot_le_lt. intros L. change (inject_Z (10 ^ 14)) with (ten 14) in L. apply ilog10_ge in L; auto; lia.
    - intros Sq. apply Qnot_le_lt. intros L. change (inject_Z (10 ^ 9)) with (ten 9) in L. apply ilog10_ge in L; auto; [|lia]. unfold b in Eb.
      assert (Qle_bool 0 q = false) as Eq by (apply qle_false; auto). rewrite Eq in Eb. cbn [negb andb] in Eb. apply Z.leb_gt in Eb. lia. }
  rewrite U. set (m1 := if Z.ltb (ilog10 n) 0 then (ilog10 n - 1)%Z else ilog10 n).
  assert (H : (m1 <> 0)%Z /\ (-402 <= m1 < 400)%Z /\ ten m1 <= n /\ n < 10 * ten m1).
  { assert (Pw' : forall k, n == ten k -> 1 <= n) by (intros k G; rewrite En; apply (Pw k); rewrite <- En; exact G). rewrite <- En in X1, X2. unfold m1. destruct (Qlt_le_dec n 1) as [L|L].
    - destruct (ilog10_small n Pn L) as (A & B & C).
      assert (Hm : (ilog10 n <= -9)%Z).
      { unfold b in U. destruct (Z.leb_spec 14 (ilog10 n)); [lia|]. destruct (Z.leb_spec 9 (ilog10 n)); [lia|]. rewrite andb_false_r in U. cbn [orb] in U. now apply Z.leb_le in U. }
      assert (Z.ltb (ilog10 n) 0 = true) as -> by (apply Z.ltb_lt; lia). split; [lia|]. split; [assert (D : ten (-401) < ten (ilog10 n)) by (assert (ten (-401) < ten (-400)) by (apply ten_lt; lia); lra); apply ten_lt_inv in D; lia|].
      split; [lra|]. rewrite <- ten_prev. apply Qle_lteq in C. destruct C as [C|C]; auto. apply Pw' in C. lra.
    - destruct (ilog10_big n L) as (A & B & C). assert (Z.ltb (ilog10 n) 0 = false) as -> by (apply Z.ltb_ge; lia).
      assert (Hm : (9 <= ilog10 n)%Z).
      { unfold b in U. destruct (Z.leb_spec 9 (ilog10 n)) as [G|G]; auto. rewrite andb_false_r in U. destruct (Z.leb_spec 14 (ilog10 n)); [lia|]. cbn [orb] in U. apply Z.leb_le in U. lia. }
      split; [lia|]. split; [assert (D : ten (ilog10 n) < ten 400) by lra; apply ten_lt_inv in D; lia|]. auto. }
  destruct H as (N1 & Rm & Lo & Hi). clearbody m1. assert (T := ten_pos m1). set (t := ten m1) in *.
  assert (V0 : n / t * t == n) by (field; lra). assert (A1 : 1 <= n / t) by (apply Qle_shift_div_l; lra). assert (A2 : n / t < 10) by (apply Qlt_shift_div_r; lra).
  destruct (convert_int 0 32 (n / t)) as (ds & tl & fs & Cv & F & Ld & F2 & Lfs & Tl & V3 & V1 & V2); [lia | lra | exact A2 |].
  change (Z.of_nat 0) with 0%Z in Cv. rewrite Cv. cbn [obind]. destruct (exponent_ok m1 N1) as (xs & Ex & Fx & Nx & Dx & Lx); [lia|]. rewrite Ex. cbn [obind].
  destruct ds as [|c [|? ?]]; try discriminate. cbn [app]. rewrite in_buffer_ok.
  - exists sg, c, tl, fs, (if Z.ltb 0 m1 then "+"%char else "-"%char), xs. split; auto. split; auto. split; [split; auto; split; auto; discriminate|].
    rewrite denotes_ten. 
    set (f := inject_Z (dec fs) * ten _) in *. split.
    { intros ->. change (inject_Z (dec ["0"%char])) with 0 in *. lra. }
    split; auto. split; auto. split; [destruct (Z.ltb 0 m1); auto|].
    assert (E : ten (if Ascii.eqb (if Z.ltb 0 m1 then "+"%char else "-"%char) "+" then dec xs else (- dec xs)%Z) == t).
    { rewrite Dx. unfold t. destruct (Z.ltb_spec 0 m1); cbn [Ascii.eqb Bool.eqb]; [replace (Z.abs m1) with m1 by lia | replace (- Z.abs m1)%Z with m1 by lia]; reflexivity. }
    cbv zeta. rewrite E, <- En. clear E. set (g := inject_Z (dec [c]) + f) in *. clearbody g. set (u := n / t) in *. clearbody u t. unfold precision in V2. split; nra.
  - rewrite app_length. cbn [List.length]. rewrite app_length. cbn [List.length]. destruct Tl as [->|(-> & _)]; cbn [List.length]; lia.
Qed.
Lemma c126_exp_ex : extreme (-10000000000 # 7) /\ dtoa (Num (-10000000000 # 7)) = Ok (list_ascii_of_string "-1.428571428e+9") /\ dtoa (Num (2 # 30000000000)) = Ok (list_ascii_of_string "6.666666666e-11").
Proof.
  split; [|split; vm_compute; reflexivity]. unfold extreme. split; [vm_compute; discriminate|]. split; [vm_compute; reflexivity|]. intros (_ & _ & H). assert (G : -10000000000 # 7 < 0) by reflexivity. apply H in G. revert G. vm_compute. discriminate.
Qed.

(** C126: small powers of ten are not written as numbers: 1e-9 becomes ":e-10". *)
Lemma c126_power_refuted : forall (q : Q) (k : Z), (9 <= k <= 400)%Z -> Qabs q == ten (- k) ->
  exists sg xs, dtoa (Num q) = Ok (sg ++ ":"%char :: "e"%char :: "-"%char :: xs) /\ signed q sg /\ Forall dig xs /\ dec xs = (k + 1)%Z /\ is_number (sg ++ ":"%char :: "e"%char :: "-"%char :: xs) = false.
Proof.
  intros q k K E. assert (T := ten_pos (- k)). assert (N : ~ q == 0) by (intros Z; rewrite Z in E; change (Qabs 0) with 0 in E; lra).
  destruct (dtoa_num q N) as (sg & Sg & Lsg & P & n & En & Pn & ->). cbv zeta. rewrite E in En.
  assert (L : n < 1) by (rewrite En; change 1 with (ten 0); apply ten_lt; lia). destruct (ilog10_small n Pn L) as (A & B & C).
  assert (Em : ilog10 n = (- k)%Z).
  { assert (B' : ten (ilog10 n - 1) < ten (- k)) by lra. apply ten_lt_inv in B'. assert (~ (ilog10 n < - k)%Z) by (intros G; apply ten_lt in G; lra). lia. }
  rewrite Em. assert (Z.leb (- k) (-9) = true) as -> by (apply Z.leb_le; lia). rewrite orb_true_r. assert (Z.ltb (- k) 0 = true) as -> by (apply Z.ltb_lt; lia).
  assert (V : n / ten (- k - 1) == 10).
  { rewrite En, (ten_prev (- k)). assert (Q1 := ten_pos (- k - 1)). field. lra. }
  assert (Cv : convert 32 (n / ten (- k - 1)) 0 = Ok [":"%char]).
  { set (u := n / ten (- k - 1)) in *. clearbody u. rewrite (convert_S 31). change (Z.leb 0 0) with true. rewrite orb_true_r. cbv zeta. change (ten 0) with 1.
    assert (Fl : Qfloor (u / 1) = 10%Z). { rewrite (Qfloor_comp _ 10); [reflexivity|]. rewrite V. reflexivity. }
    rewrite Fl. assert (W : u - inject_Z 10 * 1 == 0) by (rewrite V; reflexivity). set (w := u - inject_Z 10 * 1) in *. clearbody w.
    assert (Qle_bool w 0 = true) as -> by (apply qle_true; lra). rewrite convert_end by (unfold precision; try lia; lra). reflexivity. }
  rewrite Cv. cbn [obind]. destruct (exponent_ok (- k - 1)) as (xs & Ex & Fx & Nx & Dx & Lx); [lia | lia |]. rewrite Ex. cbn [obind]. assert (Z.ltb 0 (- k - 1) = false) as -> by (apply Z.ltb_ge; lia).
  rewrite in_buffer_ok by (rewrite !app_length; cbn [List.length]; lia). exists sg, xs. split; auto. split; auto. split; auto. split; [lia|].
  destruct (is_number _) eqn:I; auto. apply is_number_ok in I. destruct I as (_ & I). rewrite Forall_forall in I. specialize (I ":"%char). assert (In ":"%char (list_ascii_of_string "0123456789.-+e")) as W by (apply I; apply in_or_app; right; now left). vm_compute in W. intuition discriminate.
Qed.
Lemma c126_power_refuted_ex : Qabs (1 # 1000000000) == ten (- 9) /\ dtoa (Num (1 # 1000000000)) = Ok (list_ascii_of_string ":e-10").
Proof. split; vm_compute; reflexivity. Qed.

(** C126: nan, inf and 0 are written so; the sign of minus infinity is lost. *)
Lemma c126_special : dtoa NaN = Ok (list_ascii_of_string "nan") /\ dtoa (Inf false) = Ok (list_ascii_of_string "inf") /\ forall q, q == 0 -> dtoa (Num q) = Ok (list_ascii_of_string "0").
Proof. split; [reflexivity|]. split; [reflexivity|]. intros q H. unfold dtoa. assert (Qeq_bool q 0 = true) as -> by (apply Qeq_eq_bool; auto). reflexivity. Qed.
Lemma c126_inf_refuted : dtoa (Inf true) = dtoa (Inf false).
Proof. reflexivity. Qed.

(** C126: atod reads such a text back to within 1e-9; with an exponent it does not read the number. *)
Lemma c126_read : forall q : Q, moderate q -> exists s, dtoa (Num q) = Ok s /\ Qabs (atod s - q) <= 1 # 1000000000.
Proof.
  intros q M. destruct (c126_plain q M) as (sg & ds & tl & fs & E & Sg & (F & Nd & F2 & Tl) & V1 & V2 & _). eexists. split; [exact E|].
  assert (A := atod_ok [] sg ds tl fs []). cbn [app] in A. rewrite app_nil_r in A. rewrite A; auto.
  - fold (denotes ds fs). destruct Sg as [(S & ->)|(S & ->)]; cbn [sign_of].
    + change (inject_Z (-1)) with (-(1)). rewrite Qabs_neg in V1, V2 by lra. apply Qabs_Qle_condition. lra.
    + change (inject_Z 1) with 1. rewrite Qabs_pos in V1, V2 by auto. apply Qabs_Qle_condition. lra.
  - destruct Sg as [(_ & ->)|(_ & ->)]; unfold is_sign; auto.
  - destruct Tl as [->|(-> & ->)]; auto.
Qed.
Lemma c126_read_refuted : forall q : Q, extreme q -> (forall k, Qabs q == ten k -> 1 <= Qabs q) -> exists s, dtoa (Num q) = Ok s /\ 1 <= Qabs (atod s) /\ Qabs (atod s) < 10.
Proof.
  intros q X Pw. destruct (c126_exp q X Pw) as (sg & c & tl & fs & s & xs & E & Sg & (F & Nd & F2 & Tl) & Nc & _). eexists. split; [exact E|].
  assert (A := atod_ok [] sg [c] tl fs ("e"%char :: s :: xs)). cbn [app] in A.
  assert (Dc : dig c) by (now inversion F).
  assert (B : 1 <= denotes [c] fs /\ denotes [c] fs < 10).
  { rewrite denotes_ten. assert (V : dec [c] = dig_value c) by (rewrite dec_cons; cbn; lia). rewrite V. assert (Rg := dig_range c Dc). assert (Nz := dig_zero c Dc Nc).
    assert (Bd := dec_bound fs F2). assert (T := ten_inv (Z.of_nat (List.length fs))). assert (Pz := ten_pos (- Z.of_nat (List.length fs))). rewrite ten_Z in T by lia. set (z := ten (- _)) in *. set (p := (10 ^ _)%Z) in *.
    assert (U1 : inject_Z (dec fs) < inject_Z p) by (rewrite <- Zlt_Qlt; lia). assert (U0 : inject_Z 0 <= inject_Z (dec fs)) by (rewrite <- Zle_Qle; lia). change (inject_Z 0) with 0 in U0.
    assert (C1 : inject_Z 1 <= inject_Z (dig_value c)) by (rewrite <- Zle_Qle; lia). assert (C2 : inject_Z (dig_value c) <= inject_Z 9) by (rewrite <- Zle_Qle; lia).
    change (inject_Z 1) with 1 in C1. change (inject_Z 9) with 9 in C2. set (u := inject_Z (dec fs)) in *. set (v := inject_Z p) in *. assert (u * z < v * z) by (apply Qmult_lt_r; auto). assert (0 <= u * z) by (apply Qmult_le_0_compat; lra). lra. }
  rewrite A; auto.
  - fold (denotes [c] fs). rewrite Qabs_Qmult. assert (Qabs (inject_Z (sign_of sg)) == 1) as -> by (destruct Sg as [(_ & ->)|(_ & ->)]; reflexivity). rewrite Qabs_pos by lra. lra.
  - destruct Sg as [(_ & ->)|(_ & ->)]; unfold is_sign; auto.
  - vm_compute. intuition discriminate.
  - destruct Tl as [->|(-> & ->)]; auto. right. split; auto. split; auto. cbn. discriminate.
Qed.
