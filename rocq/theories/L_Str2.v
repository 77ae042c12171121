(** Lemmas about the string functions. *)
From Coq Require Import ZArith QArith Ascii Bool String List Lia.
From Verif Require Import Base ListLib M_Str S_Str.
Import ListNotations.
Local Open Scope nat_scope.

Lemma isspace_white c : isspace c = true <-> white c.
Proof.
  split.
  - intro H. destruct c as [a b d e f g h i]; destruct a, b, d, e, f, g, h, i; vm_compute in H; try discriminate; vm_compute; tauto.
  - intro H. vm_compute in H. repeat (destruct H as [<-|H]; [reflexivity|]). destruct H.
Qed.
Lemma isdigit_dig c : isdigit c = true <-> dig c.
Proof.
  split.
  - intro H. destruct c as [a b d e f g h i]; destruct a, b, d, e, f, g, h, i; vm_compute in H; try discriminate; vm_compute; tauto.
  - intro H. vm_compute in H. repeat (destruct H as [<-|H]; [reflexivity|]). destruct H.
Qed.
Lemma isspace_false c : isspace c = false <-> ~ white c.
Proof. rewrite <- isspace_white. destruct (isspace c); split; congruence. Qed.
Lemma isdigit_false c : isdigit c = false <-> ~ dig c.
Proof. rewrite <- isdigit_dig. destruct (isdigit c); split; congruence. Qed.

Lemma ch_nat c : ch c = Z.of_nat (nat_of_ascii c).
Proof. unfold ch, nat_of_ascii. now rewrite N_nat_Z. Qed.
Lemma dig_value_ch c : dig_value c = (ch c - 48)%Z.
Proof. unfold dig_value. now rewrite ch_nat. Qed.
Lemma dig_range c : dig c -> (0 <= dig_value c <= 9)%Z.
Proof. intro H. vm_compute in H. repeat (destruct H as [<-|H]; [vm_compute; split; discriminate|]). destruct H. Qed.
Lemma dig_sch c : dig c -> (sch c - 48)%Z = dig_value c.
Proof. intro H. vm_compute in H. repeat (destruct H as [<-|H]; [reflexivity|]). destruct H. Qed.
Lemma dig_zero c : dig c -> c <> "0"%char -> (1 <= dig_value c)%Z.
Proof. intros H N. vm_compute in H. repeat (destruct H as [<-|H]; [try (vm_compute; discriminate); now elim N|]). destruct H. Qed.
Lemma digit_dig z : (0 <= z < 10)%Z -> dig (digit z) /\ dig_value (digit z) = z /\ (digit z = "0"%char -> z = 0%Z).
Proof.
  intro H. assert (z = 0 \/ z = 1 \/ z = 2 \/ z = 3 \/ z = 4 \/ z = 5 \/ z = 6 \/ z = 7 \/ z = 8 \/ z = 9)%Z as C by lia.
  repeat (destruct C as [->|C]; [vm_compute; (split; [tauto|split; [reflexivity|try discriminate; auto]])|]).
  subst z. vm_compute. split; [tauto|split; [reflexivity|discriminate]].
Qed.
Lemma dig_minus : ~ dig "-"%char. Proof. rewrite <- isdigit_dig. discriminate. Qed.
Lemma dig_dot : ~ dig "."%char. Proof. rewrite <- isdigit_dig. discriminate. Qed.

(** *** trim *)
Lemma from_first_spec f s : exists a, s = a ++ from_first f s /\ forallb (fun c => negb (f c)) a = true /\
  match from_first f s with [] => True | c :: _ => f c = true end.
Proof.
  induction s as [|c s IH]; cbn [from_first]; [now exists []|].
  destruct (f c) eqn:E; [exists []; now rewrite E|].
  destruct IH as (a & E1 & E2 & E3). exists (c :: a). cbn [app forallb]. rewrite E, <- E1, E2. auto.
Qed.
Lemma all_white a : forallb (fun c => negb (negb (isspace c))) a = true -> Forall white a.
Proof. intro H. apply Forall_forall. intros c Hc. rewrite forallb_forall in H. apply H in Hc. rewrite negb_involutive in Hc. now apply isspace_white. Qed.
Lemma first_not_white t : match t with [] => True | c :: _ => negb (isspace c) = true end -> not_white_first t.
Proof. destruct t; cbn; auto. intro H. apply isspace_false. now destruct (isspace a). Qed.
Lemma ltrim_spec s : ltrimmed s (ltrim s).
Proof.
  destruct (from_first_spec (fun c => negb (isspace c)) s) as (a & E1 & E2 & E3).
  exists a. split; [exact E1|split; [now apply all_white|now apply first_not_white]].
Qed.
Lemma rtrim_spec s : rtrimmed s (rtrim s).
Proof.
  destruct (from_first_spec (fun c => negb (isspace c)) (rev s)) as (a & E1 & E2 & E3).
  exists (rev a). unfold rtrim. split; [|split].
  - rewrite <- rev_app_distr, <- E1. now rewrite rev_involutive.
  - apply Forall_rev. now apply all_white.
  - rewrite rev_involutive. now apply first_not_white.
Qed.
Lemma trim_spec s : trimmed s (trim s).
Proof.
  destruct (ltrim_spec s) as (a & E1 & A & F1). destruct (rtrim_spec (ltrim s)) as (b & E2 & B & F2).
  exists a, b. unfold trim. split; [now rewrite <- E2|]. split; [auto|split; [auto|split; [|exact F2]]].
  destruct (rtrim (ltrim s)) as [|c t]; [exact I|]. rewrite E2 in F1. exact F1.
Qed.
Lemma lead_unique P a t b u : Forall P a -> Forall P b -> (match t with [] => True | c :: _ => ~ P c end) ->
  (match u with [] => True | c :: _ => ~ P c end) -> a ++ t = b ++ u -> t = u :> list ascii.
Proof.
  intros A. revert b. induction A as [|x a Px A IH]; intros b B Ft Fu E.
  - destruct B as [|y b Py B]; [exact E|]. cbn in E. subst t. now elim Ft.
  - destruct B as [|y b Py B].
    + cbn in E. subst u. now elim Fu.
    + inversion E; subst. now apply (IH b).
Qed.
Lemma ltrimmed_unique s t u : ltrimmed s t -> ltrimmed s u -> t = u.
Proof. intros (a & E1 & A & F1) (b & E2 & B & F2). apply (lead_unique white a t b u); auto. congruence. Qed.
Lemma rtrimmed_rev s t : rtrimmed s t -> ltrimmed (rev s) (rev t).
Proof. intros (b & E & B & F). exists (rev b). subst s. rewrite rev_app_distr. split; [auto|split; [now apply Forall_rev|auto]]. Qed.
Lemma rtrimmed_unique s t u : rtrimmed s t -> rtrimmed s u -> t = u.
Proof.
  intros H1 H2. apply rtrimmed_rev in H1, H2. rewrite <- (rev_involutive t), <- (rev_involutive u). f_equal.
  now apply (ltrimmed_unique (rev s)).
Qed.
Lemma trimmed_unique s t u : trimmed s t -> trimmed s u -> t = u.
Proof.
  intros (a & b & E1 & A & B & F & G) (a' & b' & E2 & A' & B' & F' & G').
  destruct t as [|x t], u as [|y u]; [reflexivity| | |].
  - exfalso. cbn in E1. assert (Forall white s) as W by (rewrite E1; apply Forall_app; auto).
    rewrite E2 in W. apply Forall_app in W as [_ W]. inversion W. now elim F'.
  - exfalso. cbn in E2. assert (Forall white s) as W by (rewrite E2; apply Forall_app; auto).
    rewrite E1 in W. apply Forall_app in W as [_ W]. inversion W. now elim F.
  - assert ((x :: t) ++ b = (y :: u) ++ b') as E by (apply (lead_unique white a _ a' _); [exact A|exact A'|exact F|exact F'|now rewrite <- E1, <- E2]).
    apply (rtrimmed_unique ((x :: t) ++ b)); [exists b; auto|]. rewrite E. exists b'. auto.
Qed.

(** *** decimal numerals *)
Lemma dec_from s : forall a, fold_left (fun a c => 10 * a + dig_value c)%Z s a = (a * 10 ^ Z.of_nat (List.length s) + dec s)%Z.
Proof.
  unfold dec. induction s as [|c s IH]; intro a; cbn [fold_left List.length].
  - change (10 ^ Z.of_nat 0)%Z with 1%Z. lia.
  - rewrite IH, (IH (10 * 0 + dig_value c)%Z). rewrite Nat2Z.inj_succ, Z.pow_succ_r by lia. ring.
Qed.
Lemma dec_cons c s : dec (c :: s) = (dig_value c * 10 ^ Z.of_nat (List.length s) + dec s)%Z.
Proof. unfold dec at 1. cbn [fold_left]. rewrite dec_from. ring. Qed.
Lemma dec_app s t : dec (s ++ t) = (dec s * 10 ^ Z.of_nat (List.length t) + dec t)%Z.
Proof. unfold dec at 1. rewrite fold_left_app, dec_from. reflexivity. Qed.
Lemma dec_bound s : Forall dig s -> (0 <= dec s < 10 ^ Z.of_nat (List.length s))%Z.
Proof.
  induction 1 as [|c s D F IH]; [cbn; lia|]. rewrite dec_cons. cbn [List.length]. rewrite Nat2Z.inj_succ, Z.pow_succ_r by lia.
  apply dig_range in D. nia.
Qed.
Lemma dec_low c s : dig c -> Forall dig s -> c <> "0"%char -> (10 ^ Z.of_nat (List.length s) <= dec (c :: s))%Z.
Proof. intros D F N. rewrite dec_cons. pose proof (dec_bound s F). pose proof (dig_zero c D N). nia. Qed.

Lemma sint_ok z : (int_min <= z <= int_max)%Z -> sint z = Ok z.
Proof. intro H. unfold sint, int_ok. destruct (Z.leb_spec int_min z), (Z.leb_spec z int_max); cbn [andb]; auto; lia. Qed.
Lemma int_bounds : (int_min = -2147483648 /\ int_max = 2147483647)%Z. Proof. split; reflexivity. Qed.

Lemma pow10_ok n : forall m, (0 <= m)%Z -> (m * 10 ^ Z.of_nat n <= int_max)%Z -> pow10 n m = Ok (m * 10 ^ Z.of_nat n)%Z.
Proof.
  induction n as [|n IH]; intros m M H; cbn [pow10]; [f_equal; cbn; lia|].
  rewrite Nat2Z.inj_succ, Z.pow_succ_r in * by lia.
  assert (1 <= 10 ^ Z.of_nat n)%Z by (pose proof (Z.pow_pos_nonneg 10 (Z.of_nat n)); lia).
  rewrite sint_ok by (pose proof int_bounds; nia). cbn [obind].
  rewrite IH; [f_equal; ring|lia|nia].
Qed.
Lemma stoin_digits_ok s : Forall dig s -> forall num, (0 <= num)%Z -> (num + dec s <= int_max)%Z ->
  stoin_digits s (10 ^ Z.of_nat (List.length s - 1)) num = Ok (num + dec s)%Z.
Proof.
  induction 1 as [|c s D F IH]; intros num N H; cbn [stoin_digits].
  - f_equal. cbn. lia.
  - rewrite dig_sch by auto. rewrite dec_cons in *. pose proof (dig_range c D). pose proof (dec_bound s F).
    cbn [List.length]. rewrite Nat.sub_0_r || replace (S (List.length s) - 1) with (List.length s) by lia.
    pose proof int_bounds.
    assert (1 <= 10 ^ Z.of_nat (List.length s))%Z by (pose proof (Z.pow_pos_nonneg 10 (Z.of_nat (List.length s))); lia).
    rewrite sint_ok by nia. cbn [obind]. rewrite sint_ok by nia. cbn [obind].
    destruct s as [|c' s'].
    + cbn [stoin_digits]. f_equal. cbn. lia.
    + assert (Z.quot (10 ^ Z.of_nat (List.length (c' :: s'))) 10 = 10 ^ Z.of_nat (List.length (c' :: s') - 1))%Z as ->.
      { cbn [List.length]. rewrite Nat2Z.inj_succ, Z.pow_succ_r by lia. rewrite Nat.sub_succ, Nat.sub_0_r.
        rewrite Z.mul_comm. apply Z.quot_mul. lia. }
      rewrite IH; [f_equal; ring|nia|lia].
Qed.
Lemma stoin_ok s n : numeral s n -> (- int_max <= n <= int_max)%Z -> stoin s = Ok n.
Proof.
  intros H B. destruct H as [|s F (c & r & -> & N)|s F (c & r & -> & N)].
  - reflexivity.
  - unfold stoin. destruct (Ascii.eqb_spec c "0"); [contradiction|]. inversion F as [|? ? D F']; subst.
    destruct (Ascii.eqb_spec c "-") as [->|]; [now elim dig_minus|].
    pose proof (dec_low c r D F' N). cbn [List.length]. rewrite Nat.sub_succ, Nat.sub_0_r.
    rewrite pow10_ok by lia. cbn [obind]. rewrite Z.mul_1_l.
    pose proof (stoin_digits_ok (c :: r) F 0). cbn [List.length] in H0. rewrite Nat.sub_succ, Nat.sub_0_r in H0.
    rewrite H0 by lia. reflexivity.
  - unfold stoin. cbn -[pow10 stoin_digits sint dec]. inversion F as [|? ? D F']; subst.
    pose proof (dec_low c r D F' N). rewrite Nat.sub_0_r.
    rewrite pow10_ok by lia. cbn [obind]. rewrite Z.mul_1_l.
    pose proof (stoin_digits_ok (c :: r) F 0). cbn [List.length] in H0. rewrite Nat.sub_succ, Nat.sub_0_r in H0.
    rewrite H0 by lia. cbn [obind]. rewrite sint_ok; [f_equal; lia|]. pose proof int_bounds. lia.
Qed.

Lemma itos_digits_ok fuel : forall n, (0 <= n < 10 ^ Z.of_nat fuel)%Z ->
  exists r, itos_digits fuel n = Ok r /\ Forall dig r /\ dec (rev r) = n /\ List.length r <= fuel /\
    ((0 < n)%Z -> exists c t, rev r = c :: t /\ c <> "0"%char).
Proof.
  induction fuel as [|f IH]; intros n H; cbn [itos_digits].
  - change (10 ^ Z.of_nat 0)%Z with 1%Z in H. destruct (Z.eqb_spec n 0) as [->|]; [|lia].
    exists []. split; [reflexivity|]. split; [constructor|]. split; [reflexivity|]. split; [cbn [List.length]; lia|]. intro Q. exfalso. revert Q. apply Z.lt_irrefl.
  - destruct (Z.eqb_spec n 0) as [->|N].
    + exists []. split; [reflexivity|]. split; [constructor|]. split; [reflexivity|]. split; [cbn [List.length]; lia|]. intro Q. exfalso. revert Q. apply Z.lt_irrefl.
    + rewrite Nat2Z.inj_succ, Z.pow_succ_r in H by lia.
      pose proof (Z.div_mod n 10 ltac:(lia)) as DM. pose proof (Z.mod_pos_bound n 10 ltac:(lia)) as MB.
      destruct (IH (n / 10)%Z) as (r & E & F & V & L & P); [split; [apply Z.div_pos; lia|apply Z.div_lt_upper_bound; lia]|].
      rewrite E. cbn [obind]. destruct (digit_dig (n mod 10)%Z MB) as (D1 & D2 & D3).
      exists (digit (n mod 10) :: r). split; [auto|]. split; [now constructor|]. split.
      { cbn [rev]. rewrite dec_app, V. cbn [List.length]. unfold dec. cbn [fold_left]. rewrite D2. change (10 ^ Z.of_nat 1)%Z with 10%Z. lia. }
      split; [cbn [List.length]; lia|]. intros _. cbn [rev].
      destruct (Z.eq_dec (n / 10) 0) as [Z0|Z0].
      * rewrite Z0 in E. destruct f; cbn in E; inversion E; subst; cbn [rev app].
        -- exists (digit (n mod 10)), []. split; [auto|]. intro Q. apply D3 in Q. lia.
        -- exists (digit (n mod 10)), []. split; [auto|]. intro Q. apply D3 in Q. lia.
      * destruct P as (c & t & -> & Nc); [assert (0 <= n / 10)%Z by (apply Z.div_pos; lia); lia|]. now exists c, (t ++ [digit (n mod 10)]).
Qed.
Lemma itos_ok n : (int_min < n <= int_max)%Z -> exists s, itos n = Ok s /\ numeral s n.
Proof.
  intro H. pose proof int_bounds as IB. unfold itos.
  destruct (Z.ltb_spec n 0) as [N|N].
  - rewrite sint_ok by lia. cbn [obind].
    destruct (itos_digits_ok 10 (- n)%Z) as (r0 & _); [change (10 ^ Z.of_nat 10)%Z with 10000000000%Z; lia|].
    destruct (itos_digits_ok 49 (- n)%Z) as (r & E & F & V & L & P).
    { split; [lia|]. apply Z.lt_trans with (10 ^ 10)%Z; [lia|]. apply Z.pow_lt_mono_r; lia. }
    rewrite E. cbn [obind].
    destruct (P ltac:(lia)) as (c & t & R & Nc).
    assert (List.length r <= 48) as L2.
    { assert (10 ^ Z.of_nat (List.length t) <= dec (c :: t))%Z as LB.
      { assert (Forall dig (c :: t)) as Fr by (rewrite <- R; now apply Forall_rev). inversion Fr; subst. now apply dec_low. }
      rewrite <- R, V in LB. assert (List.length (rev r) = S (List.length t)) as LR by now rewrite R. rewrite rev_length in LR.
      destruct (Nat.le_gt_cases (List.length r) 48) as [|G]; auto. exfalso.
      assert (10 ^ 10 <= 10 ^ Z.of_nat (List.length t))%Z by (apply Z.pow_le_mono_r; lia). lia. }
    rewrite app_length. cbn [List.length].
    destruct (Nat.ltb_spec 49 (List.length r + 1)); [lia|].
    destruct (Z.eqb_spec n 0); [lia|]. rewrite rev_app_distr. cbn [rev app].
    exists ("-"%char :: rev r). split; [auto|]. replace n with (- dec (rev r))%Z by lia.
    constructor; [now apply Forall_rev|]. exists c, t. auto.
  - cbn [obind].
    destruct (itos_digits_ok 49 n) as (r & E & F & V & L & P).
    { split; [lia|]. apply Z.lt_trans with (10 ^ 10)%Z; [lia|]. apply Z.pow_lt_mono_r; lia. }
    rewrite E. cbn [obind]. destruct (Nat.ltb_spec 49 (List.length r)); [lia|].
    destruct (Z.eqb_spec n 0) as [->|N0]; [exists ["0"%char]; split; [auto|constructor]|].
    exists (rev r). split; [auto|]. rewrite <- V. destruct (P ltac:(lia)) as (c & t & R & Nc). constructor; [now apply Forall_rev|].
    exists c, t. auto.
Qed.

(** A numeral is determined by its value. *)
Lemma dec_inj s : Forall dig s -> forall t, Forall dig t -> List.length s = List.length t -> dec s = dec t -> s = t.
Proof.
  induction 1 as [|c s D F IH]; intros t G L E; destruct t as [|x t]; try discriminate; [auto|].
  inversion G as [|? ? Dx Gt]; subst. cbn [List.length] in L. injection L as L. rewrite !dec_cons, <- L in E.
  pose proof (dec_bound s F). pose proof (dec_bound t Gt). rewrite <- L in H0.
  assert (dig_value c = dig_value x) as V by (pose proof (dig_range c D); pose proof (dig_range x Dx); nia).
  assert (c = x) as ->.
  { unfold dig_value in V.
    assert (nat_of_ascii c = nat_of_ascii x) as Q by lia. apply (f_equal ascii_of_nat) in Q. now rewrite !ascii_nat_embedding in Q. }
  f_equal. apply IH; auto. lia.
Qed.
Lemma lead_pos s : Forall dig s -> no_lead0 s -> (0 < dec s)%Z /\ (10 ^ Z.of_nat (List.length s - 1) <= dec s < 10 ^ Z.of_nat (List.length s))%Z.
Proof.
  intros F (c & r & -> & N). pose proof (dec_bound _ F) as B. inversion F; subst. pose proof (dec_low c r H1 H2 N).
  cbn [List.length] in *. rewrite Nat.sub_succ, Nat.sub_0_r. pose proof (Z.pow_pos_nonneg 10 (Z.of_nat (List.length r))). lia.
Qed.
Lemma lead_inj s t : Forall dig s -> Forall dig t -> no_lead0 s -> no_lead0 t -> dec s = dec t -> s = t.
Proof.
  intros Fs Ft Ns Nt E. apply dec_inj; auto. pose proof (lead_pos s Fs Ns) as [_ A]. pose proof (lead_pos t Ft Nt) as [_ B].
  destruct Ns as (c & r & -> & _). destruct Nt as (c' & r' & -> & _). cbn [List.length] in *. rewrite !Nat.sub_succ, !Nat.sub_0_r in *.
  assert (~ (Z.of_nat (S (List.length r)) <= Z.of_nat (List.length r'))%Z).
  { intro Q. assert (10 ^ Z.of_nat (S (List.length r)) <= 10 ^ Z.of_nat (List.length r'))%Z by (apply Z.pow_le_mono_r; lia). lia. }
  assert (~ (Z.of_nat (S (List.length r')) <= Z.of_nat (List.length r))%Z).
  { intro Q. assert (10 ^ Z.of_nat (S (List.length r')) <= 10 ^ Z.of_nat (List.length r))%Z by (apply Z.pow_le_mono_r; lia). lia. }
  lia.
Qed.
Lemma numeral_inj s t n : numeral s n -> numeral t n -> s = t.
Proof.
  intros H G. inversion H; inversion G; subst; auto; try (f_equal; apply lead_inj; auto; lia); try (apply lead_inj; auto; lia);
  repeat match goal with F : Forall dig ?s, N : no_lead0 ?s |- _ => destruct (lead_pos s F N) as [? _]; clear F end; lia.
Qed.

