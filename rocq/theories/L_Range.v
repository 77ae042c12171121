(** Lemmas about rounding, ranges and the decision surface. *)
From Coq Require Import ZArith Reals List Arith Lia Lra.
From Verif Require Import Base M_Data S_Data M_Point L_Vec L_Point T_Point M_Eq M_Range S_Range.
Import ListNotations.
Local Open Scope R_scope.

Lemma floor_spec x : IZR (Int_part x) <= x < IZR (Int_part x) + 1.
Proof. destruct (base_Int_part x). lra. Qed.
Lemma floor_ge x k : IZR k <= x -> (k <= Int_part x)%Z.
Proof. intros H. destruct (floor_spec x) as (_ & L). apply Z.lt_succ_r. apply lt_IZR. rewrite succ_IZR. lra. Qed.
Lemma floor_unique x k : IZR k <= x < IZR k + 1 -> Int_part x = k.
Proof. intros (A & B). apply floor_ge in A. destruct (floor_spec x) as (C & _). assert (D : (Int_part x < k + 1)%Z) by (apply lt_IZR; rewrite plus_IZR; lra). lia. Qed.

Lemma rnd_whole x : whole (rnd x).
Proof. unfold rnd. destruct Rle_dec; eexists; [reflexivity|]. symmetry. apply opp_IZR. Qed.
Lemma rnd_near x : rnd x - / 2 <= x <= rnd x + / 2.
Proof. unfold rnd. destruct Rle_dec; [destruct (floor_spec (x + / 2))|destruct (floor_spec (- x + / 2))]; lra. Qed.
Lemma rnd_pos x k : 0 <= x -> IZR k <= x + / 2 < IZR k + 1 -> rnd x = IZR k.
Proof. intros P H. unfold rnd. destruct Rle_dec; [|lra]. f_equal. now apply floor_unique. Qed.
Lemma rnd_ge x k : IZR k <= x -> IZR k <= rnd x.
Proof.
  intros H. destruct (rnd_whole x) as (j & J). rewrite J. destruct (rnd_near x) as (A & B). rewrite J in *. apply IZR_le.
  assert (k < j + 1)%Z; [|lia]. apply lt_IZR. rewrite plus_IZR. lra.
Qed.
Lemma rnd_le x k : x <= IZR k -> rnd x <= IZR k.
Proof.
  intros H. destruct (rnd_whole x) as (j & J). rewrite J. destruct (rnd_near x) as (A & B). rewrite J in *. apply IZR_le.
  assert (j < k + 1)%Z; [|lia]. apply lt_IZR. rewrite plus_IZR. lra.
Qed.
Lemma rnd_small x : - / 2 < x < / 2 -> rnd x = 0.
Proof.
  intros H. unfold rnd. destruct Rle_dec.
  - rewrite (floor_unique _ 0); cbn; lra.
  - rewrite (floor_unique _ 0); cbn; lra.
Qed.
Lemma rnd_int k : rnd (IZR k) = IZR k.
Proof. apply Rle_antisym; [apply rnd_le|apply rnd_ge]; lra. Qed.

(** The extremes. *)
Lemma pmax_val tiny v : exists m, pmax tiny (V v) = Ok m /\ (m = tiny \/ In m v) /\ tiny <= m /\ forall x, In x v -> x <= m.
Proof.
  destruct (pmax_spec tiny (length v) (V v) (nz v)) as (m & E & A & B & C); cbn; auto.
  exists m. split; auto. split; [|split; auto].
  - destruct A as [A|(i & I & ->)]; auto. right. unfold nz. now apply nth_In.
  - intros x X. destruct (In_nth _ _ 0 X) as (i & I & <-). now apply C.
Qed.
Lemma pmin_val huge v : exists m, pmin huge (V v) = Ok m /\ (m = huge \/ In m v) /\ m <= huge /\ forall x, In x v -> m <= x.
Proof.
  destruct (pmin_spec huge (length v) (V v) (nz v)) as (m & E & A & B & C); cbn; auto.
  exists m. split; auto. split; [|split; auto].
  - destruct A as [A|(i & I & ->)]; auto. right. unfold nz. now apply nth_In.
  - intros x X. destruct (In_nth _ _ 0 X) as (i & I & <-). now apply C.
Qed.
Lemma pmin_least huge v : v <> [] -> (forall x, In x v -> x < huge) -> exists m, pmin huge (V v) = Ok m /\ least m v.
Proof.
  intros NE H. destruct (pmin_val huge v) as (m & E & [->|I] & _ & L); [|exists m; split; [auto|split; auto]].
  destruct v as [|x v]; [easy|]. specialize (L x (or_introl eq_refl)). specialize (H x (or_introl eq_refl)). lra.
Qed.
Lemma least_unique m1 m2 v : least m1 v -> least m2 v -> m1 = m2.
Proof. intros (A & B) (C & D). apply Rle_antisym; auto. Qed.

Definition lower (scale m : R) : R := m + (if Rlt_dec 0 m then (1 - scale) * m else - (1 - scale) * m).
Lemma lower_le scale m : 1 <= scale -> lower scale m <= m.
Proof. intros S1. unfold lower. destruct Rlt_dec; nra. Qed.
Lemma lower_one m : lower 1 m = m.
Proof. unfold lower. destruct Rlt_dec; lra. Qed.

Lemma axis_val tiny huge scale v : v <> [] -> (forall x, In x v -> x < huge) ->
  exists mn mx, axis tiny huge scale v = Ok (rnd (lower scale mn), rnd (scale * mx)) /\ least mn v /\
    (mx = tiny \/ In mx v) /\ tiny <= mx /\ forall x, In x v -> x <= mx.
Proof.
  intros NE H. destruct (pmin_least huge v NE H) as (mn & E1 & L). destruct (pmax_val tiny v) as (mx & E2 & A & B & C).
  exists mn, mx. unfold axis. rewrite E1, E2. cbn [obind]. auto.
Qed.

(** Two features of a point. *)
Lemma keep_none (k : Z -> bool) (a n : nat) (xs : list R) : (forall i, (a <= i < a + n)%nat -> k (Z.of_nat i) = false) ->
  keep_features k (map Z.of_nat (seq a n)) xs = [].
Proof.
  revert a xs. induction n as [|n IH]; intros a xs H; auto. destruct xs as [|x xs]; auto. unfold keep_features in *. cbn [seq map combine filter fst].
  rewrite H by lia. apply IH. intros i I. apply H. lia.
Qed.
Lemma keep_one (k : Z -> bool) (a n x : nat) (xs : list R) : length xs = n -> (x < n)%nat ->
  (forall i, (a <= i < a + n)%nat -> k (Z.of_nat i) = Nat.eqb i (a + x)) -> keep_features k (map Z.of_nat (seq a n)) xs = [nth x xs 0].
Proof.
  revert a x xs. induction n as [|n IH]; intros a x xs L X H; [lia|]. destruct xs as [|z xs]; [discriminate|].
  unfold keep_features in *. cbn [seq map combine filter fst]. rewrite H by lia. destruct x as [|x].
  - rewrite (proj2 (Nat.eqb_eq _ _)) by lia. cbn [map snd nth]. f_equal. apply (keep_none k (S a) n xs). intros i I. rewrite H by lia. apply Nat.eqb_neq. lia.
  - rewrite (proj2 (Nat.eqb_neq _ _)) by lia. cbn [nth]. apply IH; [now injection L|lia|]. intros i I. rewrite H by lia.
    replace (a + S x)%nat with (S a + x)%nat by lia. auto.
Qed.
Lemma keep_two (k : Z -> bool) (a n x y : nat) (xs : list R) : length xs = n -> (x < y < n)%nat ->
  (forall i, (a <= i < a + n)%nat -> k (Z.of_nat i) = orb (Nat.eqb i (a + x)) (Nat.eqb i (a + y))) ->
  keep_features k (map Z.of_nat (seq a n)) xs = [nth x xs 0; nth y xs 0].
Proof.
  revert a x y xs. induction n as [|n IH]; intros a x y xs L X H; [lia|]. destruct xs as [|z xs]; [discriminate|].
  unfold keep_features in *. cbn [seq map combine filter fst]. rewrite H by lia. destruct x as [|x].
  - rewrite (proj2 (Nat.eqb_eq _ _)) by lia. cbn [orb map snd nth]. f_equal. destruct y as [|y]; [lia|].
    apply (keep_one k (S a) n y xs); [now injection L|lia|]. intros i I. rewrite H by lia. rewrite (proj2 (Nat.eqb_neq _ _)) by lia. cbn [orb]. f_equal. lia.
  - destruct y as [|y]; [lia|]. rewrite !(proj2 (Nat.eqb_neq _ _)) by lia. cbn [orb nth]. apply IH; [now injection L|lia|]. intros i I. rewrite H by lia.
    f_equal; f_equal; lia.
Qed.
