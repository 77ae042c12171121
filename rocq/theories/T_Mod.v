(** Proofs about the remainder of a point and a number. *)
From Coq Require Import ZArith Bool Reals Lia Lra List.
From Verif Require Import Base Loop M_Data M_Mod.
Import ListNotations.
Local Open Scope Z_scope.

Lemma map_outcome_F2 {A B} (f : A -> outcome B) (Q : A -> B -> Prop) l : (forall x, In x l -> exists y, f x = Ok y /\ Q x y) -> exists r, map_outcome f l = Ok r /\ Forall2 Q l r.
Proof.
  induction l as [|x l IH]; intro H; cbn [map_outcome]; [exists []; split; [reflexivity|constructor]|].
  destruct (H x (or_introl eq_refl)) as (y & E & Qy). destruct (IH (fun z I => H z (or_intror I))) as (r & Er & F). rewrite E. cbn [obind]. rewrite Er. cbn [obind]. eauto.
Qed.
Lemma rem_good x m : m <> 0 -> (exists k, x = k * m + Z.rem x m) /\ Z.abs (Z.rem x m) < Z.abs m /\ (0 <= x -> 0 <= Z.rem x m) /\ (x <= 0 -> Z.rem x m <= 0).
Proof.
  intro N. split; [exists (Z.quot x m); pose proof (Z.quot_rem' x m); lia|]. split; [apply Z.rem_bound_abs; exact N|]. split; intro H; [apply Z.rem_nonneg; assumption|apply Z.rem_nonpos; assumption].
Qed.
(** C148: an int point and an int other than 0: the remainders have the sign of the coordinates. *)
Lemma c148_int : forall (p : list Z) (m : Z), m <> 0 -> (m = -1 -> ~ In (- 2 ^ 31) p) ->
  exists r, pmod_ii p m = Ok r /\ Forall2 (fun x y => (exists k, x = k * m + y) /\ Z.abs y < Z.abs m /\ (0 <= x -> 0 <= y) /\ (x <= 0 -> y <= 0)) p r.
Proof.
  intros p m N M. apply map_outcome_F2. intros x I. exists (Z.rem x m). split; [|apply rem_good; exact N]. unfold imod. destruct (Z.eqb_spec m 0); [contradiction|].
  destruct (Z.eqb_spec x (- 2 ^ 31)) as [->|_]; cbn [andb]; [|reflexivity]. destruct (Z.eqb_spec m (-1)) as [E|_]; [elim (M E I)|reflexivity].
Qed.
Lemma c148_int_ex : pmod_ii [7; -7; 6] 3 = Ok [1; -1; 0] /\ 3 <> 0.
Proof. split; [reflexivity|discriminate]. Qed.
(** C148: so they are not all in [0, m) as soon as a coordinate is negative and not a multiple; and a divisor 0, or -1 with the least int, is undefined behaviour. *)
Lemma c148_int_refuted : forall (p : list Z) (m : Z),
  (forall r, pmod_ii p m = Ok r -> (exists x, In x p /\ x < 0 /\ ~ (m | x)) -> exists y, In y r /\ y < 0) /\
  (p <> [] -> pmod_ii p 0 = UB) /\ (In (- 2 ^ 31) p -> pmod_ii p (-1) = UB).
Proof.
  intros p m. split; [|split].
  - intros r E (x & I & Hx & D). unfold pmod_ii in E. revert r E. induction p as [|z p IH]; intros r E; [destruct I|]. cbn [map_outcome] in E.
    destruct (imod z m) as [v| |] eqn:Ev; cbn [obind] in E; try discriminate. destruct (map_outcome (fun x => imod x m) p) as [r'| |] eqn:Er; cbn [obind] in E; try discriminate. injection E as <-.
    destruct I as [->|I]; [|destruct (IH I r' eq_refl) as (y & Iy & Hy); exists y; split; [right; exact Iy|exact Hy]].
    exists v. split; [left; reflexivity|]. unfold imod in Ev. destruct (Z.eqb_spec m 0) as [|N]; [discriminate|]. destruct (_ && _); [discriminate|]. injection Ev as <-.
    destruct (rem_good x m N) as ((k & Ek) & _ & _ & L). specialize (L ltac:(lia)). destruct (Z.eq_dec (Z.rem x m) 0) as [E0|]; [|lia]. elim D. exists k. lia.
  - destruct p as [|x p]; [congruence|]. reflexivity.
  - clear m. induction p as [|z p IH]; intro I; [destruct I|]. cbn [pmod_ii map_outcome]. destruct I as [->|I]; [reflexivity|]. specialize (IH I). unfold pmod_ii in IH |- *. cbn [map_outcome].
    destruct (imod z (-1)) as [v| |] eqn:E; cbn [obind]; [rewrite IH; reflexivity|reflexivity|]. unfold imod in E. cbn [Z.eqb] in E. destruct (_ && _) in E; discriminate.
Qed.
Lemma c148_int_refuted_ex : pmod_ii [5; -7] 3 = Ok [2; -1].
Proof. reflexivity. Qed.

Lemma trunc_bound x : (Rabs (x - IZR (rtrunc x)) < 1)%R /\ ((0 <= x)%R -> (0 <= x - IZR (rtrunc x))%R) /\ ((x <= 0)%R -> (x - IZR (rtrunc x) <= 0)%R).
Proof.
  unfold rtrunc. destruct (Rle_dec 0 x) as [H|H].
  - destruct (base_Int_part x) as [A B]. split; [rewrite Rabs_pos_eq; lra|]. split; intro; [lra|]. assert (x = 0)%R as -> by lra. assert (Int_part 0 = 0) as ->; [|lra].
    destruct (base_Int_part 0) as [C D]. apply eq_IZR. assert (-1 < IZR (Int_part 0))%R as D' by lra. apply lt_IZR in D'. apply le_IZR in C. f_equal. lia.
  - destruct (base_Int_part (- x)) as [A B]. rewrite opp_IZR. split; [rewrite Rabs_left1; lra|]. split; intro; lra.
Qed.
Lemma fmod_good x y : (y <> 0)%R -> exists r, fmod x y = Some r /\ (exists k, x = IZR k * y + r)%R /\ (Rabs r < Rabs y)%R /\ ((0 <= x)%R -> (0 <= r)%R) /\ ((x <= 0)%R -> (r <= 0)%R).
Proof.
  intro N. unfold fmod. destruct (Req_EM_T y 0); [contradiction|]. eexists. split; [reflexivity|]. split; [exists (rtrunc (x / y)); ring|].
  destruct (trunc_bound (x / y)) as (A & B & C). set (q := (x / y - IZR (rtrunc (x / y)))%R) in *.
  assert (x - IZR (rtrunc (x / y)) * y = q * y)%R as -> by (unfold q; field; exact N). assert (x = x / y * y)%R as Ex by (field; exact N). split.
  - rewrite Rabs_mult. pose proof (Rabs_pos_lt y N). nra.
  - destruct (Rtotal_order y 0) as [L|[L|L]]; [|contradiction|].
    + split; intro H.
      * assert (x / y <= 0)%R as D by (apply Rnot_lt_le; intro; nra). specialize (C D). nra.
      * assert (0 <= x / y)%R as D by (apply Rnot_lt_le; intro; nra). specialize (B D). nra.
    + split; intro H.
      * assert (0 <= x / y)%R as D by (apply Rnot_lt_le; intro; nra). specialize (B D). nra.
      * assert (x / y <= 0)%R as D by (apply Rnot_lt_le; intro; nra). specialize (C D). nra.
Qed.
(** C148: a double point and an int: the remainders of fmod, not numbers for 0. *)
Lemma c148_double : forall (p : list R) (m : Z), m <> 0 ->
  Forall2 (fun x o => exists r, o = Some r /\ (exists k, x = IZR k * IZR m + r)%R /\ (Rabs r < Rabs (IZR m))%R /\ ((0 <= x)%R -> (0 <= r)%R) /\ ((x <= 0)%R -> (r <= 0)%R)) p (pmod_di p m) /\
  Forall (fun o => o = None) (pmod_di p 0).
Proof.
  intros p m N. split.
  - induction p as [|x p IH]; [constructor|]. cbn [pmod_di map]. constructor; [|exact IH]. destruct (fmod_good x (IZR m) (IZR_neq _ _ N)) as (r & E & G). exists r. split; [exact E|exact G].
  - induction p as [|x p IH]; [constructor|]. cbn [pmod_di map]. constructor; [|exact IH]. unfold fmod. destruct (Req_EM_T 0 0); [reflexivity|congruence].
Qed.
Lemma trunc_is x k : (0 <= x)%R -> (IZR k <= x < IZR k + 1)%R -> rtrunc x = k.
Proof.
  intros H K. unfold rtrunc. destruct (Rle_dec 0 x); [|contradiction]. destruct (base_Int_part x) as [A B]. assert (IZR k < IZR (Int_part x) + 1)%R as P by lra. assert (IZR (Int_part x) < IZR k + 1)%R as Q by lra.
  rewrite <- plus_IZR in P, Q. apply lt_IZR in P, Q. lia.
Qed.
Lemma trunc_isn x k : (x < 0)%R -> (IZR k <= - x < IZR k + 1)%R -> rtrunc x = - k.
Proof.
  intros H K. rewrite <- (trunc_is (- x) k) by lra. unfold rtrunc. destruct (Rle_dec 0 x); [lra|]. destruct (Rle_dec 0 (- x)); [reflexivity|lra].
Qed.
Lemma c148_double_ex : (2 <> 0) /\ pmod_di [7; - 7 / 2]%R 2 = [Some 1; Some (- 3 / 2)]%R.
Proof.
  split; [discriminate|]. cbn [pmod_di map]. unfold fmod. destruct (Req_EM_T 2 0); [lra|]. rewrite (trunc_is (7 / 2) 3) by lra. rewrite (trunc_isn (- 7 / 2 / 2) 1) by lra. cbn [Z.opp]. f_equal; [f_equal; lra|]. f_equal. f_equal. lra.
Qed.
(** C148: an int point and a double: the remainder is cut to an int, so that it need not be one: for a modulus whose remainder is not an integer the result is off by less than 1. *)
Lemma c148_cut : forall (p : list Z) (m : R), (m <> 0)%R ->
  exists r, pmod_id p m = Ok r /\ Forall2 (fun x y => exists v k, (IZR x = IZR k * m + v)%R /\ (Rabs v < Rabs m)%R /\ (Rabs (v - IZR y) < 1)%R /\ (Rabs (IZR y) <= Rabs v)%R) p r.
Proof.
  intros p m N. apply map_outcome_F2. intros x _. destruct (fmod_good (IZR x) m N) as (v & E & (k & Ek) & A & _). rewrite E. exists (rtrunc v). split; [reflexivity|]. exists v, k. split; [exact Ek|]. split; [exact A|].
  destruct (trunc_bound v) as (T1 & T2 & T3). split; [exact T1|]. unfold rtrunc in *. destruct (Rle_dec 0 v) as [P|P].
  - specialize (T2 P). destruct (base_Int_part v) as [_ B]. assert (0 <= IZR (Int_part v))%R as Q. { apply IZR_le. assert (-1 < IZR (Int_part v))%R as D by lra. apply lt_IZR in D. lia. } rewrite !Rabs_pos_eq; lra.
  - specialize (T3 ltac:(lra)). destruct (base_Int_part (- v)) as [_ B]. assert (0 <= IZR (Int_part (- v)))%R as Q. { apply IZR_le. assert (-1 < IZR (Int_part (- v)))%R as D by lra. apply lt_IZR in D. lia. }
    rewrite opp_IZR in *. rewrite Rabs_Ropp, Rabs_pos_eq by exact Q. rewrite Rabs_left1; lra.
Qed.
Lemma c148_cut_ex : (5 / 2 <> 0)%R /\ pmod_id [7] (5 / 2)%R = Ok [2].
Proof.
  split; [lra|]. unfold pmod_id, fmod. cbn [map_outcome]. destruct (Req_EM_T (5 / 2) 0); [lra|]. cbn [obind]. rewrite (trunc_is (7 / (5 / 2)) 2) by lra. rewrite (trunc_is (7 - 2 * (5 / 2)) 2) by lra. reflexivity.
Qed.
(** C148: so the int remainder of 2 by 3/2 is 0 although 2 is not a multiple of 3/2; and 0 as modulus is undefined behaviour, as a value that is not a number is converted. *)
Lemma c148_cut_refuted : pmod_id [2] (3 / 2)%R = Ok [0] /\ (forall k, (IZR 2 <> IZR k * (3 / 2) + IZR 0)%R) /\ forall p, p <> [] -> pmod_id p 0%R = UB.
Proof.
  split; [|split; [|intros [|x p] N; [congruence|]; unfold pmod_id, fmod; cbn [map_outcome]; destruct (Req_EM_T 0 0); [reflexivity|congruence]]].
  - unfold pmod_id, fmod. cbn [map_outcome]. destruct (Req_EM_T (3 / 2) 0); [lra|]. cbn [obind].
    assert (Int_part (2 / (3 / 2)) = 1) as I1. { destruct (base_Int_part (2 / (3 / 2))) as [A B]. replace (2 / (3 / 2))%R with (4 / 3)%R in * by field. assert (0 < IZR (Int_part (4 / 3)))%R as P by lra. assert (IZR (Int_part (4 / 3)) < 2)%R as Q by lra. apply lt_IZR in P, Q. lia. }
    assert (rtrunc (2 / (3 / 2)) = 1) as ->. { unfold rtrunc. destruct (Rle_dec 0 _) as [_|X]; [exact I1|elim X; lra]. }
    assert (rtrunc (2 - 1 * (3 / 2)) = 0) as ->; [|reflexivity]. unfold rtrunc. destruct (Rle_dec 0 _) as [_|X]; [|elim X; lra].
    destruct (base_Int_part (2 - 1 * (3 / 2))) as [A B]. assert (-1 < IZR (Int_part (2 - 1 * (3 / 2))))%R as P by lra. assert (IZR (Int_part (2 - 1 * (3 / 2))) < 1)%R as Q by lra. apply lt_IZR in P, Q. lia.
  - intros k E. assert (4 = 3 * k) as F; [|lia]. apply eq_IZR. rewrite mult_IZR. lra.
Qed.
