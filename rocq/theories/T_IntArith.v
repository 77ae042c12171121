(** Proofs about the operators of int points with a double. *)
From Coq Require Import ZArith Bool Reals Lia Lra List Psatz.
From Verif Require Import Base Loop M_Data M_Mod T_Mod M_IntStat T_IntStat M_IntArith.
Import ListNotations.
Local Open Scope Z_scope.

Lemma mo_map {A B} (f : A -> outcome B) (g : A -> B) l : (forall x, In x l -> f x = Ok (g x)) -> map_outcome f l = Ok (map g l).
Proof. induction l as [|x l IH]; intro H; [reflexivity|]. cbn [map_outcome map]. rewrite (H x (or_introl eq_refl)). cbn [obind]. rewrite IH by (intros; apply H; now right). reflexivity. Qed.
Lemma trunc_abs r : (Rabs (IZR (rtrunc r)) <= Rabs r)%R /\ (Rabs (IZR (rtrunc r) - r) < 1)%R.
Proof.
  destruct (trunc_bound r) as (A & B & C). split; [|rewrite Rabs_minus_sym; exact A]. destruct (Rle_dec 0 r) as [P|P].
  - specialize (B P). rewrite (Rabs_pos_eq r) by exact P. assert (0 <= IZR (rtrunc r))%R; [|rewrite Rabs_pos_eq; lra]. apply IZR_le. rewrite Rabs_pos_eq in A by exact B. assert (-1 < IZR (rtrunc r))%R as D by lra. apply lt_IZR in D. lia.
  - specialize (C ltac:(lra)). rewrite (Rabs_left r) by lra. assert (IZR (rtrunc r) <= 0)%R; [|rewrite Rabs_left1; lra]. apply IZR_le. rewrite Rabs_left1 in A by exact C. assert (IZR (rtrunc r) < 1)%R as D by lra. apply lt_IZR in D. lia.
Qed.
Lemma pow31 : (2 ^ 31 = IZR (2 ^ 31))%R.
Proof. change (2 ^ 31)%Z with 2147483648%Z. cbn [pow]. lra. Qed.
Lemma cut_ok r : (Rabs r < 2 ^ 31)%R -> cut r = Ok (rtrunc r).
Proof.
  intro H. unfold cut. apply icheck_ok. destruct (trunc_abs r) as [A _]. assert (Rabs (IZR (rtrunc r)) < IZR (2 ^ 31))%R as B by (eapply Rle_lt_trans; [exact A|]; eapply Rlt_le_trans; [exact H|]; right; exact pow31).
  rewrite Rabs_Zabs in B. apply lt_IZR in B. lia.
Qed.
Lemma trunc_int k : rtrunc (IZR k) = k.
Proof.
  destruct (Z_lt_le_dec k 0) as [L|L]; [|apply trunc_is; [apply IZR_le; exact L|lra]]. rewrite (trunc_isn (IZR k) (- k)); [lia|apply IZR_lt; exact L|]. rewrite opp_IZR. lra.
Qed.
Lemma trunc_quot x k : k <> 0 -> rtrunc (IZR x / IZR k) = Z.quot x k.
Proof.
  intro N. pose proof (Z.quot_rem' x k) as E. destruct (rem_good x k N) as (_ & A & B & C). set (q := Z.quot x k) in *. set (r := Z.rem x k) in *. assert (IZR k <> 0)%R as NR by (apply IZR_neq; exact N).
  assert (IZR x / IZR k = IZR q + IZR r / IZR k)%R as ER by (rewrite E, plus_IZR, mult_IZR; field; exact NR).
  assert (Rabs (IZR r / IZR k) < 1)%R as F. { unfold Rdiv. rewrite Rabs_mult, Rabs_inv, !Rabs_Zabs. assert (0 < IZR (Z.abs k))%R as P by (apply IZR_lt; lia). apply (Rmult_lt_reg_r (IZR (Z.abs k))); [exact P|]. rewrite Rmult_assoc, Rinv_l by lra. rewrite Rmult_1_r, Rmult_1_l. apply IZR_lt. exact A. }
  destruct (Z.eq_dec r 0) as [Zr|Zr]. { rewrite ER, Zr. unfold Rdiv. rewrite Rmult_0_l, Rplus_0_r. apply trunc_int. }
  assert (forall u v : Z, (0 < u /\ 0 < v) \/ (u < 0 /\ v < 0) -> (0 < IZR u / IZR v)%R) as POS. { intros u v [[U V]|[U V]]; apply IZR_lt in U, V; [apply Rdiv_lt_0_compat; lra|]. replace (IZR u / IZR v)%R with ((- IZR u) / (- IZR v))%R by (field; lra). apply Rdiv_lt_0_compat; lra. }
  assert (x <> 0) as Nx by (intros ->; specialize (B ltac:(lia)); specialize (C ltac:(lia)); lia).
  destruct (Z_lt_le_dec 0 (x * k)) as [S|S].
  - assert (0 < IZR r / IZR k)%R as Pr by (apply POS; nia). rewrite Rabs_pos_eq in F by lra. apply trunc_is; [left; apply POS; nia|]. rewrite ER. lra.
  - assert (IZR r / IZR k < 0)%R as Pr. { assert (0 < IZR (- r) / IZR k)%R as X by (apply POS; nia). rewrite opp_IZR in X. unfold Rdiv in *. lra. }
    assert (IZR x / IZR k < 0)%R as Px. { assert (0 < IZR (- x) / IZR k)%R as X by (apply POS; nia). rewrite opp_IZR in X. unfold Rdiv in *. lra. }
    rewrite Rabs_left in F by exact Pr. rewrite (trunc_isn _ (- q)); [lia|exact Px|]. rewrite opp_IZR, ER. lra.
Qed.
Lemma fits_R z : Z.abs z < 2 ^ 31 -> (Rabs (IZR z) < 2 ^ 31)%R.
Proof. intro H. rewrite pow31, Rabs_Zabs. apply IZR_lt. exact H. Qed.
(** C151: with a double that is a whole number, the operators that give a new point and those that change it agree with the integers. *)
Lemma c151_whole : forall (p : list Z) (k : Z), (forall x, In x p -> Z.abs x <= 2 ^ 15) -> Z.abs k <= 2 ^ 15 ->
  iadd_d p (IZR k) = Ok (map (fun x => x + k) p) /\ imul_d p (IZR k) = Ok (map (fun x => x * k) p) /\ isub_d p (IZR k) = Ok (map (fun x => x - k) p) /\ isub_assign p (IZR k) = Ok (map (fun x => x - k) p) /\
  (k <> 0 -> idiv_d p (IZR k) = Ok (map (fun x => Z.quot x k) p) /\ idiv_assign p (IZR k) = Ok (map (fun x => Z.quot x k) p)).
Proof.
  intros p k H K. assert (cut (IZR k) = Ok k) as CK by (rewrite cut_ok by (apply fits_R; lia); rewrite trunc_int; reflexivity).
  split; [apply mo_map; intros x I; specialize (H x I); rewrite <- plus_IZR, cut_ok by (apply fits_R; lia); rewrite trunc_int; reflexivity|].
  split; [apply mo_map; intros x I; specialize (H x I); rewrite <- mult_IZR, cut_ok by (apply fits_R; nia); rewrite trunc_int; reflexivity|].
  split; [unfold isub_d; rewrite CK; cbn [obind]; apply mo_map; intros x I; specialize (H x I); apply icheck_ok; lia|].
  split; [apply mo_map; intros x I; specialize (H x I); rewrite <- minus_IZR, cut_ok by (apply fits_R; lia); rewrite trunc_int; reflexivity|].
  intro N. assert (forall x, In x p -> Z.abs (Z.quot x k) <= 2 ^ 15) as QB. { intros x I. specialize (H x I). rewrite <- Z.quot_abs by exact N. apply Z.le_trans with (Z.abs x); [|exact H]. apply Z.quot_le_upper_bound; nia. }
  split; [unfold idiv_d; rewrite CK; cbn [obind]|]; apply mo_map; intros x I; specialize (QB x I).
  - unfold idiv. destruct (Z.eqb_spec k 0); [contradiction|]. apply icheck_ok. lia.
  - destruct (Req_EM_T (IZR k) 0) as [E|_]; [apply eq_IZR in E; contradiction|]. unfold cut. rewrite trunc_quot by exact N. apply icheck_ok. lia.
Qed.
Lemma c151_whole_ex : forall x, In x [7; -7] -> Z.abs x <= 2 ^ 15.
Proof. intros x H. cbn in H. lia. Qed.
(** C151: sums, products, and the operators that change the point compute with the double and cut each coordinate towards zero. *)
Lemma c151_cut : forall (p : list Z) (s : R),
  ((forall x, In x p -> Rabs (IZR x + s) < 2 ^ 31)%R -> exists r, iadd_d p s = Ok r /\ Forall2 (fun x y => (Rabs (IZR y - (IZR x + s)) < 1)%R /\ (Rabs (IZR y) <= Rabs (IZR x + s))%R) p r) /\
  ((forall x, In x p -> Rabs (IZR x * s) < 2 ^ 31)%R -> exists r, imul_d p s = Ok r /\ Forall2 (fun x y => (Rabs (IZR y - IZR x * s) < 1)%R /\ (Rabs (IZR y) <= Rabs (IZR x * s))%R) p r) /\
  ((forall x, In x p -> Rabs (IZR x - s) < 2 ^ 31)%R -> exists r, isub_assign p s = Ok r /\ Forall2 (fun x y => (Rabs (IZR y - (IZR x - s)) < 1)%R /\ (Rabs (IZR y) <= Rabs (IZR x - s))%R) p r) /\
  ((s <> 0)%R -> (forall x, In x p -> Rabs (IZR x / s) < 2 ^ 31)%R -> exists r, idiv_assign p s = Ok r /\ Forall2 (fun x y => (Rabs (IZR y - IZR x / s) < 1)%R /\ (Rabs (IZR y) <= Rabs (IZR x / s))%R) p r).
Proof.
  intros p s. repeat split; intros.
  1-3: apply map_outcome_F2; intros x I; eexists; (split; [apply cut_ok; auto|]); match goal with |- context [rtrunc ?r] => destruct (trunc_abs r) as [A B] end; split; assumption.
  apply map_outcome_F2. intros x I. destruct (Req_EM_T s 0); [contradiction|]. eexists. split; [apply cut_ok; auto|]. destruct (trunc_abs (IZR x / s)) as [A B]. split; assumption.
Qed.
Lemma c151_cut_ex : forall x, In x [7; -7] -> (Rabs (IZR x * (1 / 2)) < 2 ^ 31)%R.
Proof. intros x [<-|[<-|[]]]; apply Rabs_def1; lra. Qed.
(** C151: p - s cuts the number instead: for s between 0 and 1 it leaves the point as it is, where p -= s takes 1 off every positive coordinate. *)
Lemma c151_sub_refuted : forall (p : list Z) (s : R), (0 < s < 1)%R -> (forall x, In x p -> 1 <= x <= 2 ^ 31 - 1) -> isub_d p s = Ok p /\ isub_assign p s = Ok (map (fun x => x - 1) p).
Proof.
  intros p s S H. assert (cut s = Ok 0) as C by (unfold cut; rewrite (trunc_is s 0) by lra; reflexivity). split.
  - unfold isub_d. rewrite C. cbn [obind]. rewrite <- (map_id p) at 2. apply mo_map. intros x I. specialize (H x I). rewrite Z.sub_0_r. apply icheck_ok. lia.
  - apply mo_map. intros x I. specialize (H x I). unfold cut. rewrite (trunc_is _ (x - 1)); [apply icheck_ok; lia| |].
    + destruct H as [H _]. apply IZR_le in H. lra.
    + rewrite minus_IZR. lra.
Qed.
Lemma c151_sub_refuted_ex : (0 < 1 / 2 < 1)%R /\ forall x, In x [3; 4] -> 1 <= x <= 2 ^ 31 - 1.
Proof. split; [lra|]. intros x H. cbn in H. lia. Qed.
(** C151: p / s likewise: it is undefined for every s between -1 and 1, where p /= s is not, and changes nothing for s from 1 to 2. *)
Lemma c151_div_refuted : forall (p : list Z) (s : R),
  (p <> [] -> (-1 < s < 1)%R -> idiv_d p s = UB) /\ ((forall x, In x p -> - 2 ^ 31 <= x <= 2 ^ 31 - 1) -> (1 <= s < 2)%R -> idiv_d p s = Ok p).
Proof.
  intros p s. split.
  - intros N S. assert (rtrunc s = 0) as E. { destruct (Rle_dec 0 s) as [P|P]; [apply trunc_is; lra|]. change 0 with (- 0). apply trunc_isn; lra. } unfold idiv_d, cut. rewrite E. cbn. destruct p; [congruence|reflexivity].
  - intros H S. unfold idiv_d, cut. rewrite (trunc_is s 1) by lra. rewrite icheck_ok by lia. cbn [obind]. rewrite <- (map_id p) at 2. apply mo_map. intros x I. unfold idiv. cbn [Z.eqb]. rewrite Z.quot_1_r. apply icheck_ok. auto.
Qed.
Lemma c151_div_refuted_ex : (-1 < 1 / 2 < 1)%R /\ idiv_assign [3] (1 / 2)%R = Ok [6].
Proof. split; [lra|]. unfold idiv_assign. cbn [map_outcome]. destruct (Req_EM_T (1 / 2) 0); [lra|]. unfold cut. replace (3 / (1 / 2))%R with 6%R by field. rewrite (trunc_int 6). reflexivity. Qed.
(** C151: dividing by exactly 0 is undefined for every point with a coordinate, with / and with /=. *)
Lemma c151_zero_refuted : forall (p : list Z), p <> [] -> idiv_assign p 0 = UB /\ idiv_d p 0 = UB.
Proof.
  intros p N. split; [|apply (proj1 (c151_div_refuted p 0)); [exact N|lra]].
  destruct p as [|x p]; [congruence|]. unfold idiv_assign. cbn [map_outcome]. destruct (Req_EM_T 0 0) as [_|F]; [reflexivity|now elim F].
Qed.
Lemma c151_zero_refuted_ex : [3; -4] <> [] /\ idiv_assign [3; -4] 2%R = Ok [1; -2].
Proof. split; [discriminate|]. unfold idiv_assign. cbn [map_outcome]. destruct (Req_EM_T 2 0); [lra|]. unfold cut. rewrite (trunc_is (3 / 2) 1) by lra. replace (-4 / 2)%R with (IZR (-2)) by lra. rewrite (trunc_int (-2)). reflexivity. Qed.
