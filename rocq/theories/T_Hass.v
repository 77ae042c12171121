(** The Hassanat distance on points with coordinates of any sign (C28). *)
From Coq Require Import ZArith Bool List Reals Lra Lia Psatz.
From Verif Require Import Base ListLib M_Data M_Point S_Point L_Vec L_Point T_Metric.
Import ListNotations.
Local Open Scope R_scope.

(** What one coordinate adds. *)
Definition hterm (x y : R) : R := if Rle_dec 0 (Rmin x y) then 1 - (1 + Rmin x y) / (1 + Rmax x y) else 1 - 1 / (1 + (Rmax x y + Rabs (Rmax x y))).
Lemma hterm_el x y : hassanat_el x y = Some (hterm x y).
Proof.
  unfold hassanat_el, hterm. assert (Rmin x y <= Rmax x y) by (eapply Rle_trans; [apply Rmin_l|apply Rmax_l]). destruct (Rle_dec 0 (Rmin x y)) as [L|L]; cbn [bop_el arith].
  - destruct (Req_EM_T (1 + Rmax x y) 0); [lra|]. reflexivity.
  - assert (0 <= Rmax x y + Rabs (Rmax x y)) by (unfold Rabs; destruct (Rcase_abs (Rmax x y)); lra). destruct (Req_EM_T (1 + Rmax x y + Rabs (Rmax x y)) 0); [lra|]. cbn [lift1]. f_equal. f_equal.
    replace (1 + Rmin x y + Rabs (Rmin x y)) with 1 by (rewrite Rabs_left by lra; ring). unfold Rdiv. now rewrite Rplus_assoc.
Qed.
Lemma hterm_sym x y : hterm x y = hterm y x.
Proof. unfold hterm. now rewrite Rmin_comm, Rmax_comm. Qed.
Lemma below1 u v : 0 < v -> u <= v -> 0 < u -> 0 <= 1 - u / v < 1.
Proof.
  intros V L U. assert (u / v <= 1). { apply (Rmult_le_reg_r v); [auto|]. unfold Rdiv. rewrite Rmult_assoc, Rinv_l by lra. lra. }
  assert (0 < u / v) by (apply Rdiv_lt_0_compat; auto). lra.
Qed.
Lemma quot1 u v : 0 < v -> 1 - u / v = 0 -> u = v.
Proof. intros V E. assert (u / v = 1) as Q by lra. apply (f_equal (fun z => z * v)) in Q. unfold Rdiv in Q. rewrite Rmult_assoc, Rinv_l in Q by lra. lra. Qed.
Lemma hterm_ok x y : 0 <= hterm x y < 1 /\ (hterm x y = 0 <-> x = y \/ (x <= 0 /\ y <= 0)).
Proof.
  unfold hterm. assert (Rmin x y <= Rmax x y) as MM by (eapply Rle_trans; [apply Rmin_l|apply Rmax_l]). destruct (Rle_dec 0 (Rmin x y)) as [L|L].
  - split; [apply below1; lra|]. split.
    + intro E. apply quot1 in E; [|lra]. left. revert E. unfold Rmin, Rmax. destruct (Rle_dec x y); lra.
    + intros [->|[A B]]; [rewrite Rmin_left, Rmax_left by lra|].
      * rewrite Rmin_left in L by lra. unfold Rdiv. rewrite Rinv_r by lra. ring.
      * assert (x = 0 /\ y = 0) as [-> ->]. { split; apply Rle_antisym; auto; (eapply Rle_trans; [exact L|]); [apply Rmin_l|apply Rmin_r]. } rewrite Rmin_left, Rmax_left by lra. field.
  - assert (0 <= Rmax x y + Rabs (Rmax x y)) as N by (unfold Rabs; destruct (Rcase_abs (Rmax x y)); lra). split; [apply below1; lra|]. split.
    + intro E. apply quot1 in E; [|lra]. right. assert (Rmax x y <= 0) as M. { destruct (Rle_dec (Rmax x y) 0); [auto|]. rewrite Rabs_right in E by lra. lra. }
      split; (eapply Rle_trans; [|exact M]); [apply Rmax_l|apply Rmax_r].
    + intro D. assert (Rmax x y <= 0) as M. { destruct D as [->|[A B]]; [|apply Rmax_lub; auto]. rewrite Rmin_left in L by lra. rewrite Rmax_left by lra. lra. }
      replace (Rmax x y + Rabs (Rmax x y)) with 0; [field|]. rewrite Rabs_left1 by auto. ring.
Qed.
Lemma hass_value tiny p q : length p = length q -> distance tiny Hassanat p q = Ok (Some (sumn (length p) (fun i => hterm (nz p i) (nz q i)))).
Proof.
  intro HL. unfold distance. rewrite (collect_ok _ (fun i => Some (hterm (nz p i) (nz q i)))).
  - cbn [obind]. f_equal. rewrite osumR_some. auto.
  - intros i Hi. apply in_seq in Hi. unfold vget. rewrite (nth_error_nth' p 0) by lia. cbn [obind]. rewrite (nth_error_nth' q 0) by lia. f_equal. apply hterm_el.
Qed.
Lemma sumn_below n f : (forall i, (i < n)%nat -> f i <= 1) -> sumn n f <= INR n.
Proof. intro H. induction n as [|n IH]; [cbn; lra|]. rewrite S_INR. cbn [sumn]. specialize (H n ltac:(lia)) as Hn. assert (sumn n f <= INR n) by (apply IH; intros; apply H; lia). lra. Qed.

(** C28: on points of any sign the Hassanat functor is defined and symmetric, lies between zero and the number of coordinates,
    and is zero exactly when the coordinates that differ are at most zero in both points. *)
Lemma c28_hassanat_signs : forall (tiny : R) (p q : vec), length p = length q ->
  exists r, distance tiny Hassanat p q = Ok (Some r) /\ distance tiny Hassanat q p = Ok (Some r) /\ 0 <= r <= INR (length p) /\
    (r = 0 <-> forall i x y, nth_error p i = Some x -> nth_error q i = Some y -> x = y \/ (x <= 0 /\ y <= 0)).
Proof.
  intros tiny p q HL. eexists. split; [apply hass_value; auto|]. split.
  { rewrite hass_value by auto. rewrite <- HL. f_equal. f_equal. clear. generalize (length p). induction n as [|n IH]; [reflexivity|]. cbn [sumn]. now rewrite IH, hterm_sym. }
  split; [split; [apply sumn_nonneg; intros; apply hterm_ok|apply sumn_below; intros i _; destruct (hterm_ok (nz p i) (nz q i)) as [[_ A] _]; lra]|]. split.
  - intros E i x y Ex Ey. assert (i < length p)%nat as Hi by (apply nth_error_Some; congruence).
    pose proof (sumn_zero_inv (length p) (fun i => hterm (nz p i) (nz q i)) ltac:(intros; apply hterm_ok) E i Hi) as Z. cbn beta in Z. apply hterm_ok in Z.
    unfold nz in Z. rewrite (nth_error_nth _ _ _ Ex), (nth_error_nth _ _ _ Ey) in Z. exact Z.
  - intro H. apply sumn_zero. intros i Hi. apply hterm_ok. apply (H i); unfold nz; apply nth_error_nth'; lia.
Qed.
Lemma c28_hassanat_signs_ex : length [1; -2] = length [3; 1/2].
Proof. reflexivity. Qed.
(** C28: so different points can be at distance zero. *)
Lemma c28_hassanat_negative_refuted : forall tiny : R, exists p q : vec, length p = length q /\ p <> q /\ distance tiny Hassanat p q = Ok (Some 0).
Proof.
  intro tiny. exists [-5], [-1]. split; [reflexivity|]. split; [intro E; injection E; lra|]. destruct (c28_hassanat_signs tiny [-5] [-1] eq_refl) as (r & E & _ & _ & _ & Z). rewrite E. f_equal. f_equal. apply Z.
  intros [|[|i]] x y A B; try discriminate. injection A as <-. injection B as <-. right. lra.
Qed.
(** C28: and below zero the coordinate does not matter: against a positive coordinate every negative one is equally far. *)
Lemma c28_hassanat_flat : forall tiny x y : R, x < 0 -> 0 < y -> distance tiny Hassanat [x] [y] = Ok (Some (2 * y / (1 + 2 * y))).
Proof.
  intros tiny x y X Y. rewrite hass_value by auto. cbn [length sumn]. f_equal. f_equal. unfold nz. cbn [nth]. unfold hterm. rewrite Rmin_left, Rmax_right by lra. destruct (Rle_dec 0 x); [lra|]. rewrite Rabs_right by lra. field. lra.
Qed.
Lemma c28_hassanat_flat_ex : -3 < 0 /\ 0 < 2.
Proof. lra. Qed.
