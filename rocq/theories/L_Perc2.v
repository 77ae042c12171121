(** The dual perceptron simulates the primal one. *)
From Coq Require Import ZArith Bool List Lia Reals Lra Psatz.
From Verif Require Import Base ListLib M_Data M_Point L_Vec Loop M_Kernel S_Kernel L_Kernel M_Perc L_Perc.
Import ListNotations.
Local Open Scope R_scope.

(** The data are visited in storage order. *)
Definition index_id (d : data R) : Prop := forall i, (i < size d)%nat -> nth_error (d_index d) i = Some (Z.of_nat i).
Lemma index_id_ok d : index_id d -> index_ok d.
Proof. intros H i Hi. exists i. auto. Qed.
Lemma index_id_vis d i : index_id d -> (i < size d)%nat -> vis d i = pt d i.
Proof. intros H Hi. unfold vis. rewrite (nth_error_nth _ _ 0%Z (H i Hi)), Nat2Z.id. auto. Qed.

Section Dual.
Variable pr : params.
Variable d : data R.
Hypothesis HR : rect d.
Hypothesis HI : index_id d.
Hypothesis HY : forall p, In p (d_points d) -> p_y p = 1%Z \/ p_y p = (-1)%Z.
Variable K : list (list R).
Hypothesis HK : forall i j, (i < size d)%nat -> (j < size d)%nat -> mget K i j = Ok (inner (dim d) (p_x (pt d i)) (p_x (pt d j))).
Local Notation n := (dim d).
Local Notation m := (size d).

(** The weight vector of [alpha]. *)
Definition comb (alpha : vec) (j : nat) : R := sumn m (fun i => nz alpha i * IZR (p_y (pt d i)) * nz (p_x (pt d i)) j).
(** Both trainers are in the same state. *)
Definition same (s : pstate) (t : dstate) : Prop :=
  length (ps_w s) = n /\ length (ds_alpha t) = m /\ (forall j, (j < n)%nat -> nz (ps_w s) j = comb (ds_alpha t) j) /\
  ps_b s = ds_b t /\ ps_norm s = ds_norm t /\ ps_norm s = sqrt (inner n (ps_w s) (ps_w s)) /\ ps_ctot s = ds_ctot t /\ ps_e s = ds_e t.

Lemma inner_comb w alpha x : (forall j, (j < n)%nat -> nz w j = comb alpha j) ->
  inner n w x = sumn m (fun i => nz alpha i * IZR (p_y (pt d i)) * inner n x (p_x (pt d i))).
Proof.
  intro H. unfold inner. rewrite (sumn_ext n _ (fun j => sumn m (fun i => nz alpha i * IZR (p_y (pt d i)) * nz (p_x (pt d i)) j * nz x j))).
  - rewrite sumn_swap. apply sumn_ext. intros i Hi. rewrite <- sumn_scal. apply sumn_ext. intros. ring.
  - intros j Hj. rewrite H by auto. unfold comb. rewrite <- sumn_scal_r. auto.
Qed.
Lemma dual_decision_ok i alpha b w : (i < m)%nat -> length alpha = m -> (forall j, (j < n)%nat -> nz w j = comb alpha j) ->
  dual_decision d K m i alpha b = Ok (score n w (p_x (pt d i)) b).
Proof.
  intros Hi Ha Hw. unfold dual_decision, score. rewrite Rplus_comm. rewrite (inner_comb w alpha) by auto.
  rewrite <- (fold_from_ok m (fun r => let* a := vget alpha r in let* q := vget (d_points d) r in let* v := mget K i r in Ok (a * IZR (p_y q) * v))).
  - apply ofold_ext. intros s r Hr. apply in_seq in Hr. rewrite vget_nz, vget_pt, HK by lia. reflexivity.
  - intros r Hr. rewrite vget_nz, vget_pt, HK by lia. reflexivity.
Qed.

Lemma comb_upd alpha al i e j : (i < m)%nat -> upd i (fun a => a + e) alpha = Some al -> comb al j = comb alpha j + e * IZR (p_y (pt d i)) * nz (p_x (pt d i)) j.
Proof.
  intros Hi U. unfold comb.
  rewrite (sumn_ext m _ (fun k => nz alpha k * IZR (p_y (pt d k)) * nz (p_x (pt d k)) j + (if Nat.eqb k i then e * IZR (p_y (pt d i)) * nz (p_x (pt d i)) j else 0))).
  - rewrite sumn_add. f_equal. clear - Hi. set (c := e * IZR (p_y (pt d i)) * nz (p_x (pt d i)) j). clearbody c. revert Hi. generalize m as q0. induction q0 as [|k IH]; intro L; [lia|]. cbn [sumn].
    destruct (Nat.eqb_spec k i) as [->|N].
    + rewrite sumn_zero; [ring|]. intros q Hq. destruct (Nat.eqb_spec q i); [lia|auto].
    + rewrite IH by lia. ring.
  - intros k Hk. destruct (Nat.eqb_spec k i) as [->|N].
    + rewrite (nz_upd_same _ _ _ _ U). ring.
    + rewrite (nz_upd_other _ _ _ _ _ U) by auto. ring.
Qed.

Lemma dpass_same steps : forall is s t, (forall i, In i is -> (i < m)%nat) -> same s t ->
  exists s' t', ppass pr d steps is s = Ok s' /\ dpass pr d K steps is t = Ok t' /\ same s' t'.
Proof.
  induction is as [|i r IH]; intros s t Hin HS; [exists s, t; auto|].
  assert (i < m)%nat as Hi by (apply Hin; left; auto). assert (forall j, In j r -> (j < m)%nat) as Hr by (intros; apply Hin; right; auto).
  pose proof HS as (Lw & La & W & Bq & Nq & Nn & Cq & Eq).
  rewrite (ppass_step pr d HR (index_id_ok d HI)) by auto. rewrite (index_id_vis d i HI Hi).
  cbn [dpass]. rewrite vget_pt by auto. cbn [obind]. rewrite (dual_decision_ok i (ds_alpha t) (ds_b t) (ps_w s)) by auto. cbn [obind].
  unfold fscore. rewrite Bq. destruct (Rle_dec _ 0) as [L|L].
  - rewrite HK by auto. cbn [obind]. destruct (vupd_lt i (fun a => a + rate pr) (ds_alpha t) ltac:(lia)) as (al & U & ->). cbn [obind].
    apply IH; auto. unfold pupdate. set (p := pt d i) in *. set (y := IZR (p_y p)) in *.
    assert (forall j, (j < n)%nat -> nz (vadd n (ps_w s) (rate pr * y) (p_x p)) j = comb al j) as W'.
    { intros j Hj. rewrite nz_vadd by auto. rewrite (comb_upd _ _ _ _ j Hi U). rewrite W by auto. reflexivity. }
    assert (y * y = 1) as Y2 by (unfold y; destruct (HY p (nth_In _ _ Hi)) as [->| ->]; lra).
    repeat split; cbn [ps_w ps_b ps_norm ps_ctot ps_e ds_alpha ds_b ds_norm ds_ctot ds_e]; auto.
    + apply vadd_length.
    + rewrite (upd_length _ _ _ _ U). auto.
    + rewrite Bq. auto.
    + f_equal. rewrite inner_vadd_self. rewrite <- Nq, Nn. rewrite sqrt_sqrt by (apply sumn_nonneg; intros; apply Rle_0_sqr).
      unfold score. replace (rate pr * y * (rate pr * y)) with (rate pr * rate pr * (y * y)) by ring. rewrite Y2. ring.
  - rewrite Eq. destruct (Nat.ltb 0 steps && Nat.ltb 1 (ds_e t)); [exists s, t; auto|]. apply IH; auto.
Qed.

Lemma dloop_same clk : forall fuel k steps s t, same s t ->
  (exists s' t' st, ploop pr d clk fuel k steps s = Ok (Some (s', st)) /\ dloop pr d K clk fuel k steps t = Ok (Some (t', st)) /\ same s' t') \/
  (ploop pr d clk fuel k steps s = Ok None /\ dloop pr d K clk fuel k steps t = Ok None).
Proof.
  induction fuel as [|fuel IH]; intros k steps s t HS; cbn [ploop dloop]; destruct (clk k); try (left; exists s, t, steps; auto; fail); auto.
  destruct (dpass_same steps (seq 0 m) (mkP (ps_w s) (ps_b s) (ps_norm s) (ps_ctot s) 0) (mkD (ds_alpha t) (ds_b t) (ds_norm t) (ds_ctot t) 0)) as (s' & t' & -> & -> & HS').
  - apply in_positions.
  - destruct HS as (A & B & C & D & E & F & G & _). repeat split; auto.
  - cbn [obind]. pose proof HS' as (_ & _ & _ & _ & _ & _ & Cq & Eq). rewrite Eq, Cq.
    destruct (_ || _ || _); [left; exists s', t', (S steps); auto|]. apply IH; auto.
Qed.

Lemma dual_w_ok alpha w0 : length alpha = m -> length w0 = n ->
  exists w, dual_w d alpha w0 = Ok w /\ length w = n /\ forall j, (j < n)%nat -> nz w j = nz w0 j + comb alpha j.
Proof.
  intros La L0. unfold dual_w.
  destruct (ofold_seq (fun w i => ofold (fun w j => let* a := vget alpha i in let* p := vget (d_points d) i in let* v := vget (p_x p) j in
                      aupd j (fun c => c + a * IZR (p_y p) * v) w) (seq 0 n) w)
     (fun i w => length w = n /\ forall j, (j < n)%nat -> nz w j = nz w0 j + sumn i (fun i => nz alpha i * IZR (p_y (pt d i)) * nz (p_x (pt d i)) j)) m w0) as (w & E & L & W).
  - split; auto. intros. cbn. ring.
  - intros i w Hi (L & W).
    destruct (ofold_seq (fun w j => let* a := vget alpha i in let* p := vget (d_points d) i in let* v := vget (p_x p) j in aupd j (fun c => c + a * IZR (p_y p) * v) w)
      (fun k w' => length w' = n /\ (forall j, (j < k)%nat -> nz w' j = nz w j + nz alpha i * IZR (p_y (pt d i)) * nz (p_x (pt d i)) j) /\ (forall j, (k <= j)%nat -> nz w' j = nz w j)) n w) as (w' & E & L' & W' & _).
    + repeat split; auto. intros; lia.
    + intros j w1 Hj (L1 & A & B). rewrite vget_nz by lia. cbn [obind]. rewrite vget_pt by auto. cbn [obind]. rewrite vget_nz by (rewrite rect_pt; auto). cbn [obind].
      destruct (aupd_lt j (fun c => c + nz alpha i * IZR (p_y (pt d i)) * nz (p_x (pt d i)) j) w1 ltac:(lia)) as (w2 & -> & U). exists w2. split; auto.
      split; [rewrite (upd_length _ _ _ _ U); auto|]. split.
      * intros q Hq. destruct (Nat.eq_dec j q) as [<-|N]; [rewrite (nz_upd_same _ _ _ _ U), (B j) by lia; auto|]. rewrite (nz_upd_other _ _ _ _ _ U N). apply A. lia.
      * intros q Hq. rewrite (nz_upd_other _ _ _ _ _ U) by lia. apply B. lia.
    + exists w'. split; auto. split; auto. intros j Hj. cbn [sumn]. rewrite W', W by auto. ring.
  - exists w. split; auto.
Qed.
End Dual.

(** A kernel freshly computed with the inner product. *)
Lemma inner_kernel pw k d : k_type k = InnerProduct -> k_computed k = false -> rect d ->
  exists k', compute pw k d None = Ok k' /\ forall i j, (i < size d)%nat -> (j < size d)%nat -> mget (k_K k') i j = Ok (inner (dim d) (p_x (pt d i)) (p_x (pt d j))).
Proof.
  intros HT HC HR. destruct (compute_ok pw k d None (fun _ _ _ => 0) HC HR) as (k' & E & _ & _ & _ & _ & _ & M); [rewrite HT; discriminate|].
  exists k'. split; auto. intros i j Hi Hj. apply mirrors_table in M.
  - rewrite M, mget_table by auto. rewrite HT. reflexivity.
  - intros. apply kval_sym. rewrite HT. discriminate.
Qed.

(** ** The dual perceptron with any kernel *)
Section AnyKernel.
Variable pr : params.
Variable d : data R.
Variable K : list (list R).
Variable kf : nat -> nat -> R.
Hypothesis HK : forall i j, (i < size d)%nat -> (j < size d)%nat -> mget K i j = Ok (kf i j).
Local Notation m := (size d).

Definition dvalue (t : dstate) (i : nat) : R := ds_b t + sumn m (fun r => nz (ds_alpha t) r * IZR (p_y (pt d r)) * kf i r).
Definition dyf (t : dstate) (i : nat) : R := IZR (p_y (pt d i)) * dvalue t i.
Definition dnorm (t : dstate) (i : nat) : R :=
  sqrt (ds_norm t * ds_norm t + 2 * rate pr * IZR (p_y (pt d i)) * (dvalue t i - ds_b t) + rate pr * rate pr * kf i i).

Lemma dpass_step steps i r t : (i < m)%nat -> length (ds_alpha t) = m -> exists al, upd i (fun a => a + rate pr) (ds_alpha t) = Some al /\
  dpass pr d K steps (i :: r) t =
    if Rle_dec (dyf t i) 0 then dpass pr d K steps r (mkD al (ds_b t + rate pr * IZR (p_y (pt d i))) (dnorm t i) (S (ds_ctot t)) (S (ds_e t)))
    else if Nat.ltb 0 steps && Nat.ltb 1 (ds_e t) then Ok t else dpass pr d K steps r t.
Proof.
  intros Hi La. destruct (vupd_lt i (fun a => a + rate pr) (ds_alpha t) ltac:(lia)) as (al & U & EU). exists al. split; auto.
  cbn [dpass]. rewrite vget_pt by auto. cbn [obind].
  assert (dual_decision d K m i (ds_alpha t) (ds_b t) = Ok (dvalue t i)) as ->.
  { unfold dual_decision, dvalue. rewrite <- (fold_from_ok m (fun r => let* a := vget (ds_alpha t) r in let* q := vget (d_points d) r in let* v := mget K i r in Ok (a * IZR (p_y q) * v))).
    - apply ofold_ext. intros s q Hq. apply in_seq in Hq. rewrite vget_nz, vget_pt, HK by lia. reflexivity.
    - intros q Hq. rewrite vget_nz, vget_pt, HK by lia. reflexivity. }
  cbn [obind]. unfold dyf. destruct (Rle_dec _ 0); auto. rewrite HK by auto. cbn [obind]. rewrite EU. reflexivity.
Qed.

Lemma dpass_clean steps : forall is t, (forall i, In i is -> (i < m)%nat) -> length (ds_alpha t) = m ->
  exists t', dpass pr d K steps is t = Ok t' /\ length (ds_alpha t') = m /\ (ds_e t <= ds_e t')%nat /\
  (ds_e t' = ds_e t -> t' = t) /\ (ds_e t' = O -> forall i, In i is -> 0 < dyf t i).
Proof.
  induction is as [|i r IH]; intros t Hin La.
  - exists t. cbn. repeat split; auto. intros _ i [].
  - assert (i < m)%nat as Hi by (apply Hin; left; auto). assert (forall j, In j r -> (j < m)%nat) as Hr by (intros; apply Hin; right; auto).
    destruct (dpass_step steps i r t Hi La) as (al & U & ->). destruct (Rle_dec _ 0) as [L|L].
    + destruct (IH (mkD al (ds_b t + rate pr * IZR (p_y (pt d i))) (dnorm t i) (S (ds_ctot t)) (S (ds_e t))) Hr) as (t' & E & La' & A & B & C).
      { cbn [ds_alpha]. rewrite (upd_length _ _ _ _ U). auto. }
      cbn [ds_e] in *. exists t'. repeat split; auto; intros; try lia.
    + destruct (Nat.ltb 0 steps && Nat.ltb 1 (ds_e t)) eqn:BR.
      * exists t. repeat split; auto. intro Z. apply andb_prop in BR. destruct BR as [_ BR]. apply Nat.ltb_lt in BR. lia.
      * destruct (IH t Hr La) as (t' & E & La' & A & B & C). exists t'. repeat split; auto. intros Z j [<-|Hj]; [lra|]. apply C; auto.
Qed.

Lemma dloop_success clk : forall fuel k steps t, length (ds_alpha t) = m -> (max_it pr < steps + fuel)%nat -> (1 <= fuel)%nat -> (clk k = true \/ ds_e t <> O) ->
  exists t' st, dloop pr d K clk fuel k steps t = Ok (Some (t', st)) /\ length (ds_alpha t') = m /\ (ds_e t' = O -> forall i, (i < m)%nat -> 0 < dyf t' i).
Proof.
  induction fuel as [|fuel IH]; intros k steps t La HF F1 HC; [lia|]. cbn [dloop]. destruct (clk k) eqn:CK.
  - destruct (dpass_clean steps (seq 0 m) (mkD (ds_alpha t) (ds_b t) (ds_norm t) (ds_ctot t) 0)) as (t' & E & La' & A & B & C); auto.
    { intros i Hi. apply in_seq in Hi. lia. }
    cbn [ds_e] in *. rewrite E. cbn [obind].
    destruct (Nat.eqb (ds_e t') 0 || Nat.ltb (max_it pr) (S steps) || Nat.ltb (max_up pr) (ds_ctot t')) eqn:ST.
    + exists t', (S steps). split; auto. split; auto. intros Z i Hi. rewrite (B Z). apply C; auto. apply in_seq. lia.
    + apply orb_false_iff in ST. destruct ST as [ST _]. apply orb_false_iff in ST. destruct ST as [S1 S2]. apply Nat.eqb_neq in S1. apply Nat.ltb_ge in S2.
      apply IH; auto; lia.
  - exists t, steps. split; auto. split; auto. intro Z. destruct HC; congruence.
Qed.
End AnyKernel.
