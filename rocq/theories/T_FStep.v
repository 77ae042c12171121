(** C139: one update of the fixed-margin trainers. *)
From Coq Require Import ZArith Bool List Lia Reals Lra.
From Verif Require Import Base ListLib M_Data M_Point L_Vec Loop M_Kernel S_Kernel L_Kernel M_Perc S_Perc L_Perc L_Knn L_Smo M_Fixed S_Fixed L_Fixed S_FStep.
Import ListNotations.
Local Open Scope R_scope.

Lemma coord_sum n (g : R -> R) w j t : (j < n)%nat -> sumn n (fun i => g (with_coord w j t i)) = (sumn n (fun i => g (nz w i)) - g (nz w j)) + g t.
Proof.
  intro H. rewrite (sumn_change n (fun i => g (nz w i)) (fun i => g (with_coord w j t i)) j H).
  - unfold with_coord. rewrite Nat.eqb_refl. ring.
  - intros k Hk N. unfold with_coord. destruct (Nat.eqb_spec k j); [contradiction|reflexivity].
Qed.
Lemma sum_deriv n (g : R -> R) w j l : (j < n)%nat -> derivable_pt_lim g (nz w j) l -> derivable_pt_lim (fun t => sumn n (fun i => g (with_coord w j t i))) (nz w j) l.
Proof.
  intros H D. apply derivable_pt_lim_ext with (f := (fct_cte (sumn n (fun i => g (nz w i)) - g (nz w j)) + g)%F).
  - intro t. rewrite coord_sum by exact H. reflexivity.
  - replace l with (0 + l) by ring. apply derivable_pt_lim_plus; [apply derivable_pt_lim_const|exact D].
Qed.
Lemma sum_same n (g : R -> R) w j : sumn n (fun i => g (with_coord w j (nz w j) i)) = sumn n (fun i => g (nz w i)).
Proof. apply sumn_ext. intros i Hi. unfold with_coord. destruct (Nat.eqb_spec i j) as [->|]; reflexivity. Qed.
Lemma abs_deriv a : a <> 0 -> derivable_pt_lim Rabs a (fm_sign a).
Proof. intro H. unfold fm_sign. destruct (Rlt_dec a 0); [apply Rabs_derive_2; auto|apply Rabs_derive_1; lra]. Qed.
Lemma sq_deriv a : derivable_pt_lim (fun t => t * t) a (2 * a).
Proof. apply derivable_pt_lim_ext with (f := Rsqr); [reflexivity|apply derivable_pt_lim_Rsqr]. Qed.
Lemma sum_ge n (g : R -> R) w j : (j < n)%nat -> (forall a, 0 <= g a) -> g (nz w j) <= sumn n (fun i => g (nz w i)).
Proof.
  intros H P. induction n as [|n IH]; [lia|]. cbn [sumn]. assert (0 <= sumn n (fun i => g (nz w i))) by (apply sumn_nonneg; auto). specialize (P (nz w n)). destruct (Nat.eq_dec j n) as [->|]; [lra|]. specialize (IH ltac:(lia)). lra.
Qed.
Lemma sign_abs a : a <> 0 -> Rabs a * fm_sign a = a.
Proof. intro H. unfold fm_sign, Rabs. destruct (Rlt_dec a 0), (Rcase_abs a); lra. Qed.
Lemma pow_pos pw x q : power pw -> 0 < x -> 0 < pw x q.
Proof. intros (P & _) H. rewrite P by exact H. apply exp_pos. Qed.
Lemma pow_nonneg pw a q : power pw -> 0 < q -> 0 <= pw (Rabs a) q.
Proof. intros P Hq. destruct (Req_dec a 0) as [->|N]; [rewrite Rabs_R0; destruct P as (_ & P); rewrite P by exact Hq; lra|]. apply Rlt_le, pow_pos; auto. apply Rabs_pos_lt, N. Qed.
Lemma pow_deriv pw a q : power pw -> 0 < a -> derivable_pt_lim (fun t => pw t q) a (q * Rpower a (q - 1)).
Proof.
  intros (P & _) H. apply derivable_pt_lim_locally_ext with (f := fun t => Rpower t q) (a := 0) (b := a + 1); [lra| |apply derivable_pt_lim_power, H]. intros z Hz. symmetry. apply P. lra.
Qed.
Lemma powabs_deriv pw a q : power pw -> a <> 0 -> derivable_pt_lim (fun t => pw (Rabs t) q) a (q * Rpower (Rabs a) (q - 1) * fm_sign a).
Proof. intros P H. apply (derivable_pt_lim_comp Rabs (fun t => pw t q)); [apply abs_deriv, H|apply pow_deriv; auto; apply Rabs_pos_lt, H]. Qed.

(** C139: in the formulations with a differentiable norm (1-norm, 2-norm and q-norms of the weights), an update moves every weight that is not 0 by
    rate (y x_j - gamma dN/dw_j), N the norm of the weights before; a weight that is 0 moves by rate y x_j. The norm kept afterwards is that of the new weights. *)
Lemma c139_gradient : forall (pw : R -> R -> R) (kind : qnorm) (pr : params) (gamma eps : R) (d : data R) (y : R) (x : list R) (s : fstate) (w' : list R) (nm lw : R) (nn : nat),
  length (f_w s) = dim d -> length x = dim d -> kind <> L1 -> (forall q, kind = Lp q -> 0 < q /\ power pw) -> f_norm s = norm_at pw kind (dim d) (nz (f_w s)) ->
  fm_step pw kind pr gamma eps d y x s = Ok (w', nm, lw, nn) ->
  nm = norm_at pw kind (dim d) (nz w') /\ forall j, (j < dim d)%nat ->
    (nz (f_w s) j = 0 -> nz w' j = rate pr * (y * nz x j)) /\
    (nz (f_w s) j <> 0 -> exists g, derivable_pt_lim (fun t => norm_at pw kind (dim d) (with_coord (f_w s) j t)) (nz (f_w s) j) g /\ nz w' j = nz (f_w s) j + rate pr * (y * nz x j - gamma * g)).
Proof.
  intros pw kind pr gamma eps d y x s w' nm lw nn Lw Lx K1 KP EN E. set (n := dim d) in *. set (w := f_w s) in *.
  assert (forall v, nm = nm -> (forall a, a = 0 -> fm_lam (f_norm s) (v a) a = 0) /\ (forall a, a <> 0 -> 0 < f_norm s -> fm_lam (f_norm s) (v a) a = v a)) as FL.
  { intros v _. unfold fm_lam. split; intros a Ha; [subst a|intro Hn]; destruct (Rlt_dec 0 (f_norm s)); try reflexivity; try lra; [|]; destruct (Req_EM_T _ 0); try reflexivity; contradiction. }
  destruct kind as [| | |q]; [| |contradiction|]; cbn [fm_step] in E; rewrite (fm_loop_ok pr d) in E by auto; cbn [obind fst snd] in E; injection E as <- <- _ _; (split; [reflexivity|]); intros j Hj; rewrite nz_moved by exact Hj; fold n w.
  - (* sum of absolute values *) destruct (FL (fun a => gamma * fm_sign a) eq_refl) as (F0 & F1). split.
    + intro Z. rewrite (F0 _ Z), Z. ring.
    + intro NZ. exists (fm_sign (nz w j)). split; [apply (sum_deriv n Rabs); [exact Hj|apply abs_deriv, NZ]|]. rewrite F1; [reflexivity|exact NZ|]. rewrite EN. cbn [norm_at].
      apply Rlt_le_trans with (Rabs (nz w j)); [apply Rabs_pos_lt, NZ|]. apply (sum_ge n Rabs); [exact Hj|apply Rabs_pos].
  - (* 2-norm *) destruct (FL (fun a => a * gamma / f_norm s) eq_refl) as (F0 & F1). split.
    + intro Z. rewrite (F0 _ Z), Z. ring.
    + intro NZ. set (S2 := sumn n (fun i => nz w i * nz w i)). assert (0 < S2) as P.
      { apply Rlt_le_trans with (nz w j * nz w j); [apply Rsqr_pos_lt in NZ; exact NZ|]. apply (sum_ge n (fun a => a * a)); [exact Hj|]. intro a. apply Rle_0_sqr. }
      assert (f_norm s = sqrt S2) as Es by exact EN. pose proof (sqrt_lt_R0 S2 P) as Ps. exists (nz w j / f_norm s). split.
      * cbn [norm_at]. replace (nz w j / f_norm s) with (/ (2 * sqrt S2) * (2 * nz w j)) by (rewrite Es; field; lra).
        apply (derivable_pt_lim_comp (fun t => sumn n (fun i => with_coord w j t i * with_coord w j t i)) sqrt).
        { apply (sum_deriv n (fun a => a * a)); [exact Hj|apply sq_deriv]. }
        { rewrite (sum_same n (fun a => a * a)). apply derivable_pt_lim_sqrt, P. }
      * rewrite F1 by (auto; rewrite Es; exact Ps). unfold Rdiv. ring.
  - (* q-norm *) destruct (KP q eq_refl) as (Hq & PW). destruct (FL (fun a => a * gamma * pw (Rabs a) (q - 2) * pw (f_norm s) (1 - q)) eq_refl) as (F0 & F1). split.
    + intro Z. rewrite (F0 _ Z), Z. ring.
    + intro NZ. set (SQ := sumn n (fun i => pw (Rabs (nz w i)) q)). pose proof (Rabs_pos_lt _ NZ) as PA. assert (0 < SQ) as P.
      { apply Rlt_le_trans with (pw (Rabs (nz w j)) q); [apply pow_pos; auto|]. apply (sum_ge n (fun a => pw (Rabs a) q)); [exact Hj|]. intro a. apply pow_nonneg; auto. }
      assert (f_norm s = pw SQ (1 / q)) as Es by exact EN. assert (0 < f_norm s) as Pn by (rewrite Es; apply pow_pos; auto).
      exists (nz w j * pw (Rabs (nz w j)) (q - 2) * pw (f_norm s) (1 - q)). split.
      * cbn [norm_at]. assert (nz w j * pw (Rabs (nz w j)) (q - 2) * pw (f_norm s) (1 - q) = 1 / q * Rpower SQ (1 / q - 1) * (q * Rpower (Rabs (nz w j)) (q - 1) * fm_sign (nz w j))) as ->.
        { destruct PW as (PW & _). rewrite (PW (Rabs (nz w j))) by exact PA. rewrite (PW (f_norm s)) by exact Pn. rewrite Es, (PW SQ) by exact P. rewrite Rpower_mult. replace (1 / q * (1 - q)) with (1 / q - 1) by (field; lra).
          replace (q - 1) with (1 + (q - 2)) by ring. rewrite Rpower_plus, Rpower_1 by exact PA. rewrite <- (sign_abs (nz w j) NZ) at 1. field. lra. }
        apply (derivable_pt_lim_comp (fun t => sumn n (fun i => pw (Rabs (with_coord w j t i)) q)) (fun v => pw v (1 / q))).
        { apply (sum_deriv n (fun a => pw (Rabs a) q)); [exact Hj|apply powabs_deriv; auto]. }
        { rewrite (sum_same n (fun a => pw (Rabs a) q)). apply pow_deriv; auto. }
      * rewrite F1 by auto. ring.
Qed.

Definition top_shift (gamma : R) (s : fstate) (a : R) : R := if Rlt_dec 0 (f_norm s) then (if Req_EM_T a 0 then 0 else gamma * fm_sign a / INR (f_n s)) else 0.
Lemma near_ok eps a b : near eps a b = true <-> within eps a b.
Proof. unfold near, within. destruct (Req_EM_T a 0); [split; [discriminate|tauto]|]. destruct (Rlt_dec _ eps); split; try tauto; discriminate. Qed.
(** C139: in the formulation with the largest absolute weight, the update of a weight is rate (y x_j - gamma sign(w_j) / n) when its size is within the tolerance of the largest one kept, or none is kept,
    and rate y x_j for the other weights. The norm kept afterwards is the old size of the first weight or the new size of another one, and up to the tolerance it bounds all of these; the number kept
    is one more than the number of later weights whose new size is within the tolerance of it. *)
Lemma c139_largest : forall (pw : R -> R -> R) (pr : params) (gamma eps : R) (d : data R) (y : R) (x : list R) (s : fstate) (w' : list R) (nm lw : R) (nn : nat),
  length (f_w s) = dim d -> length x = dim d -> 0 < eps -> fm_step pw L1 pr gamma eps d y x s = Ok (w', nm, lw, nn) ->
  (forall j, (j < dim d)%nat -> nz (f_w s) j <> 0 -> 0 < f_norm s -> f_lw s = 0 \/ within eps (f_lw s) (nz (f_w s) j) -> nz w' j = nz (f_w s) j + rate pr * (y * nz x j - gamma * (if Rlt_dec (nz (f_w s) j) 0 then -1 else 1) / INR (f_n s))) /\
  (forall j, (j < dim d)%nat -> nz (f_w s) j = 0 \/ f_norm s <= 0 \/ (f_lw s <> 0 /\ ~ within eps (f_lw s) (nz (f_w s) j)) -> nz w' j = nz (f_w s) j + rate pr * (y * nz x j)) /\
  lw = nm /\ Rabs (nz (f_w s) 0) <= nm /\ (forall j, (0 < j < dim d)%nat -> Rabs (nz w' j) <= (1 + eps) * nm) /\
  exists p js, (p < dim d)%nat /\ (p = 0%nat /\ nm = Rabs (nz (f_w s) 0) \/ (0 < p)%nat /\ nm = Rabs (nz w' p)) /\
    NoDup js /\ (forall j, In j js <-> (p < j < dim d)%nat /\ within eps nm (nz w' j)) /\ nn = S (length js).
Proof.
  intros pw pr gamma eps d y x s w' nm lw nn Lw Lx He E. set (n := dim d) in *. set (w := f_w s) in *. cbn [fm_step] in E. fold w n in E.
  destruct (vget w 0) as [a0| |] eqn:V; cbn [obind] in E; try discriminate E. assert (0 < n)%nat as N0. { apply vget_Ok in V. assert (0 < length w)%nat by (apply nth_error_Some; congruence). lia. }
  rewrite vget_nz in V by lia. injection V as <-.
  set (nw := fun j => nz w j + rate pr * (y * nz x j - (if (if Req_EM_T (f_lw s) 0 then true else near eps (f_lw s) (nz w j)) then top_shift gamma s (nz w j) else 0))).
  destruct (ofold_seq (fm_coord1 pr gamma eps (f_norm s) (f_lw s) (f_n s) y x)
    (fun i (st : vec * R * nat) => let '(v, lt, nt) := st in length v = n /\ (forall j, (j < i)%nat -> nz v j = nw j) /\ (forall j, (i <= j)%nat -> nz v j = nz w j) /\
       Rabs (nz w 0) <= lt /\ (forall j, (0 < j < i)%nat -> Rabs (nw j) <= (1 + eps) * lt) /\
       exists p, (p < Nat.max 1 i)%nat /\ (p = 0%nat /\ lt = Rabs (nz w 0) \/ (0 < p)%nat /\ lt = Rabs (nw p)) /\ nt = S (length (filter (fun j => near eps lt (nw j)) (seq (S p) (i - S p))))) n (w, Rabs (nz w 0), 1%nat))
    as ([[w1 lt] nt] & E1 & L1' & A & _ & B0 & B2 & pp & Cp & B1 & Cn).
  - split; [exact Lw|]. split; [intros; lia|]. split; [auto|]. split; [lra|]. split; [intros; lia|]. exists 0%nat. split; [lia|]. split; [left; auto|]. reflexivity.
  - intros i [[v lt] nt] Hi (L & A & B & D0 & D2 & pp & Cp & D1 & Cn). unfold fm_coord1. rewrite vget_nz by lia. cbn [obind]. rewrite vget_nz by lia. cbn [obind]. cbv zeta. rewrite (B i) by lia.
    change (nz w i + rate pr * (y * nz x i - (if if Req_EM_T (f_lw s) 0 then true else near eps (f_lw s) (nz w i) then fm_lam (f_norm s) (gamma * fm_sign (nz w i) / INR (f_n s)) (nz w i) else 0))) with (nw i).
    destruct (vupd_lt i (fun _ => nw i) v ltac:(lia)) as (v2 & U & ->). cbn [obind]. pose proof (upd_length _ _ _ _ U) as L2.
    assert (length v2 = n) as L3 by lia. assert (forall j, (j < S i)%nat -> nz v2 j = nw j) as A2. { intros j Hj. destruct (Nat.eq_dec i j) as [<-|N]; [rewrite (nz_upd_same _ _ _ _ U); auto|]. rewrite (nz_upd_other _ _ _ _ _ U N). apply A. lia. }
    assert (forall j, (S i <= j)%nat -> nz v2 j = nz w j) as B2. { intros j Hj. rewrite (nz_upd_other _ _ _ _ _ U) by lia. apply B. lia. }
    assert (0 <= lt) as Plt by (pose proof (Rabs_pos (nz w 0)); lra). assert (forall a, 0 <= a -> a <= (1 + eps) * a) as Up by (intros a Ha; assert (0 <= eps * a) by (apply Rmult_le_pos; lra); lra).
    assert (forall q, (q < i)%nat -> seq (S q) (S i - S q) = seq (S q) (i - S q) ++ [i]) as STEP. { intros q Hq. replace (S i - S q)%nat with (S (i - S q)) by lia. rewrite seq_S. do 2 f_equal. lia. }
    destruct (Nat.ltb_spec 0 i) as [I0|I0].
    + destruct (near eps lt (nw i)) eqn:NR.
      * eexists. split; [reflexivity|]. split; [exact L3|]. split; [exact A2|]. split; [exact B2|]. split; [exact D0|]. split; [|exists pp; split; [lia|]; split; [exact D1|]; rewrite STEP, filter_app, app_length by lia; cbn [filter]; rewrite NR; cbn [length]; lia].
        intros j Hj. destruct (Nat.eq_dec j i) as [->|N]; [|apply D2; lia]. apply near_ok in NR. destruct NR as (Z & NR). assert (0 < lt) as Pl by lra. apply Rmult_lt_compat_r with (r := lt) in NR; [|exact Pl].
        unfold Rdiv in NR. rewrite Rmult_assoc, Rinv_l, Rmult_1_r in NR by lra. revert NR. unfold Rabs at 1. destruct (Rcase_abs _); lra.
      * destruct (Rlt_dec lt (Rabs (nw i))) as [Q|Q].
        { eexists. split; [reflexivity|]. split; [exact L3|]. split; [exact A2|]. split; [exact B2|]. split; [lra|]. split; [|exists i; split; [lia|]; split; [right; split; [lia|reflexivity]|]; rewrite Nat.sub_diag; reflexivity].
          intros j Hj. destruct (Nat.eq_dec j i) as [->|N]; [apply Up, Rabs_pos|]. specialize (D2 j ltac:(lia)). assert ((1 + eps) * lt <= (1 + eps) * Rabs (nw i)) by (apply Rmult_le_compat_l; lra). lra. }
        { eexists. split; [reflexivity|]. split; [exact L3|]. split; [exact A2|]. split; [exact B2|]. split; [exact D0|]. split; [|exists pp; split; [lia|]; split; [exact D1|]; rewrite STEP, filter_app, app_length by lia; cbn [filter]; rewrite NR; cbn [length]; lia].
          intros j Hj. destruct (Nat.eq_dec j i) as [->|N]; [|apply D2; lia]. specialize (Up lt Plt). lra. }
    + eexists. split; [reflexivity|]. split; [exact L3|]. split; [exact A2|]. split; [exact B2|]. split; [exact D0|]. split; [intros; lia|]. exists pp. split; [lia|]. split; [exact D1|]. assert (i = 0%nat) as -> by lia. assert (pp = 0%nat) as -> by lia. exact Cn.
  - rewrite E1 in E. cbn [obind] in E. injection E as <- <- <- <-.
    assert (forall j, (j < n)%nat -> nz w1 j = nw j) as A' by (intros; apply A; auto).
    split; [|split; [|split; [reflexivity|split; [exact B0|split; [|]]]]].
    + intros j Hj NZ PN T. rewrite A' by exact Hj. unfold nw. assert ((if Req_EM_T (f_lw s) 0 then true else near eps (f_lw s) (nz w j)) = true) as ->. { destruct (Req_EM_T (f_lw s) 0) as [|N]; [reflexivity|]. destruct T as [T|T]; [contradiction|]. apply near_ok, T. }
      unfold top_shift. destruct (Rlt_dec 0 (f_norm s)); [|contradiction]. destruct (Req_EM_T (nz w j) 0); [contradiction|]. reflexivity.
    + intros j Hj H. rewrite A' by exact Hj. unfold nw. assert ((if if Req_EM_T (f_lw s) 0 then true else near eps (f_lw s) (nz w j) then top_shift gamma s (nz w j) else 0) = 0) as ->; [|ring].
      unfold top_shift. destruct H as [H|[H|(H1 & H2)]].
      * rewrite H. destruct (Req_EM_T 0 0); [|lra]. destruct (Rlt_dec _ _); match goal with |- (if ?b then _ else _) = _ => destruct b end; reflexivity.
      * destruct (Rlt_dec 0 (f_norm s)); [lra|]. match goal with |- (if ?b then _ else _) = _ => destruct b end; reflexivity.
      * destruct (Req_EM_T (f_lw s) 0); [contradiction|]. destruct (near eps (f_lw s) (nz w j)) eqn:NR; [apply near_ok in NR; contradiction|reflexivity].
    + intros j Hj. rewrite A' by lia. apply B2. exact Hj.
    + exists pp, (filter (fun j => near eps lt (nw j)) (seq (S pp) (n - S pp))). split; [lia|]. split; [destruct B1 as [B1|(Q & B1)]; [left; exact B1|right; split; [exact Q|rewrite A' by lia; exact B1]]|]. split; [apply NoDup_filter, seq_NoDup|]. split; [|exact Cn].
      intro j. rewrite filter_In, in_seq, near_ok. split; [intros (H1 & H2); split; [lia|rewrite A' by lia; exact H2]|intros (H1 & H2); split; [lia|rewrite A' in H2 by lia; exact H2]].
Qed.
Definition step_data : data R := mkData [mkPoint [1; 2] 1%Z 1%Z 0] [] [0%Z] [] [] [] 1 2 false false false true.
Definition step_state (nm lw : R) : fstate := mkF [3; 4] 0 nm [0] [0%Z] 0 0 0 lw 1.
Lemma c139_gradient_ex : exists w' nm lw nn, fm_step Rpower L2 (mkParams 1 5 5) 1 (1 / 1000) step_data 1 [1; 2] (step_state 5 0) = Ok (w', nm, lw, nn) /\ 5 = norm_at Rpower L2 (dim step_data) (nz (f_w (step_state 5 0))) /\ dim step_data = 2%nat.
Proof.
  eexists _, _, _, _. split; [cbn [fm_step]; rewrite (fm_loop_ok (mkParams 1 5 5) step_data) by reflexivity; cbn [obind]; reflexivity|]. split; [|reflexivity]. cbn [norm_at dim step_data d_points p_x length sumn step_state f_w]. unfold nz. cbn [nth].
  replace (0 + 3 * 3 + 4 * 4) with (5 * 5) by ring. symmetry. apply sqrt_square. lra.
Qed.
Lemma c139_largest_ex : exists w' nm lw nn, fm_step Rpower L1 (mkParams 1 5 5) 1 (1 / 1000) step_data 1 [1; 2] (step_state 4 4) = Ok (w', nm, lw, nn) /\ within (1 / 1000) 4 4 /\ ~ within (1 / 1000) 4 3.
Proof.
  destruct (fm1_ok (mkParams 1 5 5) 1 (1 / 1000) step_data 4 4 1 1 [1; 2] [3; 4] (Rabs 3) eq_refl eq_refl) as (w' & lt & nt & E & _). exists w', lt, lt, nt. split; [cbn [fm_step step_state f_w f_norm f_lw f_n vget nth_error obind]; rewrite E; reflexivity|].
  unfold within. rewrite (Rabs_right 4), (Rabs_right 3), (Rabs_right (4 - 4)), (Rabs_right (4 - 3)) by lra. split; [split; lra|]. intros (_ & H). lra.
Qed.
