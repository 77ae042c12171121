(** Lemmas about the incremental margin algorithm. *)
From Coq Require Import ZArith Bool List Lia Reals Lra Psatz Permutation.
From Verif Require Import Base ListLib M_Data M_Point L_Vec Loop M_Kernel S_Kernel L_Kernel M_Perc S_Perc L_Perc L_Knn L_Smo M_Fixed S_Fixed L_Fixed T_Fixed M_Ima.
Import ListNotations.
Local Open Scope R_scope.

Section Pass.
Variable pw : R -> R -> R.
Variable kind : qnorm.
Variable pr : params.
Variable gamma flex eps : R.
Variable d : data R.
Hypothesis HR : rect d.
Hypothesis HQ : kind = L1 -> (0 < dim d)%nat.
Local Notation n := (dim d).
Local Notation m := (size d).
Local Notation fp := (fpass pw kind pr gamma flex eps d).
Local Notation ip := (ipass pw kind pr gamma flex eps d).

(** ipass does what fpass does, and also records the values. *)
Lemma ipass_proj steps : forall is s func, length func = m -> exists func', length func' = m /\ ip steps is s func = (let* s' := fp steps is s in Ok (s', func')).
Proof using.
  clear HR HQ. induction is as [|i r IH]; intros s func Lf; [exists func; auto|]. cbn [ipass fpass].
  destruct (vget (f_index s) i) as [z| |]; cbn [obind]; try (exists func; auto; fail).
  destruct (zidx z) as [idx| |]; cbn [obind]; try (exists func; auto; fail).
  destruct (vget (d_points d) idx) as [p| |] eqn:EP; cbn [obind]; try (exists func; auto; fail).
  assert (idx < length func)%nat as Hx by (apply vget_Ok in EP; rewrite Lf; apply nth_error_Some; congruence).
  destruct (fm_decision d (f_w s) (p_x p) (f_b s)) as [f| |]; cbn [obind]; try (exists func; auto; fail).
  destruct (vupd_lt idx (fun _ => f) func Hx) as (func1 & U & ->). cbn [obind]. assert (length func1 = m) as L1' by (rewrite (upd_length _ _ _ _ U); auto).
  destruct (vget (f_al s) idx) as [al| |]; cbn [obind]; try (exists func; auto; fail). cbv zeta.
  destruct (Rle_dec _ _).
  - destruct (fm_step pw kind pr gamma eps d (IZR (p_y p)) (p_x p) s) as [[[[w' nm] lw] nn]| |]; cbn [obind]; try (exists func; auto; fail).
    destruct (vupd idx _ (map _ _)) as [al2| |]; cbn [obind]; try (exists func; auto; fail).
    destruct (vget (f_index s) _) as [j| |]; cbn [obind]; try (exists func; auto; fail).
    destruct (vupd _ (fun _ => z) (f_index s)) as [ix1| |]; cbn [obind]; try (exists func; auto; fail).
    destruct (vupd i (fun _ => j) ix1) as [ix2| |]; cbn [obind]; try (exists func; auto; fail).
    apply IH. exact L1'.
  - destruct (_ && _ && _); [exists func1; auto|]. apply IH. exact L1'.
Qed.

(** The value recorded for a point. *)
Local Notation val s idx := (inner n (f_w s) (p_x (pt d idx)) + f_b s).
Lemma ipass_clean steps : forall k i s func s' func', (i + k <= m)%nat -> ready d i s -> length func = m -> ip steps (seq i k) s func = Ok (s', func') -> f_e s' = 0%nat ->
  (forall idx, (idx < m)%nat -> nz func idx = val s idx -> nz func' idx = val s idx) /\
  (forall j idx, (i <= j < i + k)%nat -> vget (f_index s) j = Ok (Z.of_nat idx) -> nz func' idx = val s idx).
Proof using HR HQ.
  induction k as [|k IH]; intros i s func s' func' Hk Hs Lf E Z.
  - injection E as <- <-. split; auto. intros; lia.
  - cbn [seq] in E. pose proof E as E0.
    destruct (ipass_proj steps (i :: seq (S i) k) s func Lf) as (f1 & _ & EP). rewrite EP in E0.
    destruct (fp steps (i :: seq (S i) k) s) as [s1| |] eqn:EF; cbn [obind] in E0; try discriminate. injection E0 as -> ->.
    destruct (fpass_clean pw kind pr gamma flex eps d HR HQ steps (S k) i s s' Hk Hs EF) as (_ & Cl). destruct (Cl Z) as [-> NW]. clear EP EF Cl.
    destruct Hs as (Lw & La & P & He). destruct (perm_get d _ i P ltac:(lia)) as (idx & V & Hx). cbn [ipass] in E. rewrite V in E. cbn [obind] in E. rewrite zidx_nat in E. cbn [obind] in E. rewrite vget_pt in E by exact Hx. cbn [obind] in E.
    rewrite (fm_decision_ok d (f_w s) (p_x (pt d idx)) (f_b s) Lw (rect_pt _ _ HR Hx)) in E. cbn [obind] in E.
    destruct (vupd_lt idx (fun _ => val s idx) func ltac:(lia)) as (func1 & U & EU). rewrite EU in E. cbn [obind] in E. assert (length func1 = m) as L1' by (rewrite (upd_length _ _ _ _ U); auto).
    rewrite (vget_nz (f_al s)) in E by lia. cbn [obind] in E. cbv zeta in E.
    destruct (Rle_dec _ _) as [L|L]; [exfalso; apply (NW i idx ltac:(lia) V); unfold fwrong, yf; exact L|].
    rewrite Z in E. cbn [Nat.ltb Nat.leb] in E. rewrite andb_false_r in E. cbn [andb] in E.
    assert (ready d (S i) s) as Hs2 by (repeat split; auto).
    destruct (IH (S i) s func1 s func' ltac:(lia) Hs2 L1' E Z) as (A & B).
    assert (nz func1 idx = val s idx) as F1 by (apply (nz_upd_same _ _ _ _ U)).
    split.
    + intros j Hj Fj. apply A; auto. destruct (Nat.eq_dec j idx) as [->|N]; [exact F1|]. rewrite (nz_upd_other _ _ _ _ _ U) by auto. exact Fj.
    + intros j jdx Hj Vj. destruct (Nat.eq_dec j i) as [->|N]; [|apply (B j); auto; lia]. rewrite V in Vj. injection Vj as Vj. apply Nat2Z.inj in Vj. subst jdx. apply A; auto.
Qed.

Lemma perm_pos l idx : Permutation l (map Z.of_nat (seq 0 m)) -> (idx < m)%nat -> exists j, (j < m)%nat /\ vget l j = Ok (Z.of_nat idx).
Proof using.
  clear HQ HR. intros P Hx. assert (In (Z.of_nat idx) l) as I. { apply (Permutation_in _ (Permutation_sym P)). apply in_map. apply in_seq. lia. }
  apply In_nth_error in I. destruct I as (j & Ej). exists j. split; [|unfold vget; rewrite Ej; reflexivity].
  assert (j < length l)%nat as L by (apply nth_error_Some; congruence). rewrite (Permutation_length P), map_length, seq_length in L. exact L.
Qed.

(** What holds of the state and the values when no mistake was made in the last pass. *)
Definition settled (s : fstate) (func : vec) : Prop :=
  forall idx, (idx < m)%nat -> gamma * f_norm s - nz (f_al s) idx * flex < yf d (f_w s) (f_b s) (pt d idx) /\ nz func idx = val s idx.

Lemma iloop_inv (Q : fstate -> Prop) clk flag : (forall idx s s', (idx < m)%nat -> length (f_w s) = n -> length (f_al s) = m -> Q s -> fupdated pw kind pr gamma eps d idx s s' -> Q s') -> (forall s, Q s -> Q (f_reset s)) ->
  forall fuel k steps s func, (max_it pr < steps + fuel)%nat -> (1 <= fuel)%nat -> length (f_w s) = n -> length (f_al s) = m -> Permutation (f_index s) (map Z.of_nat (seq 0 m)) -> f_e s <> 0%nat -> length func = m -> Q s ->
  exists s' func' st, iloop pw kind pr gamma flex eps d clk flag fuel k steps s func = Ok (Some (s', func', st)) /\
    length (f_w s') = n /\ length (f_al s') = m /\ Permutation (f_index s') (map Z.of_nat (seq 0 m)) /\ length func' = m /\ Q s' /\ (f_e s' = 0%nat -> settled s' func').
Proof using HR HQ.
  intros H HRs. induction fuel as [|fuel IH]; intros k steps s func HF F1 Lw La P He Lf Q0; [lia|]. cbn [iloop]. destruct (clk k) eqn:CK.
  2: { exists s, func, steps. split; [reflexivity|]. repeat match goal with |- _ /\ _ => split end; auto. intro; contradiction. }
  assert (ready d 0 (f_reset s)) as Hs by (repeat split; auto).
  destruct (fpass_inv pw kind pr gamma flex eps d HR HQ Q steps H m 0 (f_reset s) ltac:(lia) Hs (HRs s Q0)) as (s1 & E & (Lw1 & La1 & P1 & _) & Q1).
  destruct (ipass_proj steps (seq 0 m) (f_reset s) func Lf) as (func1 & Lf1 & EI). rewrite E in EI. cbn [obind] in EI. rewrite EI. cbn [obind].
  destruct (Nat.eqb (f_e s1) 0) eqn:Z1.
  - cbn [orb]. exists s1, func1, (S steps). split; [reflexivity|]. repeat match goal with |- _ /\ _ => split end; auto. intro Z.
    destruct (fpass_clean pw kind pr gamma flex eps d HR HQ steps m 0 (f_reset s) s1 ltac:(lia) Hs E) as (_ & Cl). destruct (Cl Z) as (-> & W).
    destruct (ipass_clean steps m 0 (f_reset s) func (f_reset s) func1 ltac:(lia) Hs Lf EI Z) as (_ & F).
    intros idx Hx. destruct (perm_pos (f_index (f_reset s)) idx P1 Hx) as (j & Hj & V). split; [|apply (F j); auto; lia].
    apply Rnot_le_lt. exact (W j idx ltac:(lia) V).
  - cbn [orb]. apply Nat.eqb_neq in Z1. destruct (_ || _ || _) eqn:ST.
    + exists s1, func1, (S steps). split; [reflexivity|]. repeat match goal with |- _ /\ _ => split end; auto. intro; contradiction.
    + apply orb_false_iff in ST. destruct ST as [ST _]. apply orb_false_iff in ST. destruct ST as [ST _]. apply Nat.ltb_ge in ST.
      destruct (IH (S k) (S steps) s1 func1 ltac:(lia) ltac:(lia) Lw1 La1 P1 Z1 Lf1 Q1) as (s2 & f2 & st & E2 & R2). exists s2, f2, st. split; [exact E2|exact R2].
Qed.

Lemma itrain_inv (Q : fstate -> Prop) clk flag steps s : (forall idx s s', (idx < m)%nat -> length (f_w s) = n -> length (f_al s) = m -> Q s -> fupdated pw kind pr gamma eps d idx s s' -> Q s') ->
  (forall s, Q s -> Q (f_reset s)) -> f_w s = [] \/ length (f_w s) = n -> length (f_al s) = m -> Permutation (f_index s) (map Z.of_nat (seq 0 m)) ->
  Q (mkF (match f_w s with [] => repeat 0 n | _ :: _ => f_w s end) (f_b s) (f_norm s) (f_al s) (f_index s) 0 1 (f_ctot s) (f_lw s) (f_n s)) ->
  exists s' func' st, itrain pw kind pr gamma flex eps d clk flag steps s = Ok (Some (s', func', st, Nat.eqb (f_e s') 0)) /\
    length (f_w s') = n /\ length (f_al s') = m /\ Permutation (f_index s') (map Z.of_nat (seq 0 m)) /\ length func' = m /\ Q s' /\ (f_e s' = 0%nat -> settled s' func').
Proof using HR HQ.
  intros A B W L P Q0. unfold itrain.
  destruct (iloop_inv Q clk flag A B (S (max_it pr)) 0 steps (mkF (match f_w s with [] => repeat 0 n | _ :: _ => f_w s end) (f_b s) (f_norm s) (f_al s) (f_index s) 0 1 (f_ctot s) (f_lw s) (f_n s)) (repeat 0 m)) as (s1 & func1 & st & E & R1); auto; try lia.
  - exact (start_length d (f_w s) W).
  - cbn. lia.
  - apply repeat_length.
  - exists s1, func1, st. split; [|exact R1]. cbv zeta. destruct (f_w s); rewrite E; reflexivity.
Qed.
End Pass.

(** The norm kept is never negative, in every formulation. *)
Lemma step_norm_nonneg pw kind pr gamma eps d idx s s' : (kind = L1 -> (0 < dim d)%nat) -> (forall x q, 0 <= pw x q) -> fupdated pw kind pr gamma eps d idx s s' -> 0 <= f_norm s'.
Proof.
  intros HQ HP (E & Hn & _). destruct kind.
  - rewrite (Hn ltac:(discriminate)). apply sumn_nonneg. intros. apply Rabs_pos.
  - rewrite (Hn ltac:(discriminate)). apply euclid_nonneg.
  - cbn [fm_step] in E. destruct (vget (f_w s) 0) as [a0| |]; cbn [obind] in E; try discriminate.
    match type of E with context [ofold ?f ?l ?x] => destruct (ofold f l x) as [[[w' lt] nt]| |] eqn:EO end; cbn [obind] in E; try discriminate.
    injection E as _ <- _ _.
    assert (forall l (st st' : vec * R * nat), 0 <= snd (fst st) -> ofold (fm_coord1 pr gamma eps (f_norm s) (f_lw s) (f_n s) (IZR (p_y (pt d idx))) (p_x (pt d idx))) l st = Ok st' -> 0 <= snd (fst st')) as G.
    { induction l as [|j l IH]; intros [[w lt0] nt0] st' H0 EO'; [injection EO' as <-; exact H0|]. cbn [ofold] in EO'.
      destruct (fm_coord1 pr gamma eps (f_norm s) (f_lw s) (f_n s) (IZR (p_y (pt d idx))) (p_x (pt d idx)) (w, lt0, nt0) j) as [st1| |] eqn:E1; cbn [obind] in EO'; try discriminate.
      apply (IH st1); auto. unfold fm_coord1 in E1. cbn [fst snd] in *.
      destruct (vget w j) as [a| |]; cbn [obind] in E1; try discriminate. destruct (vget (p_x (pt d idx)) j) as [v| |]; cbn [obind] in E1; try discriminate. cbv zeta in E1.
      match type of E1 with context [vupd j ?f w] => destruct (vupd j f w) as [w1| |] end; cbn [obind] in E1; try discriminate.
      destruct (Nat.ltb 0 j); [|injection E1 as <-; exact H0]. destruct (near _ _ _); [injection E1 as <-; exact H0|]. destruct (Rlt_dec _ _); injection E1 as <-; cbn [fst snd]; [apply Rabs_pos|exact H0]. }
    exact (G _ _ _ (Rabs_pos a0 : 0 <= snd (fst (f_w s, Rabs a0, 1%nat))) EO).
  - rewrite (Hn ltac:(discriminate)). cbn. apply HP.
Qed.

(** The scan. *)
Lemma scan_ok big flex norm d func al : length func = size d -> length al = size d ->
  let v i := (nz func i + IZR (p_y (pt d i)) * nz al i * flex) / norm in
  exists mn mx, ima_scan big flex norm d func al = Ok (mn, mx) /\
    (norm = 0 -> mn = big /\ mx = - big) /\
    (0 < norm -> mn <= big /\ - big <= mx /\
      (forall i, (i < size d)%nat -> 0 <= v i -> mn <= v i) /\ (forall i, (i < size d)%nat -> v i < 0 -> v i <= mx) /\
      (mn = big \/ exists i, (i < size d)%nat /\ 0 <= v i /\ mn = v i) /\ (mx = - big \/ exists i, (i < size d)%nat /\ v i < 0 /\ mx = v i)).
Proof.
  intros Lf La v. unfold ima_scan.
  destruct (ofold_seq (fun mm i =>
    let* p := vget (d_points d) i in let* f := vget func i in let* a := vget al i in
    let v := (f + IZR (p_y p) * a * flex) in
    Ok (if Req_EM_T norm 0 then mm
        else if Rle_dec 0 v then (if Rlt_dec (v / norm) (fst mm) then (v / norm, snd mm) else mm)
        else (if Rlt_dec (snd mm) (v / norm) then (fst mm, v / norm) else mm)))
    (fun k (mm : R * R) => (norm = 0 -> mm = (big, - big)) /\ (0 < norm -> fst mm <= big /\ - big <= snd mm /\
      (forall i, (i < k)%nat -> 0 <= v i -> fst mm <= v i) /\ (forall i, (i < k)%nat -> v i < 0 -> v i <= snd mm) /\
      (fst mm = big \/ exists i, (i < k)%nat /\ 0 <= v i /\ fst mm = v i) /\ (snd mm = - big \/ exists i, (i < k)%nat /\ v i < 0 /\ snd mm = v i))) (size d) (big, - big)) as ([mn mx] & E & H0 & H1).
  - split; [auto|]. intros _. cbn [fst snd]. repeat match goal with |- _ /\ _ => split end; try lra; try (intros; lia); auto.
  - intros k [mn mx] Hk (A & B). rewrite vget_pt by auto. cbn [obind]. rewrite !vget_nz by lia. cbn [obind]. eexists. split; [reflexivity|].
    destruct (Req_EM_T norm 0) as [Z|Z]; [split; [auto|intro; lra]|]. split; [intro; contradiction|]. intro PN. specialize (B PN). cbn [fst snd] in *.
    change (nz func k + IZR (p_y (pt d k)) * nz al k * flex) with (nz func k + IZR (p_y (pt d k)) * nz al k * flex).
    set (u := nz func k + IZR (p_y (pt d k)) * nz al k * flex). assert (v k = u / norm) as Vk by reflexivity.
    assert (0 <= u <-> 0 <= u / norm) as SG.
    { unfold Rdiv. pose proof (Rinv_0_lt_compat _ PN). split; intro; [apply Rmult_le_pos; lra|]. replace u with (u * / norm * norm) by (field; lra). apply Rmult_le_pos; lra. }
    destruct B as (B1 & B2 & B3 & B4 & B5 & B6).
    destruct (Rle_dec 0 u) as [U|U].
    + assert (0 <= v k) as Uk by (rewrite Vk; apply SG; auto). destruct (Rlt_dec (u / norm) mn) as [L|L]; cbn [fst snd].
      * rewrite <- Vk in *. split; [lra|]. split; [lra|]. split; [intros i Hi Pi; destruct (Nat.eq_dec i k) as [->|N]; [lra|apply Rle_trans with mn; [lra|apply B3; auto; lia]]|].
        split; [intros i Hi Pi; destruct (Nat.eq_dec i k) as [->|N]; [lra|apply B4; auto; lia]|]. split; [right; exists k; split; [lia|auto]|].
        destruct B6 as [B6|(i & Hi & B6)]; [left; auto|right; exists i; split; [lia|auto]].
      * rewrite <- Vk in *. split; [lra|]. split; [lra|]. split; [intros i Hi Pi; destruct (Nat.eq_dec i k) as [->|N]; [lra|apply B3; auto; lia]|].
        split; [intros i Hi Pi; destruct (Nat.eq_dec i k) as [->|N]; [lra|apply B4; auto; lia]|]. split.
        -- destruct B5 as [B5|(i & Hi & B5)]; [left; auto|right; exists i; split; [lia|auto]].
        -- destruct B6 as [B6|(i & Hi & B6)]; [left; auto|right; exists i; split; [lia|auto]].
    + assert (v k < 0) as Uk by (rewrite Vk; apply Rnot_le_lt; intro; apply U, SG; auto). destruct (Rlt_dec mx (u / norm)) as [L|L]; cbn [fst snd].
      * rewrite <- Vk in *. split; [lra|]. split; [lra|]. split; [intros i Hi Pi; destruct (Nat.eq_dec i k) as [->|N]; [lra|apply B3; auto; lia]|].
        split; [intros i Hi Pi; destruct (Nat.eq_dec i k) as [->|N]; [lra|apply Rle_trans with mx; [apply B4; auto; lia|lra]]|]. split; [|right; exists k; split; [lia|auto]].
        destruct B5 as [B5|(i & Hi & B5)]; [left; auto|right; exists i; split; [lia|auto]].
      * rewrite <- Vk in *. split; [lra|]. split; [lra|]. split; [intros i Hi Pi; destruct (Nat.eq_dec i k) as [->|N]; [lra|apply B3; auto; lia]|].
        split; [intros i Hi Pi; destruct (Nat.eq_dec i k) as [->|N]; [lra|apply B4; auto; lia]|]. split.
        -- destruct B5 as [B5|(i & Hi & B5)]; [left; auto|right; exists i; split; [lia|auto]].
        -- destruct B6 as [B6|(i & Hi & B6)]; [left; auto|right; exists i; split; [lia|auto]].
  - exists mn, mx. split; [exact E|]. cbn [fst snd] in *. split; [|exact H1]. intro Z. specialize (H0 Z). injection H0 as -> ->. auto.
Qed.
