(** Lemmas about the fixed-margin perceptrons. *)
From Coq Require Import ZArith Bool List Lia Reals Lra Psatz Permutation.
From Verif Require Import Base ListLib M_Data M_Point L_Vec Loop M_Kernel S_Kernel L_Kernel M_Perc S_Perc L_Perc L_Knn M_Fixed S_Fixed.
Import ListNotations.
Local Open Scope R_scope.

(** Swapping two entries of a vector. *)
Lemma swap_lt {A} (l : list A) k i a b l1 l2 : (k < i)%nat -> vget l k = Ok a -> vget l i = Ok b -> vupd k (fun _ => b) l = Ok l1 -> vupd i (fun _ => a) l1 = Ok l2 -> Permutation l2 l.
Proof.
  intros H Ha Hb U1 U2. apply vget_Ok in Ha, Hb. destruct (nth_error_split _ _ Ha) as (p & t & -> & Lp). rewrite <- Lp in U1. rewrite vupd_mid in U1. injection U1 as <-.
  rewrite nth_error_app2 in Hb by lia. replace (i - length p)%nat with (S (i - length p - 1)) in Hb by lia. cbn [nth_error] in Hb.
  destruct (nth_error_split _ _ Hb) as (q & u & -> & Lq). replace (p ++ b :: q ++ b :: u) with ((p ++ b :: q) ++ b :: u) in U2 by (rewrite <- app_assoc; reflexivity).
  assert (i = length (p ++ b :: q)) as Ei by (rewrite app_length; cbn [length]; lia). rewrite Ei in U2. rewrite vupd_mid in U2. injection U2 as <-. rewrite <- app_assoc. apply Permutation_app_head. cbn [app].
  apply Permutation_trans with (b :: a :: q ++ u); [constructor; apply Permutation_sym, Permutation_middle|]. apply Permutation_trans with (a :: b :: q ++ u); [constructor|]. constructor. apply Permutation_middle.
Qed.
Lemma swap_perm {A} (l : list A) k i b : (k <= i)%nat -> vget l i = Ok b -> exists a l1 l2, vget l k = Ok a /\ vupd k (fun _ => b) l = Ok l1 /\ vupd i (fun _ => a) l1 = Ok l2 /\ Permutation l2 l.
Proof.
  intros H Hb. pose proof Hb as Hb'. apply vget_Ok in Hb'. assert (i < length l)%nat as Hi by (apply nth_error_Some; congruence).
  destruct (vget_lt l k ltac:(lia)) as (a & Ea & Va). destruct (vupd_lt k (fun _ => b) l ltac:(lia)) as (l1 & U1 & V1).
  destruct (vupd_lt i (fun _ => a) l1) as (l2 & U2 & V2); [rewrite (upd_length _ _ _ _ U1); lia|]. exists a, l1, l2. split; [exact Va|]. split; [exact V1|]. split; [exact V2|].
  destruct (Nat.eq_dec k i) as [->|N]; [|eapply (swap_lt l k i); eauto; lia].
  assert (a = b) as -> by congruence. destruct (nth_error_split _ _ Hb') as (p & t & -> & Lp). rewrite <- Lp in V1. rewrite vupd_mid in V1. injection V1 as <-. rewrite <- Lp in V2. rewrite vupd_mid in V2. injection V2 as <-. apply Permutation_refl.
Qed.

Section Primal.
Variable pw : R -> R -> R.
Variable kind : qnorm.
Variable pr : params.
Variable gamma flex eps : R.
Variable d : data R.
Hypothesis HR : rect d.
Local Notation n := (dim d).
Local Notation m := (size d).

Lemma fm_decision_ok w x b : length w = n -> length x = n -> fm_decision d w x b = Ok (inner n w x + b).
Proof using.
  intros Hw Hx. unfold fm_decision, inner. rewrite Rplus_comm. rewrite <- (fold_from_ok n (fun j => let* a := vget w j in let* c := vget x j in Ok (a * c))).
  - apply ofold_ext. intros s j Hj. apply in_seq in Hj. rewrite !vget_nz by lia. reflexivity.
  - intros j Hj. rewrite !vget_nz by lia. reflexivity.
Qed.
Definition moved (lam : R -> R) (y : R) (x w : vec) : vec := map (fun j => nz w j + rate pr * (y * nz x j - lam (nz w j))) (seq 0 n).
Lemma moved_length lam y x w : length (moved lam y x w) = n.
Proof. unfold moved. rewrite map_length, seq_length. reflexivity. Qed.
Lemma nz_moved lam y x w j : (j < n)%nat -> nz (moved lam y x w) j = nz w j + rate pr * (y * nz x j - lam (nz w j)).
Proof. apply (nz_map_seq n (fun j => nz w j + rate pr * (y * nz x j - lam (nz w j)))). Qed.
Lemma fm_loop_ok lam acc y x w : length w = n -> length x = n -> fm_loop pr d lam acc y x w = Ok (moved lam y x w, sumn n (fun j => acc (nz (moved lam y x w) j))).
Proof using.
  intros Hw Hx. unfold fm_loop.
  destruct (ofold_seq (fm_coord pr lam acc y x)
    (fun i (s : vec * R) => length (fst s) = n /\ (forall j, (j < i)%nat -> nz (fst s) j = nz w j + rate pr * (y * nz x j - lam (nz w j))) /\ (forall j, (i <= j)%nat -> nz (fst s) j = nz w j) /\
       snd s = sumn i (fun j => acc (nz w j + rate pr * (y * nz x j - lam (nz w j))))) n (w, 0)) as ([w' q] & E & L & A & _ & Q).
  - cbn. repeat split; auto. intros; lia.
  - intros i [w1 q] Hi (L & A & B & Q). cbn [fst snd] in *. unfold fm_coord. cbn [fst snd]. rewrite vget_nz by lia. cbn [obind]. rewrite vget_nz by lia. cbn [obind].
    destruct (vupd_lt i (fun _ => nz w1 i + rate pr * (y * nz x i - lam (nz w1 i))) w1 ltac:(lia)) as (w2 & U & ->). cbn [obind]. eexists. split; [reflexivity|]. cbn [fst snd].
    pose proof (upd_length _ _ _ _ U) as L2. split; [lia|]. split; [|split].
    + intros j Hj. destruct (Nat.eq_dec i j) as [<-|N]; [rewrite (nz_upd_same _ _ _ _ U), (B i) by lia; auto|]. rewrite (nz_upd_other _ _ _ _ _ U N). apply A. lia.
    + intros j Hj. rewrite (nz_upd_other _ _ _ _ _ U) by lia. apply B. lia.
    + cbn [sumn]. rewrite Q, (B i) by lia. reflexivity.
  - etransitivity; [exact E|]. cbn [fst snd] in *. assert (w' = moved lam y x w) as ->.
    { apply nz_ext; [rewrite moved_length; auto|]. intros j Hj. rewrite nz_moved by lia. apply A. lia. }
    do 2 f_equal. rewrite Q. apply sumn_ext. intros j Hj. rewrite nz_moved; auto.
Qed.
Lemma fm1_ok norm lw nn y (x w : vec) lt0 : length w = n -> length x = n -> exists w' lt nt, ofold (fm_coord1 pr gamma eps norm lw nn y x) (seq 0 n) (w, lt0, 1%nat) = Ok (w' : vec, lt, nt) /\ length w' = n.
Proof using.
  intros Hw Hx. destruct (ofold_seq (fm_coord1 pr gamma eps norm lw nn y x) (fun _ (s : vec * R * nat) => length (fst (fst s)) = n) n (w, lt0, 1%nat)) as ([[w' lt] nt] & E & L); auto.
  - intros i [[w1 lt] nt] Hi L. cbn [fst] in *. unfold fm_coord1. rewrite vget_nz by lia. cbn [obind]. rewrite vget_nz by lia. cbn [obind]. cbv zeta.
    match goal with |- context [vupd i (fun _ => ?a) w1] => generalize a as a' end. intro a'. destruct (vupd_lt i (fun _ => a') w1 ltac:(lia)) as (w2 & U & ->). cbn [obind]. pose proof (upd_length _ _ _ _ U) as L2.
    destruct (Nat.ltb 0 i); [|eexists; split; [reflexivity|cbn; lia]]. destruct (near _ _ _); [eexists; split; [reflexivity|cbn; lia]|]. destruct (Rlt_dec _ _); (eexists; split; [reflexivity|cbn; lia]).
  - eauto.
Qed.
Hypothesis HQ : kind = L1 -> (0 < dim d)%nat.
Lemma fm_step_ok y x s : length (f_w s) = n -> length x = n -> exists w' nm lw nn, fm_step pw kind pr gamma eps d y x s = Ok (w', nm, lw, nn) /\ length w' = n /\ (kind <> L1 -> norm_of pw kind n w' nm) /\
  (kind = L2 -> w' = moved (fun a => fm_lam (f_norm s) (a * gamma / f_norm s) a) y x (f_w s)).
Proof using HQ.
  intros Hw Hx. unfold fm_step. destruct kind.
  - rewrite fm_loop_ok by auto. cbn [obind fst snd]. do 4 eexists. split; [reflexivity|]. split; [apply moved_length|]. split; [reflexivity|discriminate].
  - rewrite fm_loop_ok by auto. cbn [obind fst snd]. do 4 eexists. split; [reflexivity|]. split; [apply moved_length|]. split; reflexivity.
  - rewrite vget_nz by (specialize (HQ eq_refl); lia). cbn [obind]. destruct (fm1_ok (f_norm s) (f_lw s) (f_n s) y x (f_w s) (Rabs (nz (f_w s) 0)) Hw Hx) as (w' & lt & nt & -> & L). cbn [obind]. do 4 eexists. split; [reflexivity|]. split; [exact L|]. split; [congruence|discriminate].
  - rewrite fm_loop_ok by auto. cbn [obind fst snd]. do 4 eexists. split; [reflexivity|]. split; [apply moved_length|]. split; [reflexivity|discriminate].
Qed.

(** What holds before visiting position [i] of a pass. *)
Definition ready (i : nat) (s : fstate) : Prop :=
  length (f_w s) = n /\ length (f_al s) = m /\ Permutation (f_index s) (map Z.of_nat (seq 0 m)) /\ (f_e s <= i)%nat.
Lemma perm_get l i : Permutation l (map Z.of_nat (seq 0 m)) -> (i < m)%nat -> exists idx, vget l i = Ok (Z.of_nat idx) /\ (idx < m)%nat.
Proof using.
  clear HQ. intros P Hi. destruct (vget_lt l i) as (z & E & V); [rewrite (Permutation_length P), map_length, seq_length; exact Hi|].
  apply nth_error_In in E. apply (Permutation_in _ P) in E. apply in_map_iff in E. destruct E as (x & <- & Hx). apply in_seq in Hx. exists x. split; [exact V|lia].
Qed.
Lemma zidx_nat k : zidx (Z.of_nat k) = Ok k.
Proof using. clear HQ. unfold zidx. destruct (Z.ltb_spec (Z.of_nat k) 0); [lia|]. rewrite Nat2Z.id. reflexivity. Qed.
(** The mistake test for point [idx]. *)
Definition fwrong (s : fstate) (idx : nat) : Prop := yf d (f_w s) (f_b s) (pt d idx) <= gamma * f_norm s - nz (f_al s) idx * flex.
Definition flambda (s : fstate) : R := if Req_EM_T (f_norm s) 0 then 1 else 1 - rate pr * gamma / f_norm s.
(** The state after a mistake on point [idx]. *)
Definition fupdated (idx : nat) (s s' : fstate) : Prop :=
  fm_step pw kind pr gamma eps d (IZR (p_y (pt d idx))) (p_x (pt d idx)) s = Ok (f_w s', f_norm s', f_lw s', f_n s') /\
  (kind <> L1 -> norm_of pw kind n (f_w s') (f_norm s')) /\
  (kind = L2 -> f_w s' = moved (fun a => fm_lam (f_norm s) (a * gamma / f_norm s) a) (IZR (p_y (pt d idx))) (p_x (pt d idx)) (f_w s)) /\
  f_b s' = f_b s + rate pr * IZR (p_y (pt d idx)) /\
  (forall j, (j < m)%nat -> nz (f_al s') j = nz (f_al s) j * flambda s + (if Nat.eqb j idx then rate pr else 0)) /\
  f_e s' = S (f_e s) /\ f_ctot s' = S (f_ctot s).
Lemma fpass_step steps i r s : (i < m)%nat -> ready i s -> exists idx s', (idx < m)%nat /\ vget (f_index s) i = Ok (Z.of_nat idx) /\
  fpass pw kind pr gamma flex eps d steps (i :: r) s =
    (if Rle_dec (yf d (f_w s) (f_b s) (pt d idx)) (gamma * f_norm s - nz (f_al s) idx * flex) then fpass pw kind pr gamma flex eps d steps r s'
     else if Nat.ltb 0 steps && Nat.ltb 1 (f_e s) && Nat.ltb (f_s s) i then Ok s else fpass pw kind pr gamma flex eps d steps r s) /\
  fupdated idx s s' /\ ready (S i) s'.
Proof using HR HQ.
  intros Hi (Lw & La & P & He). destruct (perm_get _ i P Hi) as (idx & V & Hx). exists idx. cbn [fpass]. rewrite V. cbn [obind]. rewrite zidx_nat. cbn [obind]. rewrite vget_pt by exact Hx. cbn [obind]. cbv zeta.
  assert (length (p_x (pt d idx)) = n) as Lx by (apply rect_pt; auto). rewrite (fm_decision_ok _ _ _ Lw Lx). cbn [obind]. rewrite (vget_nz (f_al s)) by lia. cbn [obind].
  destruct (fm_step_ok (IZR (p_y (pt d idx))) (p_x (pt d idx)) s Lw Lx) as (w' & nm & lw & nn & Es & L1' & Hn & Hm). rewrite Es. cbn [obind].
  destruct (vupd_lt idx (fun a => a + rate pr) (map (fun a => a * flambda s) (f_al s))) as (al2 & U & Vu); [rewrite map_length; lia|]. fold (flambda s). rewrite Vu. cbn [obind].
  assert ((if Nat.ltb (f_s s) i then f_s s else f_e s) <= i)%nat as Hk by (destruct (Nat.ltb_spec (f_s s) i); lia).
  destruct (swap_perm (f_index s) (if Nat.ltb (f_s s) i then f_s s else f_e s) i _ Hk V) as (z & l1 & l2 & Vz & V1 & V2 & P2). rewrite Vz. cbn [obind]. rewrite V1. cbn [obind]. rewrite V2. cbn [obind].
  eexists. split; [exact Hx|]. split; [reflexivity|]. split; [reflexivity|]. split.
  - unfold fupdated. cbn [f_w f_norm f_b f_al f_e f_ctot f_lw f_n]. split; [exact Es|]. split; [exact Hn|]. split; [exact Hm|]. split; [reflexivity|]. split; [|auto].
    intros j Hj. destruct (Nat.eqb_spec j idx) as [->|N].
    + rewrite (nz_upd_same _ _ _ _ U). rewrite (nz_map (fun a => a * flambda s) 0) by lia. reflexivity.
    + rewrite (nz_upd_other _ _ _ _ _ U) by auto. rewrite (nz_map (fun a => a * flambda s) 0) by lia. rewrite Rplus_0_r. reflexivity.
  - unfold ready. cbn [f_w f_al f_index f_e]. split; [exact L1'|]. split; [rewrite (upd_length _ _ _ _ U), map_length; exact La|]. split; [|lia]. apply Permutation_trans with (f_index s); auto.
Qed.
Lemma fpass_inv (Q : fstate -> Prop) steps : (forall idx s s', (idx < m)%nat -> length (f_w s) = n -> length (f_al s) = m -> Q s -> fupdated idx s s' -> Q s') ->
  forall k i s, (i + k <= m)%nat -> ready i s -> Q s -> exists s', fpass pw kind pr gamma flex eps d steps (seq i k) s = Ok s' /\ ready m s' /\ Q s'.
Proof using HR HQ.
  intro H. induction k as [|k IH]; intros i s Hk Hs Q0.
  - exists s. split; [reflexivity|]. split; [|exact Q0]. destruct Hs as (A & B & C & D). repeat split; auto. lia.
  - cbn [seq]. destruct (fpass_step steps i (seq (S i) k) s ltac:(lia) Hs) as (idx & s' & Hx & _ & E & Up & Hs'). rewrite E. destruct (Rle_dec _ _).
    + apply IH; [lia|exact Hs'|]. destruct Hs as (A & B & _). eapply H; eauto.
    + destruct (_ && _ && _).
      * exists s. split; [reflexivity|]. split; [|exact Q0]. destruct Hs as (A & B & C & D). repeat split; auto. lia.
      * apply IH; [lia| |exact Q0]. destruct Hs as (A & B & C & D). repeat split; auto.
Qed.
(** A pass without mistakes visits every position and changes nothing. *)
Lemma fpass_clean steps : forall k i s s', (i + k <= m)%nat -> ready i s -> fpass pw kind pr gamma flex eps d steps (seq i k) s = Ok s' ->
  (f_e s <= f_e s')%nat /\ (f_e s' = 0%nat -> s' = s /\ forall j idx, (i <= j < i + k)%nat -> vget (f_index s) j = Ok (Z.of_nat idx) -> ~ fwrong s idx).
Proof using HR HQ.
  induction k as [|k IH]; intros i s s' Hk Hs E.
  - injection E as <-. split; [lia|]. intros _. split; [reflexivity|]. intros; lia.
  - cbn [seq] in E. destruct (fpass_step steps i (seq (S i) k) s ltac:(lia) Hs) as (idx & s1 & Hx & V & E1 & Up & Hs1). rewrite E1 in E. destruct (Rle_dec _ _) as [L|L].
    + destruct (IH (S i) s1 s' ltac:(lia) Hs1 E) as (A & _). destruct Up as (_ & _ & _ & _ & _ & Ee & _). split; [lia|]. intro Z. lia.
    + destruct (Nat.ltb 0 steps && Nat.ltb 1 (f_e s) && Nat.ltb (f_s s) i) eqn:BR.
      * injection E as <-. split; [lia|]. intro Z. apply andb_prop in BR. destruct BR as (BR & _). apply andb_prop in BR. destruct BR as (_ & BR). apply Nat.ltb_lt in BR. lia.
      * assert (ready (S i) s) as Hs2 by (destruct Hs as (A & B & C & D); repeat split; auto). destruct (IH (S i) s s' ltac:(lia) Hs2 E) as (A & B). split; [exact A|]. intro Z. destruct (B Z) as (B1 & B2). split; [exact B1|].
        intros j idx' Hj Vj. destruct (Nat.eq_dec j i) as [->|N]; [|apply (B2 j); auto; lia]. rewrite V in Vj. injection Vj as Vj. apply Nat2Z.inj in Vj. subst idx'. exact L.
Qed.
Lemma reset_ready i s : ready i s -> ready 0 (f_reset s).
Proof using. clear HQ. intros (A & B & C & D). repeat split; auto; try (cbn; lia). Qed.
Lemma floop_inv (Q : fstate -> Prop) clk : (forall idx s s', (idx < m)%nat -> length (f_w s) = n -> length (f_al s) = m -> Q s -> fupdated idx s s' -> Q s') -> (forall s, Q s -> Q (f_reset s)) ->
  forall fuel k steps s, (max_it pr < steps + fuel)%nat -> (1 <= fuel)%nat -> ready m s -> Q s -> exists s' st, floop pw kind pr gamma flex eps d clk fuel k steps s = Ok (Some (s', st)) /\ ready m s' /\ Q s' /\
    ((clk k = true \/ f_e s <> 0%nat) -> f_e s' = 0%nat -> forall idx, (idx < m)%nat -> ~ fwrong s' idx).
Proof using HR HQ.
  intros H HRs. induction fuel as [|fuel IH]; intros k steps s HF F1 Hs Q0; [lia|]. cbn [floop]. destruct (clk k) eqn:CK.
  2: { exists s, steps. split; [reflexivity|]. split; [exact Hs|]. split; [exact Q0|]. intros [C|C] Z; [discriminate|congruence]. }
  destruct (fpass_inv Q steps H m 0 (f_reset s) ltac:(lia) (reset_ready _ _ Hs) (HRs s Q0)) as (s1 & E & Hs1 & Q1). rewrite E. cbn [obind].
  destruct (fpass_clean steps m 0 (f_reset s) s1 ltac:(lia) (reset_ready _ _ Hs) E) as (_ & Cl).
  destruct (Nat.eqb (f_e s1) 0 || Nat.ltb (max_it pr) (S steps) || Nat.ltb (max_up pr) (f_ctot s1)) eqn:ST.
  - exists s1, (S steps). split; [reflexivity|]. split; [exact Hs1|]. split; [exact Q1|]. intros _ Z idx Hx. destruct (Cl Z) as (-> & W).
    destruct Hs1 as (_ & _ & P & _). assert (In (Z.of_nat idx) (f_index (f_reset s))) as I. { apply (Permutation_in _ (Permutation_sym P)). apply in_map. apply in_seq. lia. }
    apply In_nth_error in I. destruct I as (j & Ej). apply (W j idx); [|unfold vget; rewrite Ej; reflexivity]. assert (j < length (f_index (f_reset s)))%nat by (apply nth_error_Some; congruence). rewrite (Permutation_length P), map_length, seq_length in H0. lia.
  - apply orb_false_iff in ST. destruct ST as [ST _]. apply orb_false_iff in ST. destruct ST as [S1 ST]. apply Nat.ltb_ge in ST. apply Nat.eqb_neq in S1.
    destruct (IH (S k) (S steps) s1 ltac:(lia) ltac:(lia) Hs1 Q1) as (s2 & st & E2 & Hs2 & Q2 & W). exists s2, st. rewrite E2. split; [reflexivity|]. split; [exact Hs2|]. split; [exact Q2|]. intros _. apply W. right. exact S1.
Qed.
End Primal.

(** ** The dual trainer *)
Section Dual.
Variable pr : params.
Variable gamma : R.
Variable d : data R.
Variable K : list (list R).
Variable k : nat -> nat -> R.
Local Notation m := (size d).
Hypothesis HK : forall i j, (i < m)%nat -> (j < m)%nat -> mget K i j = Ok (k i j).

Lemma gm_func_ok idx y lambda b func : (idx < m)%nat -> length func = m -> exists f', gm_func pr d K idx y lambda b func = Ok f' /\ length f' = m /\
  forall r, (r < m)%nat -> nz f' r = lambda * nz func r + rate pr * y * (k idx r + 1) + b * (1 - lambda).
Proof using HK.
  intros Hx Lf. unfold gm_func.
  destruct (ofold_seq (fun f r => let* k := mget K idx r in vupd r (fun a => lambda * a + rate pr * y * (k + 1) + b * (1 - lambda)) f)
    (fun i (f : vec) => length f = m /\ (forall r, (r < i)%nat -> nz f r = lambda * nz func r + rate pr * y * (k idx r + 1) + b * (1 - lambda)) /\ (forall r, (i <= r)%nat -> nz f r = nz func r)) m func) as (f' & E & L & A & _).
  - repeat split; auto. intros; lia.
  - intros i f Hi (L & A & B). rewrite HK by auto. cbn [obind]. destruct (vupd_lt i (fun a => lambda * a + rate pr * y * (k idx i + 1) + b * (1 - lambda)) f ltac:(lia)) as (f2 & U & ->). exists f2. split; [reflexivity|].
    split; [rewrite (upd_length _ _ _ _ U); exact L|]. split.
    + intros r Hr. destruct (Nat.eq_dec i r) as [<-|N]; [rewrite (nz_upd_same _ _ _ _ U), (B i) by lia; reflexivity|]. rewrite (nz_upd_other _ _ _ _ _ U N). apply A. lia.
    + intros r Hr. rewrite (nz_upd_other _ _ _ _ _ U) by lia. apply B. lia.
  - exists f'. auto.
Qed.
Definition gready (i : nat) (s : gstate) : Prop :=
  length (g_func s) = m /\ length (g_al s) = m /\ Permutation (g_index s) (map Z.of_nat (seq 0 m)) /\ (g_e s <= i)%nat.
Definition gwrong (s : gstate) (idx : nat) : Prop := IZR (p_y (pt d idx)) * nz (g_func s) idx - gamma * g_norm s <= 0.
Definition glambda (s : gstate) : R := if Req_EM_T gamma 0 then 1 else 1 - rate pr * gamma / g_norm s.
(** The number under the root. *)
Definition gq (s : gstate) (idx : nat) : R :=
  (g_norm s * glambda s) * (g_norm s * glambda s) + 2 * rate pr * IZR (p_y (pt d idx)) * glambda s *
    (glambda s * nz (g_func s) idx + rate pr * IZR (p_y (pt d idx)) * (k idx idx + 1) + g_b s * (1 - glambda s) - g_b s) + rate pr * rate pr * k idx idx.
Definition gbad (s : gstate) (idx : nat) : bool :=
  if (if Req_EM_T gamma 0 then false else if Req_EM_T (g_norm s) 0 then true else false) then true else if Rlt_dec (gq s idx) 0 then true else false.
Definition gupdated (idx : nat) (s s' : gstate) : Prop :=
  (forall r, (r < m)%nat -> nz (g_func s') r = glambda s * nz (g_func s) r + rate pr * IZR (p_y (pt d idx)) * (k idx r + 1) + g_b s * (1 - glambda s)) /\
  g_b s' = g_b s + rate pr * IZR (p_y (pt d idx)) /\ g_norm s' = sqrt (gq s idx) /\
  (forall j, (j < m)%nat -> nz (g_al s') j = nz (g_al s) j * glambda s + (if Nat.eqb j idx then rate pr else 0)) /\
  g_e s' = S (g_e s) /\ g_ctot s' = S (g_ctot s).
Lemma gperm_get l i : Permutation l (map Z.of_nat (seq 0 m)) -> (i < m)%nat -> exists idx, vget l i = Ok (Z.of_nat idx) /\ (idx < m)%nat.
Proof using.
  intros P Hi. destruct (vget_lt l i) as (z & E & V); [rewrite (Permutation_length P), map_length, seq_length; exact Hi|].
  apply nth_error_In in E. apply (Permutation_in _ P) in E. apply in_map_iff in E. destruct E as (x & <- & Hx). apply in_seq in Hx. exists x. split; [exact V|lia].
Qed.
Lemma gpass_step steps i r s : (i < m)%nat -> gready i s -> exists idx s', (idx < m)%nat /\ vget (g_index s) i = Ok (Z.of_nat idx) /\
  gpass pr gamma d K steps (i :: r) s =
    (if Rle_dec (IZR (p_y (pt d idx)) * nz (g_func s) idx - gamma * g_norm s) 0 then (if gbad s idx then Ok None else gpass pr gamma d K steps r s')
     else if Nat.ltb 0 steps && Nat.ltb 1 (g_e s) && Nat.ltb (g_s s) i then Ok (Some s) else gpass pr gamma d K steps r s) /\
  gupdated idx s s' /\ gready (S i) s'.
Proof using HK.
  intros Hi (Lf & La & P & He). destruct (gperm_get _ i P Hi) as (idx & V & Hx). exists idx. cbn [gpass]. rewrite V. cbn [obind]. rewrite zidx_nat. cbn [obind]. rewrite vget_pt by exact Hx. cbn [obind]. cbv zeta.
  rewrite (vget_nz (g_func s)) by lia. cbn [obind]. fold (glambda s).
  destruct (gm_func_ok idx (IZR (p_y (pt d idx))) (glambda s) (g_b s) (g_func s) Hx Lf) as (f' & Ef & Lf' & Hf). rewrite Ef. cbn [obind]. rewrite (vget_nz f') by lia. cbn [obind]. rewrite HK by auto. cbn [obind]. rewrite (Hf idx Hx).
  fold (gq s idx).
  destruct (vupd_lt idx (fun a => a + rate pr) (map (fun a => a * glambda s) (g_al s))) as (al2 & U & Vu); [rewrite map_length; lia|]. rewrite Vu. cbn [obind].
  assert ((if Nat.ltb (g_s s) i then S (g_s s) else g_e s) <= i)%nat as Hk by (destruct (Nat.ltb_spec (g_s s) i); lia).
  destruct (swap_perm (g_index s) (if Nat.ltb (g_s s) i then S (g_s s) else g_e s) i _ Hk V) as (z & l1 & l2 & Vz & V1 & V2 & P2). rewrite Vz. cbn [obind]. rewrite V1. cbn [obind]. rewrite V2. cbn [obind].
  eexists. split; [exact Hx|]. split; [reflexivity|]. split; [|split].
  - destruct (Rle_dec _ 0); [|reflexivity]. unfold gbad. destruct (if Req_EM_T gamma 0 then false else _); [reflexivity|]. destruct (Rlt_dec (gq s idx) 0); reflexivity.
  - unfold gupdated. cbn [g_func g_norm g_b g_al g_e g_ctot]. split; [exact Hf|]. split; [reflexivity|]. split; [reflexivity|]. split; [|auto].
    intros j Hj. destruct (Nat.eqb_spec j idx) as [->|N].
    + rewrite (nz_upd_same _ _ _ _ U). rewrite (nz_map (fun a => a * glambda s) 0) by lia. reflexivity.
    + rewrite (nz_upd_other _ _ _ _ _ U) by auto. rewrite (nz_map (fun a => a * glambda s) 0) by lia. rewrite Rplus_0_r. reflexivity.
  - unfold gready. cbn [g_func g_al g_index g_e]. split; [exact Lf'|]. split; [rewrite (upd_length _ _ _ _ U), map_length; exact La|]. split; [|lia]. apply Permutation_trans with (g_index s); auto.
Qed.
(** A pass ends with the invariant, or meets a number that is not finite; with [Hb] it does not. *)
Lemma gpass_inv (Q : gstate -> Prop) steps : (forall idx s s', (idx < m)%nat -> length (g_al s) = m -> Q s -> gwrong s idx -> gbad s idx = false -> gupdated idx s s' -> Q s') ->
  forall n i s, (i + n <= m)%nat -> gready i s -> Q s ->
  (exists s', gpass pr gamma d K steps (seq i n) s = Ok (Some s') /\ gready m s' /\ Q s') \/ (gpass pr gamma d K steps (seq i n) s = Ok None /\ exists idx s', (idx < m)%nat /\ Q s' /\ gwrong s' idx /\ gbad s' idx = true).
Proof using HK.
  intro H. induction n as [|n IH]; intros i s Hn Hs Q0.
  - left. exists s. split; [reflexivity|]. split; [|exact Q0]. destruct Hs as (A & B & C & D). repeat split; auto; lia.
  - cbn [seq]. destruct (gpass_step steps i (seq (S i) n) s ltac:(lia) Hs) as (idx & s' & Hx & _ & E & Up & Hs'). rewrite E. destruct (Rle_dec _ _) as [L|L].
    + destruct (gbad s idx) eqn:B; [right; split; [reflexivity|]; exists idx, s; auto|]. apply IH; [lia|exact Hs'|]. destruct Hs as (_ & A & _). apply (H idx s s'); auto.
    + destruct (_ && _ && _).
      * left. exists s. split; [reflexivity|]. split; [|exact Q0]. destruct Hs as (A & B & C & D). repeat split; auto; lia.
      * apply IH; [lia| |exact Q0]. destruct Hs as (A & B & C & D). repeat split; auto.
Qed.
Lemma gpass_clean steps : forall n i s s', (i + n <= m)%nat -> gready i s -> gpass pr gamma d K steps (seq i n) s = Ok (Some s') ->
  (g_e s <= g_e s')%nat /\ (g_e s' = 0%nat -> s' = s /\ forall j idx, (i <= j < i + n)%nat -> vget (g_index s) j = Ok (Z.of_nat idx) -> ~ gwrong s idx).
Proof using HK.
  induction n as [|n IH]; intros i s s' Hn Hs E.
  - injection E as <-. split; [lia|]. intros _. split; [reflexivity|]. intros; lia.
  - cbn [seq] in E. destruct (gpass_step steps i (seq (S i) n) s ltac:(lia) Hs) as (idx & s1 & Hx & V & E1 & Up & Hs1). rewrite E1 in E. destruct (Rle_dec _ _) as [L|L].
    + destruct (gbad s idx); [discriminate|]. destruct (IH (S i) s1 s' ltac:(lia) Hs1 E) as (A & _). destruct Up as (_ & _ & _ & _ & Ee & _). split; [lia|]. intro Z. lia.
    + destruct (Nat.ltb 0 steps && Nat.ltb 1 (g_e s) && Nat.ltb (g_s s) i) eqn:BR.
      * injection E as <-. split; [lia|]. intro Z. apply andb_prop in BR. destruct BR as (BR & _). apply andb_prop in BR. destruct BR as (_ & BR). apply Nat.ltb_lt in BR. lia.
      * assert (gready (S i) s) as Hs2 by (destruct Hs as (A & B & C & D); repeat split; auto). destruct (IH (S i) s s' ltac:(lia) Hs2 E) as (A & B). split; [exact A|]. intro Z. destruct (B Z) as (B1 & B2). split; [exact B1|].
        intros j idx' Hj Vj. destruct (Nat.eq_dec j i) as [->|N]; [|apply (B2 j); auto; lia]. rewrite V in Vj. injection Vj as Vj. apply Nat2Z.inj in Vj. subst idx'. exact L.
Qed.
Lemma greset_ready i s : gready i s -> gready 0 (g_reset s).
Proof using. intros (A & B & C & D). repeat split; auto; cbn; lia. Qed.
Lemma gloop_inv (Q : gstate -> Prop) clk : (forall idx s s', (idx < m)%nat -> length (g_al s) = m -> Q s -> gwrong s idx -> gbad s idx = false -> gupdated idx s s' -> Q s') -> (forall s, Q s -> Q (g_reset s)) ->
  forall fuel t steps s, (max_it pr < steps + fuel)%nat -> (1 <= fuel)%nat -> length (g_func s) = m /\ length (g_al s) = m /\ Permutation (g_index s) (map Z.of_nat (seq 0 m)) -> Q s ->
  (exists s' st, gloop pr gamma d K clk fuel t steps s = Ok (Some (Some (s', st))) /\ length (g_al s') = m /\ Q s' /\ ((clk t = true \/ g_e s <> 0%nat) -> g_e s' = 0%nat -> forall idx, (idx < m)%nat -> ~ gwrong s' idx)) \/
  (gloop pr gamma d K clk fuel t steps s = Ok (Some None) /\ exists idx s', (idx < m)%nat /\ Q s' /\ gwrong s' idx /\ gbad s' idx = true).
Proof using HK.
  intros H HRs. induction fuel as [|fuel IH]; intros t steps s HF F1 Hs Q0; [lia|]. cbn [gloop]. destruct (clk t) eqn:CK.
  2: { left. exists s, steps. split; [reflexivity|]. split; [apply Hs|]. split; [exact Q0|]. intros [C|C] Z; [discriminate|congruence]. }
  assert (gready 0 (g_reset s)) as Hr by (destruct Hs as (A & B & C); repeat split; auto; cbn; lia).
  destruct (gpass_inv Q steps H m 0 (g_reset s) ltac:(lia) Hr (HRs s Q0)) as [(s1 & E & Hs1 & Q1)|(E & Bad)]; [|right; rewrite E; cbn [obind]; auto]. rewrite E. cbn [obind].
  destruct (gpass_clean steps m 0 (g_reset s) s1 ltac:(lia) Hr E) as (_ & Cl).
  destruct (Nat.eqb (g_e s1) 0 || Nat.ltb (max_it pr) (S steps) || Nat.ltb (max_up pr) (g_ctot s1)) eqn:ST.
  - left. exists s1, (S steps). split; [reflexivity|]. split; [apply Hs1|]. split; [exact Q1|]. intros _ Z idx Hx. destruct (Cl Z) as (-> & W).
    destruct Hs1 as (_ & _ & P & _). assert (In (Z.of_nat idx) (g_index (g_reset s))) as I. { apply (Permutation_in _ (Permutation_sym P)). apply in_map. apply in_seq. lia. }
    apply In_nth_error in I. destruct I as (j & Ej). apply (W j idx); [|unfold vget; rewrite Ej; reflexivity]. assert (j < length (g_index (g_reset s)))%nat by (apply nth_error_Some; congruence). rewrite (Permutation_length P), map_length, seq_length in H0. lia.
  - apply orb_false_iff in ST. destruct ST as [ST _]. apply orb_false_iff in ST. destruct ST as [S1 ST]. apply Nat.ltb_ge in ST. apply Nat.eqb_neq in S1.
    assert (length (g_func s1) = m /\ length (g_al s1) = m /\ Permutation (g_index s1) (map Z.of_nat (seq 0 m))) as Hs1' by (destruct Hs1 as (A & B & C & _); auto).
    destruct (IH (S t) (S steps) s1 ltac:(lia) ltac:(lia) Hs1' Q1) as [(s2 & st & E2 & Hs2 & Q2 & W)|Bad]; [left|right; exact Bad]. exists s2, st. rewrite E2. split; [reflexivity|]. split; [exact Hs2|]. split; [exact Q2|]. intros _. apply W. right. exact S1.
Qed.
End Dual.
