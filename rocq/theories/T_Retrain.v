(** C141: training a perceptron again on data of another dimension. *)
From Coq Require Import ZArith Bool List Lia Reals Lra Permutation.
From Verif Require Import Base ListLib M_Data M_Point L_Vec Loop M_Kernel S_Kernel L_Kernel M_Perc S_Perc L_Perc T_Perc.
Import ListNotations.
Local Open Scope R_scope.

Lemma decision_short n (w x : vec) b : (length w < n)%nat -> length x = n -> decision n w x b = Abort.
Proof.
  intros H Lx. unfold decision. assert (seq 0 n = seq 0 (length w) ++ seq (length w) (S (n - S (length w)))) as -> by (rewrite <- seq_app; f_equal; lia). rewrite ofold_app.
  destruct (ofold_seq (fun f j => let* a := aget w j in let* c := vget x j in Ok (f + a * c)) (fun _ _ => True) (length w) b) as (f & -> & _); auto.
  - intros i f Hi _. rewrite aget_nz, vget_nz by lia. cbn [obind]. eauto.
  - cbn [obind seq ofold]. unfold aget. rewrite (proj2 (nth_error_None w (length w))) by lia. reflexivity.
Qed.
Lemma bump_long n c (x w : vec) : (n <= length w)%nat -> length x = n -> exists w' q, bump n c x w = Ok (w', q) /\ length w' = length w.
Proof.
  intros H Lx. unfold bump.
  destruct (ofold_seq (fun s j => let* v := vget x j in let* w1 := aupd j (fun a => a + c * v) (fst s) in let* a := aget w1 j in Ok (w1, snd s + a * a)) (fun _ (s : vec * R) => length (fst s) = length w) n (w, 0)) as ([w' q] & E & L); auto.
  - intros i [v q] Hi L. cbn [fst snd] in *. rewrite vget_nz by lia. cbn [obind]. destruct (aupd_lt i (fun a => a + c * nz x i) v) as (v2 & -> & U); [lia|]. cbn [obind]. pose proof (upd_length _ _ _ _ U) as L2. rewrite aget_nz by lia. cbn [obind]. eexists. split; [reflexivity|]. cbn [fst]. lia.
  - exists w', q. auto.
Qed.
Section Long.
Variables (pr : params) (d : data R).
Hypotheses (HR : rect d) (HO : index_ok d).
Lemma ppass_long steps : forall is s, (forall i, In i is -> (i < size d)%nat) -> (dim d <= length (ps_w s))%nat -> exists s', ppass pr d steps is s = Ok s' /\ length (ps_w s') = length (ps_w s).
Proof.
  induction is as [|i r IH]; intros s Hin L; [exists s; auto|]. cbn [ppass]. destruct (vis_get d i HO (Hin i (or_introl eq_refl))) as (z & m & -> & E2 & E3 & _). cbn [obind]. rewrite E2. cbn [obind]. rewrite E3. cbn [obind].
  pose proof (HR _ (vis_In d i HO (Hin i (or_introl eq_refl)))) as Lx. rewrite decision_ok by lia. cbn [obind]. assert (forall j, In j r -> (j < size d)%nat) as Hr by (intros j Hj; apply Hin; right; exact Hj). destruct (Rle_dec _ 0).
  - destruct (bump_long (dim d) (rate pr * IZR (p_y (vis d i))) (p_x (vis d i)) (ps_w s) L Lx) as (w' & q & -> & L'). cbn [obind fst snd].
    match goal with |- exists s', ppass pr d steps r ?t = _ /\ _ => destruct (IH t Hr) as (s' & -> & L2) end; [cbn [ps_w]; lia|]. exists s'. split; [reflexivity|]. cbn [ps_w] in L2. lia.
  - destruct (_ && _); [exists s; auto|]. apply IH; auto.
Qed.
Lemma ploop_long clk : forall fuel k steps s, (max_it pr < steps + fuel)%nat -> (1 <= fuel)%nat -> (dim d <= length (ps_w s))%nat -> exists s' st, ploop pr d clk fuel k steps s = Ok (Some (s', st)) /\ length (ps_w s') = length (ps_w s).
Proof.
  induction fuel as [|fuel IH]; intros k steps s HF F1 L; [lia|]. cbn [ploop]. destruct (clk k); [|eauto].
  destruct (ppass_long steps (seq 0 (size d)) (mkP (ps_w s) (ps_b s) (ps_norm s) (ps_ctot s) 0)) as (s1 & -> & L1); [intros i H; apply in_seq in H; lia|exact L|]. cbn [obind ps_w] in *.
  destruct (Nat.eqb (ps_e s1) 0 || Nat.ltb (max_it pr) (S steps) || Nat.ltb (max_up pr) (ps_ctot s1)) eqn:B; [eauto|].
  destruct (Nat.ltb_spec (max_it pr) (S steps)); [rewrite orb_true_r in B; discriminate B|]. destruct (IH (S k) (S steps) s1) as (s' & st & -> & L2); try lia. exists s', st. split; [reflexivity|lia].
Qed.
End Long.
(** C141: an object trained before on data with fewer features cannot be trained again: the first point makes the program stop on the failed assertion of the weights' index. *)
Lemma c141_shorter_refuted : forall (pr : params) (d : data R) (clk : nat -> bool) (w0 : list R) (st0 ct0 : nat), rect d -> index_perm d -> (0 < size d)%nat -> clk O = true -> (0 < length w0 < dim d)%nat ->
  ptrain pr d clk w0 st0 ct0 = Abort.
Proof.
  intros pr d clk w0 st0 ct0 HR HI HS HC (H0 & H1). pose proof (index_perm_ok d HI) as HO. unfold ptrain. destruct w0 as [|a w0]; [cbn in H0; lia|]. cbn [ploop]. rewrite HC. destruct (size d) as [|m] eqn:ES; [lia|]. cbn [seq ppass ps_w ps_b].
  assert (0 < size d)%nat as HS' by lia. destruct (vis_get d 0 HO HS') as (z & i & -> & E2 & E3 & _). cbn [obind]. rewrite E2. cbn [obind]. rewrite E3. cbn [obind].
  rewrite decision_short; [reflexivity|exact H1|]. apply HR, vis_In; auto.
Qed.
(** C141: an object trained before on data with more features is trained on the first weights only; the superfluous ones stay, and evaluate() then answers 0 for every training point. *)
Lemma c141_longer_refuted : forall (pr : params) (d : data R) (clk : nat -> bool) (w0 : list R) (st0 ct0 : nat), rect d -> index_perm d -> (dim d < length w0)%nat ->
  exists s st b, ptrain pr d clk w0 st0 ct0 = Ok (Some (s, st, b)) /\ length (ps_w s) = length w0 /\ forall p, In p (d_points d) -> primal_evaluate (ps_w s) (ps_b s) (p_x p) = Ok 0%Z.
Proof.
  intros pr d clk w0 st0 ct0 HR HI H. unfold ptrain. destruct w0 as [|a w0]; [cbn in H; lia|]. destruct (ploop_long pr d HR (index_perm_ok d HI) clk (S (max_it pr)) 0 st0 (mkP (a :: w0) 0 0 ct0 0)) as (s & st & -> & L); cbn [ps_w] in *; try lia.
  cbn [obind]. eexists s, st, _. split; [reflexivity|]. split; [exact L|]. intros p Hp. unfold primal_evaluate. destruct (Nat.eqb_spec (length (p_x p)) (length (ps_w s))) as [E|E]; [rewrite (HR p Hp), L in E; lia|reflexivity].
Qed.
Lemma c141_longer_refuted_ex : rect px1 /\ index_perm px1 /\ (dim px1 < length [1; 2])%nat /\ (0 < size px1)%nat.
Proof. destruct px1_ok as (A & B & _). split; [exact A|]. split; [apply index_plain_perm, B|]. cbn. lia. Qed.
Definition wide : data R := mkData [mkPoint [1; 2] 1%Z 1%Z 0] [] [0%Z] [] [] [] 1 2 false false false true.
Lemma c141_shorter_refuted_ex : rect wide /\ index_perm wide /\ (0 < size wide)%nat /\ (0 < length [1] < dim wide)%nat.
Proof. split; [intros p [<-|[]]; reflexivity|]. split; [apply Permutation_refl|]. cbn. lia. Qed.
