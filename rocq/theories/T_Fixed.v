(** Property lemmas for the fixed-margin perceptrons: C41. *)
From Coq Require Import ZArith Bool List Permutation Lia Reals Lra Psatz.
From Verif Require Import Base ListLib M_Data M_Point L_Vec Loop M_Kernel S_Kernel L_Kernel M_Perc S_Perc L_Perc L_Perc2 T_Perc L_Smo M_Fixed S_Fixed L_Fixed.
Import ListNotations.
Local Open Scope R_scope.

Lemma start_length (d : data R) (w0 : vec) : w0 = [] \/ length w0 = dim d -> length (match w0 with [] => repeat 0 (dim d) | _ => w0 end) = dim d.
Proof. intros [->|H]; [apply repeat_length|]. destruct w0; [rewrite repeat_length; reflexivity|exact H]. Qed.
Lemma nz_repeat n i : nz (repeat 0 n) i = 0.
Proof. unfold nz. apply nth_repeat. Qed.

Section Run.
Variable pw : R -> R -> R.
Variable kind : qnorm.
Variable pr : params.
Variable gamma flex eps : R.
Variable d : data R.
Variable w0 : vec.
Variable b0 norm0 : R.
Variable st0 ct0 : nat.
Variable clk : nat -> bool.
Hypothesis HR : rect d.
Hypothesis HI : index_perm d.
Hypothesis HW : w0 = [] \/ length w0 = dim d.
Hypothesis HQ : kind = L1 -> (0 < dim d)%nat.
Definition fstart : fstate := mkF (match w0 with [] => repeat 0 (dim d) | _ => w0 end) b0 norm0 (map p_alpha (d_points d)) (d_index d) 0 0 ct0 0 (dim d).
Lemma ftrain_inv (Q : fstate -> Prop) :
  (forall idx s s', (idx < size d)%nat -> length (f_w s) = dim d -> length (f_al s) = size d -> Q s -> fupdated pw kind pr gamma eps d idx s s' -> Q s') -> (forall s, Q s -> Q (f_reset s)) -> Q fstart ->
  exists s st, ftrain pw kind pr gamma flex eps d clk w0 b0 norm0 st0 ct0 = Ok (Some (s, st, Nat.eqb (f_e s) 0)) /\ length (f_w s) = dim d /\ length (f_al s) = size d /\ Q s /\
    (clk 0%nat = true -> f_e s = 0%nat -> forall idx, (idx < size d)%nat -> ~ fwrong gamma flex d s idx).
Proof using HR HI HW HQ.
  intros A B Q0. destruct (floop_inv pw kind pr gamma flex eps d HR HQ Q clk A B (S (max_it pr)) 0 st0 fstart ltac:(lia) ltac:(lia)) as (s & st & E & Hs & Qs & W).
  - split; [exact (start_length d w0 HW)|]. split; [apply map_length|]. split; [exact HI|]. cbn. lia.
  - exact Q0.
  - exists s, st. unfold ftrain. change (mkF _ b0 norm0 _ _ 0 0 ct0 0 (dim d)) with fstart. rewrite E. cbn [obind]. split; [reflexivity|]. split; [apply Hs|]. split; [apply Hs|]. split; [exact Qs|]. intros C Z. apply W; auto.
Qed.
End Run.

(** C41: the primal trainer never reads outside its vectors and always ends; when it answers true after a pass, every training point has
    y (w.x + b) > gamma * norm - alpha * flexible, for every norm. *)
Lemma c41_margin : forall pw kind pr gamma flex eps d clk w0 b0 norm0 st0 ct0, rect d -> index_perm d -> w0 = [] \/ length w0 = dim d -> (kind = L1 -> (0 < dim d)%nat) ->
  exists s st ans, ftrain pw kind pr gamma flex eps d clk w0 b0 norm0 st0 ct0 = Ok (Some (s, st, ans)) /\ length (f_w s) = dim d /\ length (f_al s) = size d /\
    (clk 0%nat = true -> ans = true -> forall i, (i < size d)%nat -> gamma * f_norm s - nz (f_al s) i * flex < yf d (f_w s) (f_b s) (pt d i)).
Proof.
  intros pw kind pr gamma flex eps d clk w0 b0 norm0 st0 ct0 HR HI HW HQ.
  destruct (ftrain_inv pw kind pr gamma flex eps d w0 b0 norm0 st0 ct0 clk HR HI HW HQ (fun _ => True)) as (s & st & E & A & B & _ & W); auto.
  exists s, st, (Nat.eqb (f_e s) 0). split; [exact E|]. split; [exact A|]. split; [exact B|]. intros C Z i Hi. apply Nat.eqb_eq in Z. apply Rnot_le_lt. exact (W C Z i Hi).
Qed.
(** C41: except with the L1 formulation, the norm kept is the norm of the weights, when it is so at the start. *)
Lemma c41_norm : forall pw kind pr gamma flex eps d clk w0 b0 norm0 st0 ct0 s st ans, rect d -> index_perm d -> w0 = [] \/ length w0 = dim d -> kind <> L1 ->
  norm_of pw kind (dim d) w0 norm0 ->
  ftrain pw kind pr gamma flex eps d clk w0 b0 norm0 st0 ct0 = Ok (Some (s, st, ans)) -> norm_of pw kind (dim d) (f_w s) (f_norm s).
Proof.
  intros pw kind pr gamma flex eps d clk w0 b0 norm0 st0 ct0 s st ans HR HI HW HK H0 E.
  destruct (ftrain_inv pw kind pr gamma flex eps d w0 b0 norm0 st0 ct0 clk HR HI HW (fun C => False_ind _ (HK C)) (fun s => norm_of pw kind (dim d) (f_w s) (f_norm s))) as (s1 & st1 & E1 & _ & _ & Qs & _); auto.
  - intros idx s0 s' _ _ _ _ (_ & H & _). auto.
  - cbn [fstart f_w f_norm]. destruct w0; [|exact H0]. assert (forall j, nz (repeat 0 (dim d)) j = nz [] j) as N by (intro j; rewrite nz_repeat; destruct j; reflexivity).
    destruct kind; cbn [norm_of] in *; unfold euclid, inner in *; try (exfalso; apply HK; reflexivity); rewrite H0; first [apply sumn_ext; intros; rewrite !N; reflexivity|f_equal; apply sumn_ext; intros; rewrite !N; reflexivity].
  - rewrite E in E1. injection E1 as -> -> ->. exact Qs.
Qed.
(** C41: with the L2 formulation, the weights stay the combination of the points that the alphas describe. *)
Lemma sum_delta n f i v : (i < n)%nat -> sumn n (fun j => f j + (if Nat.eqb j i then v else 0)) = sumn n f + v.
Proof.
  intro Hi. rewrite (sumn_change n f (fun j => f j + (if Nat.eqb j i then v else 0)) i Hi).
  - rewrite Nat.eqb_refl. ring.
  - intros j _ N. apply Nat.eqb_neq in N. rewrite N. ring.
Qed.
Lemma euclid_nonneg n w : 0 <= euclid n w.
Proof. apply sqrt_pos. Qed.
Lemma c41_combination : forall pw pr gamma flex eps d clk w0 b0 norm0 st0 ct0 s st ans, rect d -> index_perm d -> w0 = [] \/ length w0 = dim d -> 0 <= norm0 ->
  combination d (map p_alpha (d_points d)) w0 ->
  ftrain pw L2 pr gamma flex eps d clk w0 b0 norm0 st0 ct0 = Ok (Some (s, st, ans)) -> combination d (f_al s) (f_w s).
Proof.
  intros pw pr gamma flex eps d clk w0 b0 norm0 st0 ct0 s st ans HR HI HW H0 HC E.
  destruct (ftrain_inv pw L2 pr gamma flex eps d w0 b0 norm0 st0 ct0 clk HR HI HW (fun C => ltac:(discriminate)) (fun s => 0 <= f_norm s /\ combination d (f_al s) (f_w s))) as (s1 & st1 & E1 & _ & _ & Qs & _); auto.
  - intros idx s0 s' Hx Lw La (N0 & C0) (_ & Hn & Hm & _ & Ha & _). specialize (Hn ltac:(discriminate)). specialize (Hm eq_refl). split; [rewrite Hn; apply euclid_nonneg|].
    intros j Hj. rewrite Hm, nz_moved by exact Hj. rewrite (sumn_ext _ _ (fun i => flambda pr gamma s0 * (nz (f_al s0) i * IZR (p_y (pt d i)) * nz (p_x (pt d i)) j) + (if Nat.eqb i idx then rate pr * IZR (p_y (pt d idx)) * nz (p_x (pt d idx)) j else 0))).
    + rewrite sum_delta, sumn_scal, <- (C0 j Hj) by exact Hx. unfold flambda, fm_lam. destruct (Rlt_dec 0 (f_norm s0)) as [L|L].
      * destruct (Req_EM_T (f_norm s0) 0); [lra|]. destruct (Req_EM_T (nz (f_w s0) j) 0) as [->|]; field; lra.
      * destruct (Req_EM_T (f_norm s0) 0); [ring|lra].
    + intros i Hi. rewrite (Ha i Hi). destruct (Nat.eqb_spec i idx) as [->|]; ring.
  - split; [exact H0|]. cbn [fstart f_w f_al]. intros j Hj. rewrite <- (HC j Hj). destruct w0; [rewrite nz_repeat; destruct j; reflexivity|reflexivity].
  - rewrite E in E1. injection E1 as -> -> ->. apply Qs.
Qed.
Lemma floop_S pw kind pr gamma flex eps d clk fuel k steps s : clk k = true -> floop pw kind pr gamma flex eps d clk (S fuel) k steps s =
  (let* s1 := fpass pw kind pr gamma flex eps d steps (seq 0 (size d)) (f_reset s) in
   if Nat.eqb (f_e s1) 0 || Nat.ltb (max_it pr) (S steps) || Nat.ltb (max_up pr) (f_ctot s1) then Ok (Some (s1, S steps)) else floop pw kind pr gamma flex eps d clk fuel (S k) (S steps) s1).
Proof. intro H. cbn [floop]. rewrite H. reflexivity. Qed.
Lemma gloop_S pr gamma d K clk fuel k steps s : clk k = true -> gloop pr gamma d K clk (S fuel) k steps s =
  (let* r := gpass pr gamma d K steps (seq 0 (size d)) (g_reset s) in
   match r with
   | None => Ok (Some None)
   | Some s1 => if Nat.eqb (g_e s1) 0 || Nat.ltb (max_it pr) (S steps) || Nat.ltb (max_up pr) (g_ctot s1) then Ok (Some (Some (s1, S steps))) else gloop pr gamma d K clk fuel (S k) (S steps) s1
   end).
Proof. intro H. cbn [gloop]. rewrite H. reflexivity. Qed.
(** A run: one point 1 with label 1; the first pass makes an update, the second ends the run. *)
Lemma px1_perm : rect px1 /\ index_perm px1.
Proof. destruct px1_ok as (A & B & _). split; [exact A|apply index_plain_perm; exact B]. Qed.
Ltac rle := match goal with |- context [Rle_dec ?a ?b] => destruct (Rle_dec a b); try (exfalso; cbn [Rabs] in *; lra) end.
Lemma c41_margin_ex : exists s st, ftrain Rpower L2 (lim 1 5) (1/2) 0 (1/1000) px1 (fun _ => true) [] 0 0 0 0 = Ok (Some (s, st, true)) /\ f_w s = [1] /\ f_b s = 1 /\ f_norm s = 1 /\ rect px1 /\ index_perm px1.
Proof.
  destruct px1_perm as (HR & HI). assert (L2 = L1 -> (0 < dim px1)%nat) as HQ by discriminate. unfold ftrain. change (S (max_it (lim 1 5))) with 6%nat. rewrite floop_S by reflexivity. change (seq 0 (size px1)) with [0%nat].
  match goal with |- context [fpass _ _ _ _ _ _ _ _ [0%nat] ?s] => destruct (fpass_step Rpower L2 (lim 1 5) (1/2) 0 (1/1000) px1 HR HQ 0 0 [] s) as (idx & s1 & Hx & V & E & Up & Hs1); [cbn; lia|split; [reflexivity|]; split; [reflexivity|]; split; [exact HI|cbn; lia]|] end.
  assert (idx = 0%nat) as -> by (cbn in Hx; lia). rewrite E. clear E.
  destruct (Rle_dec _ _) as [_|N]; [|exfalso; apply N; unfold yf, inner; cbn; lra]. cbn [fpass obind].
  destruct Up as (_ & Hn & Hm & Hb & Ha & He & Hc). specialize (Hn ltac:(discriminate)). specialize (Hm eq_refl). cbn [f_reset f_w f_norm f_b f_al f_e f_ctot] in *.
  assert (f_w s1 = [1]) as W1. { rewrite Hm. unfold moved. change (seq 0 (dim px1)) with [0%nat]. cbn [map]. unfold fm_lam. destruct (Rlt_dec 0 0); [lra|]. f_equal. cbn. lra. }
  assert (f_norm s1 = 1) as N1. { rewrite Hn, W1. unfold euclid, inner. cbn. replace (0 + 1 * 1) with 1 by ring. apply sqrt_1. }
  assert (f_b s1 = 1) as B1 by (rewrite Hb; cbn; lra).
  rewrite He, Hc. cbn [Nat.eqb orb Nat.ltb Nat.leb max_it max_up lim]. change (mkParams 1 5 5) with (lim 1 5). rewrite floop_S by reflexivity. change (seq 0 (size px1)) with [0%nat].
  match goal with |- context [fpass _ _ _ _ _ _ _ _ [0%nat] ?s] => destruct (fpass_step Rpower L2 (lim 1 5) (1/2) 0 (1/1000) px1 HR HQ 1 0 [] s) as (idx & s2 & Hx2 & V2 & E & Up & Hs2); [cbn; lia|eapply reset_ready; exact Hs1|] end.
  assert (idx = 0%nat) as -> by (cbn in Hx2; lia). rewrite E. clear E.
  destruct (Rle_dec _ _) as [L|_]; [exfalso; revert L; cbn [f_reset f_w f_norm f_b f_al]; rewrite W1, B1, N1; unfold yf, inner; cbn; lra|].
  cbn [fpass obind f_reset f_e Nat.ltb Nat.leb andb]. cbn [obind fpass f_e Nat.eqb orb]. eexists _, _. split; [reflexivity|]. cbn [f_w f_b f_norm]. auto 10.
Qed.
Lemma c41_norm_ex : exists s st, ftrain Rpower L2 (lim 1 5) (1/2) 0 (1/1000) px1 (fun _ => true) [] 0 0 0 0 = Ok (Some (s, st, true)) /\ norm_of Rpower L2 (dim px1) [] 0 /\ f_norm s = 1.
Proof.
  destruct c41_margin_ex as (s & st & E & _ & _ & N & _). exists s, st. split; [exact E|]. split; [|exact N]. cbn [norm_of]. unfold euclid, inner. cbn. rewrite Rmult_0_r, Rplus_0_r, sqrt_0. reflexivity.
Qed.
Lemma c41_combination_ex : exists s st, ftrain Rpower L2 (lim 1 5) (1/2) 0 (1/1000) px1 (fun _ => true) [] 0 0 0 0 = Ok (Some (s, st, true)) /\ combination px1 (map p_alpha (d_points px1)) [] /\ f_w s = [1].
Proof.
  destruct c41_margin_ex as (s & st & E & W & _). exists s, st. split; [exact E|]. split; [|exact W]. intros j Hj. cbn. destruct j; cbn; ring.
Qed.
(** C41: with the L1 formulation the norm kept is not the largest component: with the one point 1 of label 1 and gamma = 5, training answers
    true with w = 1, b = 1 and norm 0, although y (w.x + b) = 2 < gamma * 1. *)
Lemma c41_l1_norm_refuted : exists s st, ftrain Rpower L1 (lim 1 5) 5 0 (1/1000) px1 (fun _ => true) [] 0 0 0 0 = Ok (Some (s, st, true)) /\
  f_w s = [1] /\ norm_of Rpower L1 (dim px1) (f_w s) 1 /\ f_norm s = 0 /\ yf px1 (f_w s) (f_b s) (pt px1 0) < 5 * 1.
Proof.
  destruct px1_perm as (HR & HI). assert (L1 = L1 -> (0 < dim px1)%nat) as HQ by (cbn; lia). unfold ftrain. change (S (max_it (lim 1 5))) with 6%nat. rewrite floop_S by reflexivity. change (seq 0 (size px1)) with [0%nat].
  match goal with |- context [fpass _ _ _ _ _ _ _ _ [0%nat] ?s] => destruct (fpass_step Rpower L1 (lim 1 5) 5 0 (1/1000) px1 HR HQ 0 0 [] s) as (idx & s1 & Hx & V & E & Up & Hs1); [cbn; lia|split; [reflexivity|]; split; [reflexivity|]; split; [exact HI|cbn; lia]|] end.
  assert (idx = 0%nat) as -> by (cbn in Hx; lia). rewrite E. clear E.
  destruct (Rle_dec _ _) as [_|N]; [|exfalso; apply N; unfold yf, inner; cbn; lra]. cbn [fpass obind].
  destruct Up as (Hst & _ & _ & Hb & Ha & He & Hc). cbn [f_reset f_w f_norm f_b f_al f_e f_ctot] in *.
  unfold fm_step in Hst. cbn [f_norm f_w f_lw f_n f_reset] in Hst. change (repeat 0 (dim px1)) with [0] in Hst. cbn [vget nth_error obind] in Hst. change (seq 0 (dim px1)) with [0%nat] in Hst. cbn [ofold] in Hst. unfold fm_coord1 in Hst. cbn [vget nth_error obind pt d_points px1 nth p_x] in Hst. 
  destruct (Req_EM_T 0 0); [|lra]. cbv zeta in Hst. cbn [vupd upd obind Nat.ltb Nat.leb] in Hst. unfold fm_lam in Hst. destruct (Rlt_dec 0 0); [lra|]. injection Hst as W1 N1 _ _.
  assert (f_w s1 = [1]) as W1' by (rewrite <- W1; f_equal; cbn; lra).
  assert (f_norm s1 = 0) as N1' by (rewrite <- N1; apply Rabs_R0).
  assert (f_b s1 = 1) as B1 by (rewrite Hb; cbn; lra).
  rewrite He, Hc. cbn [Nat.eqb orb Nat.ltb Nat.leb max_it max_up lim]. change (mkParams 1 5 5) with (lim 1 5). rewrite floop_S by reflexivity. change (seq 0 (size px1)) with [0%nat].
  match goal with |- context [fpass _ _ _ _ _ _ _ _ [0%nat] ?s] => destruct (fpass_step Rpower L1 (lim 1 5) 5 0 (1/1000) px1 HR HQ 1 0 [] s) as (idx & s2 & Hx2 & V2 & E & Up & Hs2); [cbn; lia|eapply reset_ready; exact Hs1|] end.
  assert (idx = 0%nat) as -> by (cbn in Hx2; lia). rewrite E. clear E.
  destruct (Rle_dec _ _) as [L|_]; [exfalso; revert L; cbn [f_reset f_w f_norm f_b f_al]; rewrite W1', B1, N1'; unfold yf, inner; cbn; lra|].
  cbn [fpass obind f_reset f_e Nat.ltb Nat.leb andb]. cbn [obind fpass f_e Nat.eqb orb]. eexists _, _. split; [reflexivity|]. cbn [f_reset f_w f_b f_norm]. rewrite W1', B1. split; [reflexivity|]. split; [|split; [exact N1'|unfold yf, inner; cbn; lra]].
  split; [intros j Hj; cbn in Hj; assert (j = 0%nat) as -> by lia|exists 0%nat; split; [cbn; lia|]]; cbn; rewrite Rabs_R1; lra.
Qed.
(** C41: when the time is already over at the first test, the primal trainer answers true for every dataset. *)
Lemma c41_timeout_refuted : forall pw kind pr gamma flex eps d clk w0 b0 norm0 st0 ct0, clk 0%nat = false ->
  exists s, ftrain pw kind pr gamma flex eps d clk w0 b0 norm0 st0 ct0 = Ok (Some (s, st0, true)) /\ f_b s = b0 /\ f_norm s = norm0.
Proof. intros. unfold ftrain. cbn [floop]. rewrite H. cbn [obind]. eexists. split; [reflexivity|]. auto. Qed.
Lemma c41_timeout_refuted_ex : (fun k : nat => Nat.ltb 0 k) O = false.
Proof. reflexivity. Qed.

(** ** The dual trainer *)
Lemma gm_w_ok d al w0 : rect d -> length al = size d -> length w0 = dim d -> exists w, gm_w d al w0 = Ok w /\ length w = dim d /\
  forall j, (j < dim d)%nat -> nz w j = nz w0 j + sumn (size d) (fun i => nz al i * IZR (p_y (pt d i)) * nz (p_x (pt d i)) j).
Proof.
  intros HR La L0. unfold gm_w.
  destruct (ofold_seq (fun w i => ofold (fun w j => let* a := vget al j in let* p := vget (d_points d) j in let* v := vget (p_x p) i in aupd i (fun c => c + a * IZR (p_y p) * v) w) (seq 0 (size d)) w)
    (fun k (w : vec) => length w = dim d /\ (forall j, (j < k)%nat -> nz w j = nz w0 j + sumn (size d) (fun i => nz al i * IZR (p_y (pt d i)) * nz (p_x (pt d i)) j)) /\ (forall j, (k <= j)%nat -> nz w j = nz w0 j)) (dim d) w0) as (w & E & L & A & _).
  - split; [exact L0|]. split; [intros; lia|reflexivity].
  - intros i w Hi (L & A & B).
    destruct (ofold_seq (fun w j => let* a := vget al j in let* p := vget (d_points d) j in let* v := vget (p_x p) i in aupd i (fun c => c + a * IZR (p_y p) * v) w)
      (fun k (w' : vec) => length w' = dim d /\ nz w' i = nz w i + sumn k (fun r => nz al r * IZR (p_y (pt d r)) * nz (p_x (pt d r)) i) /\ (forall j, j <> i -> nz w' j = nz w j)) (size d) w) as (w' & E & L' & A' & B').
    + split; [exact L|]. split; [cbn; ring|reflexivity].
    + intros r w1 Hr (L1' & A1 & B1). rewrite vget_nz by lia. cbn [obind]. rewrite vget_pt by auto. cbn [obind]. rewrite vget_nz by (rewrite rect_pt; auto). cbn [obind].
      destruct (aupd_lt i (fun c => c + nz al r * IZR (p_y (pt d r)) * nz (p_x (pt d r)) i) w1 ltac:(lia)) as (w2 & -> & U). exists w2. split; [reflexivity|].
      split; [rewrite (upd_length _ _ _ _ U); exact L1'|]. split; [rewrite (nz_upd_same _ _ _ _ U), A1; cbn [sumn]; ring|]. intros j N. rewrite (nz_upd_other _ _ _ _ _ U) by auto. apply B1. exact N.
    + exists w'. split; [exact E|]. split; [exact L'|]. split.
      * intros j Hj. destruct (Nat.eq_dec j i) as [->|N]; [rewrite A', (B i) by lia; reflexivity|]. rewrite B' by exact N. apply A. lia.
      * intros j Hj. rewrite B' by lia. apply B. lia.
  - exists w. auto.
Qed.
Section DualRun.
Variable pw : R -> R -> R.
Variable kern : kernel.
Variable pr : params.
Variable gamma : R.
Variable clk : nat -> bool.
Variable d : data R.
Variable func0 w0 : vec.
Variable b0 norm0 : R.
Variable st0 ct0 : nat.
Hypothesis HR : rect d.
Hypothesis HI : index_perm d.
Hypothesis HT : k_type kern <> Custom.
Hypothesis HC : k_computed kern = false.
Hypothesis HF : func0 = [] \/ length func0 = size d.
Definition kv (i j : nat) : R := kval pw (k_type kern) (k_param kern) (fun _ _ _ => 0) (dim d) (pt d i) (pt d j).
Definition gstart : gstate := mkG (match func0 with [] => repeat 0 (size d) | f => f end) b0 norm0 (map p_alpha (d_points d)) (d_index d) 0 1 ct0.
Lemma gtrain_inv (Q : gstate -> Prop) :
  (forall idx s s', (idx < size d)%nat -> length (g_al s) = size d -> Q s -> gwrong gamma d s idx -> gbad pr gamma d kv s idx = false -> gupdated pr gamma d kv idx s s' -> Q s') -> (forall s, Q s -> Q (g_reset s)) -> Q gstart ->
  (exists s w st, gtrain pw kern pr gamma clk d func0 w0 b0 norm0 st0 ct0 = Ok (Some (Some (s, w, st, Nat.eqb (g_e s) 0))) /\ length (g_al s) = size d /\ Q s /\
    length w = dim d /\ (forall j, (j < dim d)%nat -> nz w j = nz (vresize 0 (dim d) w0) j + sumn (size d) (fun i => nz (g_al s) i * IZR (p_y (pt d i)) * nz (p_x (pt d i)) j)) /\
    (g_e s = 0%nat -> forall idx, (idx < size d)%nat -> ~ gwrong gamma d s idx)) \/
  (gtrain pw kern pr gamma clk d func0 w0 b0 norm0 st0 ct0 = Ok (Some None) /\ exists idx s', (idx < size d)%nat /\ Q s' /\ gwrong gamma d s' idx /\ gbad pr gamma d kv s' idx = true).
Proof using HR HI HT HC HF.
  intros A B Q0. unfold gtrain. destruct (kernel_any pw kern d HC HR HT) as (k' & -> & _ & _ & HK). cbn [obind]. cbv zeta. change (mkG _ b0 norm0 _ _ 0 1 ct0) with gstart.
  destruct (gloop_inv pr gamma d (k_K k') kv HK Q clk A B (S (max_it pr)) 0 st0 gstart ltac:(lia) ltac:(lia)) as [(s & st & E & Hs & Qs & W)|(E & X)].
  - split; [|split; [apply map_length|exact HI]]. cbn [gstart g_func]. destruct HF as [->|L]; [apply repeat_length|]. destruct func0; [rewrite repeat_length; reflexivity|exact L].
  - exact Q0.
  - left. rewrite E. cbn [obind]. destruct (gm_w_ok d (g_al s) (vresize 0 (dim d) w0) HR Hs) as (w & -> & Lw & Hw); [unfold vresize; rewrite app_length, firstn_length, repeat_length; lia|]. cbn [obind].
    exists s, w, st. split; [reflexivity|]. split; [exact Hs|]. split; [exact Qs|]. split; [exact Lw|]. split; [exact Hw|]. apply W. right. cbn. lia.
  - right. rewrite E. cbn [obind]. auto.
Qed.
End DualRun.
Lemma gvalue_step pr gamma d k idx s s' : (idx < size d)%nat -> (forall r, (r < size d)%nat -> nz (g_func s) r = gvalue d k (g_al s) (g_b s) r) ->
  gupdated pr gamma d k idx s s' -> forall r, (r < size d)%nat -> nz (g_func s') r = gvalue d k (g_al s') (g_b s') r.
Proof.
  intros Hx H (Hf & Hb & _ & Ha & _) r Hr. rewrite (Hf r Hr), Hb, (H r Hr). unfold gvalue.
  rewrite (sumn_ext _ (fun i => nz (g_al s') i * IZR (p_y (pt d i)) * k i r) (fun i => glambda pr gamma s * (nz (g_al s) i * IZR (p_y (pt d i)) * k i r) + (if Nat.eqb i idx then rate pr * IZR (p_y (pt d idx)) * k idx r else 0))).
  - rewrite sum_delta, sumn_scal by exact Hx. ring.
  - intros i Hi. rewrite (Ha i Hi). destruct (Nat.eqb_spec i idx) as [->|]; ring.
Qed.
(** C41: the dual trainer either meets a number that is not finite, or ends with function values equal to their definition from alphas, labels,
    kernel and bias, and with weights raised by the combination of the points; when it answers true, every point has y * f > gamma * norm. *)
Lemma c41_dual : forall pw kern pr gamma clk d func0 w0 b0 norm0 st0 ct0, rect d -> index_perm d -> k_type kern <> Custom -> k_computed kern = false -> length func0 = size d ->
  (forall r, (r < size d)%nat -> nz func0 r = gvalue d (kv pw kern d) (map p_alpha (d_points d)) b0 r) ->
  gtrain pw kern pr gamma clk d func0 w0 b0 norm0 st0 ct0 = Ok (Some None) \/
  exists s w st ans, gtrain pw kern pr gamma clk d func0 w0 b0 norm0 st0 ct0 = Ok (Some (Some (s, w, st, ans))) /\ length (g_al s) = size d /\
    (forall r, (r < size d)%nat -> nz (g_func s) r = gvalue d (kv pw kern d) (g_al s) (g_b s) r) /\
    (w0 = [] -> combination d (g_al s) w) /\
    (ans = true -> forall i, (i < size d)%nat -> gamma * g_norm s < IZR (p_y (pt d i)) * gvalue d (kv pw kern d) (g_al s) (g_b s) i).
Proof.
  intros pw kern pr gamma clk d func0 w0 b0 norm0 st0 ct0 HR HI HT HC HF H0.
  destruct (gtrain_inv pw kern pr gamma clk d func0 w0 b0 norm0 st0 ct0 HR HI HT HC (or_intror HF) (fun s => forall r, (r < size d)%nat -> nz (g_func s) r = gvalue d (kv pw kern d) (g_al s) (g_b s) r)) as [(s & w & st & E & La & Qs & Lw & Hw & W)|(E & _)].
  - intros idx s s' Hx _ Q0 _ _ Up. exact (gvalue_step pr gamma d _ idx s s' Hx Q0 Up).
  - auto.
  - intros r Hr. cbn [gstart g_func g_al g_b]. rewrite <- (H0 r Hr). destruct func0; [|reflexivity]. cbn in HF. lia.
  - right. exists s, w, st, (Nat.eqb (g_e s) 0). split; [exact E|]. split; [exact La|]. split; [exact Qs|]. split.
    + intros -> j Hj. rewrite (Hw j Hj). unfold vresize. rewrite firstn_nil. cbn [app length]. rewrite nz_repeat. ring.
    + intros Z i Hi. apply Nat.eqb_eq in Z. specialize (W Z i Hi). unfold gwrong in W. rewrite (Qs i Hi) in W. lra.
  - left. exact E.
Qed.
(** Non-trivial start: alpha 1 at the one point, function value 1 * 1 + 1 = 2. *)
Definition px1a : data R := mkData [mkPoint [1] 1%Z 1%Z 1] [1]%Z [0]%Z [] [1]%Z [1]%Z 1 1 false false false true.
Lemma px1a_ok : rect px1a /\ index_perm px1a.
Proof. split; [intros p [<-|[]]; reflexivity|apply Permutation_refl]. Qed.
Lemma c41_dual_ex : rect px1a /\ index_perm px1a /\ k_type (kernel_make InnerProduct 0) <> Custom /\ k_computed (kernel_make InnerProduct 0) = false /\ length [2] = size px1a /\
  (forall r, (r < size px1a)%nat -> nz [2] r = gvalue px1a (kv Rpower (kernel_make InnerProduct 0) px1a) (map p_alpha (d_points px1a)) 1 r).
Proof.
  destruct px1a_ok as (A & B). split; [exact A|]. split; [exact B|]. split; [discriminate|]. split; [reflexivity|]. split; [reflexivity|]. intros r Hr. cbn in Hr. assert (r = 0%nat) as -> by lia.
  unfold gvalue, kv. cbn. unfold inner. cbn. ring.
Qed.
(** C41: with gamma not 0, the first training of a dual fixed-margin perceptron always divides by its norm 0. *)
Lemma c41_dual_fresh_refuted : forall pw kern pr gamma clk d w0 b0 st0 ct0, rect d -> index_perm d -> k_type kern <> Custom -> k_computed kern = false -> (0 < size d)%nat -> gamma <> 0 -> clk 0%nat = true ->
  gtrain pw kern pr gamma clk d [] w0 b0 0 st0 ct0 = Ok (Some None).
Proof.
  intros pw kern pr gamma clk d w0 b0 st0 ct0 HR HI HT HC Hn Hg CK. unfold gtrain. destruct (kernel_any pw kern d HC HR HT) as (k' & -> & _ & _ & HK). cbn [obind]. cbv zeta. cbn [gloop]. rewrite CK.
  destruct (size d) as [|m] eqn:Em; [lia|]. cbn [seq]. rewrite <- Em in *.
  match goal with |- context [gpass _ _ _ _ _ _ ?s] => destruct (gpass_step pr gamma d (k_K k') (kv pw kern d) HK st0 0 (seq 1 m) s) as (idx & s' & Hx & _ & E & _); [lia|split; [apply repeat_length|]; split; [apply map_length|]; split; [exact HI|cbn; lia]|] end.
  rewrite E. unfold g_reset; cbn [g_func g_norm]. destruct (Rle_dec _ 0) as [_|N]; [|exfalso; apply N; unfold g_reset; cbn [g_func g_norm]; rewrite nz_repeat; lra].
  unfold gbad. cbn [g_norm]. destruct (Req_EM_T gamma 0); [contradiction|]. destruct (Req_EM_T 0 0); [reflexivity|lra].
Qed.
Lemma c41_dual_fresh_refuted_ex : rect px1 /\ index_perm px1 /\ (0 < size px1)%nat.
Proof. destruct px1_perm. repeat split; auto; cbn; lia. Qed.

(** C41: with gamma = 0 and a positive semidefinite kernel nothing is divided and no root of a negative number is taken: the first training ends, the norm kept is
    never below the norm of the vector the alphas stand for, and an answer true means that every point is strictly on its side. *)
Lemma quad_step n k c c' idx e : (idx < n)%nat -> (forall i j, (i < n)%nat -> (j < n)%nat -> k i j = k j i) -> (forall i, (i < n)%nat -> c' i = c i + (if Nat.eqb i idx then e else 0)) ->
  sumn n (fun i => sumn n (fun j => c' i * c' j * k i j)) = sumn n (fun i => sumn n (fun j => c i * c j * k i j)) + 2 * e * sumn n (fun i => c i * k i idx) + e * e * k idx idx.
Proof.
  intros Hx Hs Hc.
  rewrite (sumn_ext n _ (fun i => (sumn n (fun j => c i * c j * k i j) + e * (c i * k i idx)) + (if Nat.eqb i idx then e * sumn n (fun j => c j * k j idx) + e * e * k idx idx else 0))).
  - rewrite sum_delta by exact Hx. rewrite sumn_add, sumn_scal. ring.
  - intros i Hi. rewrite (sumn_ext n _ (fun j => c' i * (c j * k i j) + (if Nat.eqb j idx then c' i * e * k i idx else 0))).
    + rewrite sum_delta, sumn_scal, (Hc i Hi) by exact Hx. rewrite (sumn_ext n (fun j => c i * c j * k i j) (fun j => c i * (c j * k i j))) by (intros; ring). rewrite sumn_scal.
      destruct (Nat.eqb_spec i idx) as [->|]; [|ring]. rewrite (sumn_ext n (fun j => c j * k j idx) (fun j => c j * k idx j)) by (intros j Hj; rewrite (Hs idx j) by auto; reflexivity). ring.
    + intros j Hj. rewrite (Hc j Hj). destruct (Nat.eqb_spec j idx) as [->|]; ring.
Qed.
Lemma c41_dual_zero : forall pw kern pr clk d w0 st0 ct0, rect d -> index_perm d -> k_type kern <> Custom -> k_computed kern = false -> binary d -> psd (size d) (kv pw kern d) -> (forall p, In p (d_points d) -> p_alpha p = 0) ->
  exists s w st ans, gtrain pw kern pr 0 clk d [] w0 0 0 st0 ct0 = Ok (Some (Some (s, w, st, ans))) /\ gnorm2 d (kv pw kern d) (g_al s) <= g_norm s * g_norm s /\
    (ans = true -> forall i, (i < size d)%nat -> 0 < IZR (p_y (pt d i)) * gvalue d (kv pw kern d) (g_al s) (g_b s) i).
Proof.
  intros pw kern pr clk d w0 st0 ct0 HR HI HT HC HB HP H0. set (k := kv pw kern d).
  assert (forall i j, (i < size d)%nat -> (j < size d)%nat -> k i j = k j i) as Hs by (intros; apply kval_sym; intro; contradiction).
  assert (forall i, (i < size d)%nat -> nz (map p_alpha (d_points d)) i = 0) as HA. { intros i Hi. rewrite (nz_map p_alpha (mkPoint [] 0%Z 0%Z 0)) by exact Hi. apply H0. apply nth_In. exact Hi. }
  assert (forall i, (i < size d)%nat -> IZR (p_y (pt d i)) * IZR (p_y (pt d i)) = 1) as HY. { intros i Hi. destruct (HB (pt d i)) as [E|E]; [apply nth_In; exact Hi| |]; rewrite E; cbn; lra. }
  assert (forall idx, (idx < size d)%nat -> 0 <= k idx idx) as HD.
  { intros idx Hx. specialize (HP (fun i => 0 + if Nat.eqb i idx then 1 else 0)). rewrite (quad_step (size d) k (fun _ => 0) _ idx 1 Hx Hs) in HP by reflexivity.
    rewrite !(sumn_zero (size d)) in HP; [lra| |]; intros; [apply Rmult_0_l|]. apply sumn_zero. intros. ring. }
  assert (forall idx s (c' : nat -> R), (idx < size d)%nat -> (forall r, (r < size d)%nat -> nz (g_func s) r = gvalue d k (g_al s) (g_b s) r) -> gnorm2 d k (g_al s) <= g_norm s * g_norm s ->
    (forall j, (j < size d)%nat -> c' j = nz (g_al s) j * glambda pr 0 s + (if Nat.eqb j idx then rate pr else 0)) ->
    sumn (size d) (fun i => sumn (size d) (fun j => (c' i * IZR (p_y (pt d i))) * (c' j * IZR (p_y (pt d j))) * k i j)) <= gq pr 0 d k s idx) as STEP.
  { intros idx s c' Hx Hf Hn Ha. unfold gq, glambda in *. destruct (Req_EM_T 0 0) as [_|]; [|lra].
    rewrite (quad_step (size d) k (fun i => nz (g_al s) i * IZR (p_y (pt d i))) (fun i => c' i * IZR (p_y (pt d i))) idx (rate pr * IZR (p_y (pt d idx))) Hx Hs).
    - fold (gnorm2 d k (g_al s)). rewrite (Hf idx Hx). unfold gvalue. set (S0 := sumn (size d) (fun i => nz (g_al s) i * IZR (p_y (pt d i)) * k i idx)).
      specialize (HY idx Hx). specialize (HD idx Hx). set (y := IZR (p_y (pt d idx))) in *. set (r := rate pr) in *. set (c := k idx idx) in *.
      replace (r * y * (r * y) * c) with (r * r * c * (y * y)) by ring. replace (2 * r * y * 1 * (1 * (S0 + g_b s) + r * y * (c + 1) + g_b s * (1 - 1) - g_b s)) with (2 * (r * y) * S0 + 2 * (r * r) * (c + 1) * (y * y)) by ring. rewrite HY. pose proof (Rle_0_sqr r) as SQ. unfold Rsqr in SQ. assert (0 <= r * r * (c + 1)) by (apply Rmult_le_pos; lra). lra.
    - intros i Hi. rewrite (Ha i Hi). destruct (Nat.eqb_spec i idx) as [->|]; ring. }
  destruct (gtrain_inv pw kern pr 0 clk d [] w0 0 0 st0 ct0 HR HI HT HC (or_introl eq_refl) (fun s => (forall r, (r < size d)%nat -> nz (g_func s) r = gvalue d k (g_al s) (g_b s) r) /\ gnorm2 d k (g_al s) <= g_norm s * g_norm s)) as [(s & w & st & E & La & (Qf & Qn) & Lw & Hw & W)|(E & idx & s' & Hx & (Qf & Qn) & _ & Bad)].
  - intros idx s s' Hx _ (Qf & Qn) _ Bad Up. split; [exact (gvalue_step pr 0 d _ idx s s' Hx Qf Up)|]. pose proof Up as (_ & _ & En & Ha & _). pose proof (STEP idx s (nz (g_al s')) Hx Qf Qn Ha) as ST. pose proof (HP (fun i => nz (g_al s') i * IZR (p_y (pt d i)))) as POS. cbv beta in POS. fold k in En, POS. rewrite En, sqrt_sqrt; [exact ST|]. lra.
  - auto.
  - assert (forall f : nat -> R, sumn (size d) (fun i => nz (map p_alpha (d_points d)) i * IZR (p_y (pt d i)) * f i) = 0) as Z by (intro f; apply sumn_zero; intros i Hi; rewrite HA by exact Hi; ring).
    cbn [gstart g_func g_al g_b g_norm]. split.
    + intros r Hr. rewrite nz_repeat. unfold gvalue. rewrite (Z (fun i => k i r)). ring.
    + unfold gnorm2. rewrite sumn_zero; [lra|]. intros i Hi. apply sumn_zero. intros j Hj. rewrite HA by exact Hi. ring.
  - exists s, w, st, (Nat.eqb (g_e s) 0). split; [exact E|]. split; [exact Qn|]. intros Z i Hi. apply Nat.eqb_eq in Z. specialize (W Z i Hi). unfold gwrong in W. rewrite (Qf i Hi) in W. fold k. lra.
  - exfalso. unfold gbad in Bad. destruct (Req_EM_T 0 0) as [_|]; [|lra]. fold k in Bad. destruct (Rlt_dec (gq pr 0 d k s' idx) 0) as [L|]; [|discriminate].
    set (c' := fun j => nz (g_al s') j * glambda pr 0 s' + (if Nat.eqb j idx then rate pr else 0)). pose proof (STEP idx s' c' Hx Qf Qn (fun j _ => eq_refl)) as ST. pose proof (HP (fun i => c' i * IZR (p_y (pt d i)))) as POS. cbv beta in POS. fold k in POS. lra.
Qed.
Lemma c41_dual_zero_ex : rect px2 /\ index_perm px2 /\ binary px2 /\ psd (size px2) (kv Rpower (kernel_make InnerProduct 0) px2) /\ (forall p, In p (d_points px2) -> p_alpha p = 0).
Proof.
  destruct px2_ok as (A & B & C). repeat match goal with |- _ /\ _ => split end; auto; [|intros p [<-|[<-|[]]]; reflexivity].
  apply (psd_ext _ (fun i j => inner 1 (p_x (pt px2 i)) (p_x (pt px2 j)) ^ 1)); [intros; unfold kv; cbn [pow]; rewrite Rmult_1_r; reflexivity|]. apply psd_inner_pow.
Qed.
(** C41: but the norm kept is not the norm: with gamma = 0, rate 1 and the one point 1 of label 1, alpha is 1, the norm is 1, and the norm kept is the root of 5. *)
Lemma c41_dual_norm_refuted : exists s w st, gtrain Rpower (kernel_make InnerProduct 0) (lim 1 5) 0 (fun _ => true) px1 [] [] 0 0 0 0 = Ok (Some (Some (s, w, st, true))) /\
  nz (g_al s) 0 = 1 /\ gnorm2 px1 (kv Rpower (kernel_make InnerProduct 0) px1) (g_al s) = 1 /\ g_norm s = sqrt 5.
Proof.
  destruct px1_perm as (HR & HI). set (k := kv Rpower (kernel_make InnerProduct 0) px1).
  assert (k 0%nat 0%nat = 1) as K1 by (unfold k, kv, kval, inner; cbn; ring).
  unfold gtrain. destruct (kernel_any Rpower (kernel_make InnerProduct 0) px1 eq_refl HR ltac:(discriminate)) as (k' & -> & _ & _ & HK). cbn [obind]. cbv zeta. change (S (max_it (lim 1 5))) with 6%nat. rewrite gloop_S by reflexivity. change (seq 0 (size px1)) with [0%nat].
  match goal with |- context [gpass _ _ _ _ _ [0%nat] ?s] => destruct (gpass_step (lim 1 5) 0 px1 (k_K k') k HK 0 0 [] s) as (idx & s1 & Hx & _ & E & Up & Hs1); [cbn; lia|split; [reflexivity|]; split; [reflexivity|]; split; [exact HI|cbn; lia]|] end.
  assert (idx = 0%nat) as -> by (cbn in Hx; lia). rewrite E. clear E. unfold g_reset; cbn [g_func g_norm]. destruct (Rle_dec _ 0) as [_|N]; [|exfalso; apply N; cbn; lra].
  destruct Up as (Hf & Hb & Hn & Ha & He & Hc). specialize (Hf 0%nat ltac:(cbn; lia)). specialize (Ha 0%nat ltac:(cbn; lia)).
  unfold gbad. unfold gq, glambda in Hn, Hf, Ha |- *. destruct (Req_EM_T 0 0) as [_|]; [|lra]. unfold g_reset in *; cbn [g_func g_norm g_b g_al g_e g_ctot] in *. rewrite K1 in *. change (IZR (p_y (pt px1 0))) with 1 in *. change (rate (lim 1 5)) with 1 in *. change (nz (repeat 0 (size px1)) 0) with 0 in *. change (nz (map p_alpha (d_points px1)) 0) with 0 in *. cbn [Nat.eqb] in Ha.
  destruct (Rlt_dec _ 0) as [L|_]; [exfalso; lra|]. cbn [gpass obind]. rewrite He, Hc. cbn [Nat.eqb orb Nat.ltb Nat.leb max_it max_up lim]. change (mkParams 1 5 5) with (lim 1 5). rewrite gloop_S by reflexivity. change (seq 0 (size px1)) with [0%nat].
  match goal with |- context [gpass _ _ _ _ _ [0%nat] ?s] => destruct (gpass_step (lim 1 5) 0 px1 (k_K k') k HK 1 0 [] s) as (idx & s2 & Hx2 & _ & E & _ & Hs2); [cbn; lia|eapply greset_ready; exact Hs1|] end.
  assert (idx = 0%nat) as -> by (cbn in Hx2; lia). change (mkParams 1 5 5) with (lim 1 5). rewrite E. clear E. unfold g_reset; cbn [g_func g_norm]. rewrite Hf. destruct (Rle_dec _ 0) as [L|_]; [exfalso; revert L; cbn; lra|].
  cbn [gpass obind g_reset g_e Nat.ltb Nat.leb andb Nat.eqb orb]. destruct Hs1 as (_ & La & _).
  destruct (gm_w_ok px1 (g_al s1) (vresize 0 (dim px1) []) HR La eq_refl) as (w & Ew & _). cbn [g_al]. rewrite Ew. cbn [obind]. do 3 eexists. split; [reflexivity|]. cbn [g_al g_norm].
  split; [lra|]. split; [|rewrite Hn; f_equal; lra]. unfold gnorm2. change (size px1) with 1%nat. cbn [sumn]. rewrite K1, Ha. cbn. lra.
Qed.
