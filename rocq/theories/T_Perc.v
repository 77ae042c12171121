(** Property lemmas for the perceptrons: C38, C39, C40, C68. *)
From Coq Require Import ZArith Bool List Permutation Lia Reals Lra Psatz.
From Verif Require Import Base ListLib M_Data M_Point L_Vec Loop M_Kernel S_Kernel L_Kernel M_Perc S_Perc L_Perc L_Perc2.
Import ListNotations.
Local Open Scope R_scope.

Lemma index_perm_ok d : index_perm d -> index_ok d.
Proof.
  intros H i Hi. pose proof (Permutation_length H) as L. rewrite map_length, seq_length in L.
  destruct (nth_error (d_index d) i) as [z|] eqn:E; [|apply nth_error_None in E; lia].
  apply nth_error_In in E. apply (Permutation_in _ H) in E. apply in_map_iff in E. destruct E as (m & <- & Hm). apply in_seq in Hm. exists m. split; auto. lia.
Qed.
Lemma index_perm_covers d p : index_perm d -> In p (d_points d) -> exists i, (i < size d)%nat /\ vis d i = p.
Proof.
  intros H Hp. apply (In_nth _ _ (mkPoint [] 0%Z 0%Z 0)) in Hp. destruct Hp as (m & Hm & Ep).
  pose proof (Permutation_length H) as L. rewrite map_length, seq_length in L.
  assert (In (Z.of_nat m) (d_index d)) as I by (apply (Permutation_in _ (Permutation_sym H)), in_map, in_seq; cbn; unfold size; lia).
  apply (In_nth _ _ 0%Z) in I. destruct I as (i & Hi & Ei). exists i. split; [lia|]. unfold vis. rewrite Ei, Nat2Z.id. exact Ep.
Qed.
Lemma index_plain_perm d : index_plain d -> index_perm d.
Proof. unfold index_plain, index_perm. intros ->. apply Permutation_refl. Qed.
Lemma index_plain_id d : index_plain d -> index_id d.
Proof. intros H i Hi. rewrite H. rewrite nth_error_map, (nth_error_nth' _ O) by (rewrite seq_length; auto). rewrite seq_nth by auto. reflexivity. Qed.

(** One point 1 with label 1; and the points 1 and -1, both with label 1. *)
Definition px1 : data R := mkData [mkPoint [1] 1%Z 1%Z 0] [1]%Z [0]%Z [] [1]%Z [1]%Z 1 1 false false false true.
Definition px2 : data R := mkData [mkPoint [1] 1%Z 1%Z 0; mkPoint [-3] (-1)%Z 2%Z 0] [1]%Z [1; 0]%Z [] [1; -1]%Z [1; 1]%Z 2 1 false false false true.
Definition lim (r : R) (n : nat) : params := mkParams r n n.
Lemma px2_ok : rect px2 /\ index_perm px2 /\ binary px2.
Proof.
  split; [intros p [<-|[<-|[]]]; reflexivity|]. split; [unfold index_perm; cbn; apply perm_swap|]. intros p [<-|[<-|[]]]; cbn; auto.
Qed.
Lemma px1_ok : rect px1 /\ index_plain px1 /\ binary px1.
Proof. split; [intros p [<-|[]]; reflexivity|]. split; [reflexivity|]. intros p [<-|[]]; cbn; auto. Qed.

Definition w_start (d : data R) (w0 : vec) : vec := match w0 with [] => repeat 0 (dim d) | _ => w0 end.
Lemma w_start_length d w0 : w0 = [] \/ length w0 = dim d -> length (w_start d w0) = dim d.
Proof. intro H. destruct w0; cbn; [apply repeat_length|]. destruct H; [discriminate|auto]. Qed.

Lemma ptrain_eq pr d clk w0 st0 ct0 : ptrain pr d clk w0 st0 ct0 =
  (let* r := ploop pr d clk (S (max_it pr)) 0 st0 (mkP (w_start d w0) 0 0 ct0 0) in
   Ok (match r with None => None | Some (s, st) => Some (s, st, Nat.eqb (ps_e s) 0) end)).
Proof. reflexivity. Qed.

(** C38: training always terminates, with a weight vector of the data's dimension, whatever the clock and the limits. *)
Lemma c38_train_total : forall pr d clk w0 st0 ct0, rect d -> index_perm d -> w0 = [] \/ length w0 = dim d ->
  exists s st b, ptrain pr d clk w0 st0 ct0 = Ok (Some (s, st, b)) /\ length (ps_w s) = dim d /\ (st0 <= st)%nat /\ (ct0 <= ps_ctot s)%nat.
Proof.
  intros pr d clk w0 st0 ct0 HR HI HW. rewrite ptrain_eq.
  destruct (ploop_inv pr d HR (index_perm_ok d HI) (fun s => ct0 <= ps_ctot s)%nat clk) with (fuel := S (max_it pr)) (k := O) (steps := st0) (s := mkP (w_start d w0) 0 0 ct0 0)
    as (s & st & -> & C & L & S0); cbn [ps_w ps_ctot]; auto; try lia.
  - intros. unfold pupdate. cbn [ps_ctot]. lia.
  - apply w_start_length. auto.
  - cbn [obind]. eexists _, _, _. split; [reflexivity|]. auto.
Qed.
Lemma c38_train_total_ex : rect px2 /\ index_perm px2 /\ dim px2 = 1%nat.
Proof. destruct px2_ok as (A & B & _). auto. Qed.

(** C38: when the loop is entered and training answers true, every training point is strictly on its side, and evaluate returns its label. *)
Lemma c38_success_separates : forall pr d clk w0 st0 ct0 s st, rect d -> index_perm d -> w0 = [] \/ length w0 = dim d -> clk O = true ->
  ptrain pr d clk w0 st0 ct0 = Ok (Some (s, st, true)) ->
  forall p, In p (d_points d) -> 0 < yf d (ps_w s) (ps_b s) p /\
    (p_y p = 1%Z \/ p_y p = (-1)%Z -> primal_evaluate (ps_w s) (ps_b s) (p_x p) = Ok (p_y p)).
Proof.
  intros pr d clk w0 st0 ct0 s st HR HI HW HC E p Hp. rewrite ptrain_eq in E.
  destruct (ploop_inv pr d HR (index_perm_ok d HI) (fun _ => True) clk) with (fuel := S (max_it pr)) (k := O) (steps := st0) (s := mkP (w_start d w0) 0 0 ct0 0)
    as (s1 & st1 & E1 & _ & L & _); cbn [ps_w]; auto; try lia; [apply w_start_length; auto|].
  rewrite E1 in E. cbn [obind] in E. injection E as <- <- Z. apply Nat.eqb_eq in Z.
  destruct (index_perm_covers d p HI Hp) as (i & Hi & <-).
  assert (0 < yf d (ps_w s1) (ps_b s1) (vis d i)) as Y.
  { apply (ploop_success pr d HR (index_perm_ok d HI) clk (S (max_it pr)) 0 st0 (mkP (w_start d w0) 0 0 ct0 0) s1 st1 (w_start_length d w0 HW) (or_introl HC) E1 Z i Hi). }
  split; auto. intro HY. unfold primal_evaluate. rewrite (HR _ Hp), L, Nat.eqb_refl. cbn [negb].
  assert (ofold (fun f j => let* a := aget (ps_w s1) j in let* c := aget (p_x (vis d i)) j in Ok (f + a * c)) (seq 0 (dim d)) (ps_b s1) = Ok (ps_b s1 + inner (dim d) (ps_w s1) (p_x (vis d i)))) as ->.
  { unfold inner. rewrite <- (fold_from_ok _ (fun j => let* a := aget (ps_w s1) j in let* c := aget (p_x (vis d i)) j in Ok (a * c))).
    - apply ofold_ext. intros f j Hj. apply in_seq in Hj. rewrite !aget_nz by (rewrite ?(HR _ Hp); lia). reflexivity.
    - intros j Hj. rewrite !aget_nz by (rewrite ?(HR _ Hp); lia). reflexivity. }
  cbn [obind]. unfold yf in Y. destruct HY as [HY|HY]; rewrite HY in *; destruct (Rle_dec 0 _); auto; lra.
Qed.

Lemma px1_train r clk : 0 < r -> clk O = true -> clk 1%nat = true -> forall w0 st ct, w0 = [] -> ptrain (lim r 5) px1 clk w0 st ct = Ok (Some (mkP [0 + r * 1 * 1] (0 + r * 1) (sqrt (inner 1 [0 + r * 1 * 1] [0 + r * 1 * 1])) (S ct) 0, S (S st), true)) \/ (4 <= st)%nat \/ (5 <= ct)%nat.
Proof.
  intros Hr C0 C1 w0 st ct ->. destruct px1_ok as (HR & HI & _). pose proof (index_perm_ok _ (index_plain_perm _ HI)) as HO.
  destruct (Nat.leb_spec 4 st); auto. destruct (Nat.leb_spec 5 ct); auto. left.
  rewrite ptrain_eq, (ploop_S _ _ _ _ _ _ _ C0). change (seq 0 (size px1)) with [0%nat].
  rewrite (ppass_step _ _ HR HO) by (cbn; auto). change (vis px1 0) with (mkPoint [1] 1%Z 1%Z 0).
  destruct (Rle_dec _ 0) as [_|N]; [|exfalso; apply N; unfold fscore, score, inner; cbn; lra].
  cbn [ppass obind]. unfold pupdate at 1 2 3. cbn [ps_e ps_ctot]. change (Nat.eqb 1 0) with false. change (max_it (lim r 5)) with 5%nat. change (max_up (lim r 5)) with 5%nat.
  destruct (Nat.ltb_spec 5 (S st)); [lia|]. destruct (Nat.ltb_spec 5 (S ct)); [lia|]. cbn [orb]. rewrite (ploop_S _ _ _ _ _ _ _ C1). change (seq 0 (size px1)) with [0%nat].
  rewrite (ppass_step _ _ HR HO) by (cbn; auto). change (vis px1 0) with (mkPoint [1] 1%Z 1%Z 0).
  destruct (Rle_dec _ 0) as [N|_]; [exfalso; revert N; unfold fscore, score, inner; cbn; lra|]. cbn [ps_e]. change (Nat.ltb 1 0) with false. rewrite andb_false_r. cbn [ppass obind]. cbn [ps_e]. change (Nat.eqb 0 0) with true. cbn [orb obind]. reflexivity.
Qed.
Lemma c38_success_separates_ex : exists s st, rect px1 /\ index_perm px1 /\ ptrain (lim 1 5) px1 (fun _ => true) [] 0 0 = Ok (Some (s, st, true)) /\ In (mkPoint [1] 1%Z 1%Z 0) (d_points px1).
Proof.
  destruct px1_ok as (A & B & _). destruct (px1_train 1 (fun _ => true) Rlt_0_1 eq_refl eq_refl [] 0 0 eq_refl) as [E|[L|L]]; try lia.
  eexists _, _. split; [exact A|]. split; [apply index_plain_perm; auto|]. split; [exact E|]. left. auto.
Qed.

(** C38: when the time is already over at the first test, training answers true for every dataset, separable or not. *)
Lemma c38_timeout_refuted : forall pr d clk w0 st0 ct0, clk O = false ->
  exists s, ptrain pr d clk w0 st0 ct0 = Ok (Some (s, st0, true)) /\ (w0 = [] -> forall p, yf d (ps_w s) (ps_b s) p = 0).
Proof.
  intros pr d clk w0 st0 ct0 HC. unfold ptrain. cbn [ploop]. rewrite HC. cbn [obind]. eexists. split; [reflexivity|]. intros -> p. cbn [ps_w ps_b]. unfold yf.
  assert (inner (dim d) (repeat 0 (dim d)) (p_x p) = 0) as ->; [|ring]. unfold inner. apply sumn_zero. intros i Hi. unfold nz. rewrite nth_repeat. ring.
Qed.
Lemma c38_timeout_refuted_ex : (fun k : nat => Nat.ltb 0 k) O = false.
Proof. reflexivity. Qed.

(** C72: the reported norm is the Euclidean norm of the weights when training starts from scratch, or has made an update. *)
Lemma c72_norm : forall pr d clk w0 st0 ct0 s st b, rect d -> index_perm d -> w0 = [] \/ length w0 = dim d ->
  ptrain pr d clk w0 st0 ct0 = Ok (Some (s, st, b)) -> w0 = [] \/ (ct0 < ps_ctot s)%nat -> ps_norm s = euclid (dim d) (ps_w s).
Proof.
  intros pr d clk w0 st0 ct0 s st b HR HI HW E HN. rewrite ptrain_eq in E.
  destruct (ploop_inv pr d HR (index_perm_ok d HI) (fun s => (ct0 <= ps_ctot s)%nat /\ (w0 = [] \/ (ct0 < ps_ctot s)%nat -> ps_norm s = euclid (dim d) (ps_w s))) clk) with (fuel := S (max_it pr)) (k := O) (steps := st0) (s := mkP (w_start d w0) 0 0 ct0 0)
    as (s1 & st1 & E1 & (_ & P) & _); cbn [ps_w ps_ctot ps_norm]; auto; try lia.
  - intros i s0 Hi (A & _) _ _. unfold pupdate. cbn [ps_ctot ps_norm ps_w]. split; [lia|]. auto.
  - split; auto. intros [->|L]; [|lia]. cbn [w_start]. unfold euclid. replace (inner (dim d) (repeat 0 (dim d)) (repeat 0 (dim d))) with 0; [symmetry; apply sqrt_0|].
    symmetry. unfold inner. apply sumn_zero. intros i Hi. unfold nz. rewrite nth_repeat. ring.
  - apply w_start_length. auto.
  - rewrite E1 in E. cbn [obind] in E. injection E as <- <- <-. auto.
Qed.
Lemma c72_norm_ex : exists s st, rect px1 /\ index_perm px1 /\ ptrain (lim 1 5) px1 (fun _ => true) [] 0 0 = Ok (Some (s, st, true)) /\ (0 < ps_ctot s)%nat.
Proof.
  destruct px1_ok as (A & B & _). destruct (px1_train 1 (fun _ => true) Rlt_0_1 eq_refl eq_refl [] 0 0 eq_refl) as [E|[L|L]]; try lia.
  eexists _, _. split; [exact A|]. split; [apply index_plain_perm; auto|]. split; [exact E|]. cbn. lia.
Qed.
(** C72: otherwise it may not be: training again from the learned weights 1 ends without an update, and reports the norm 0. *)
Lemma c72_primal_norm_refuted : exists s st b, rect px1 /\ index_perm px1 /\ ptrain (lim 1 5) px1 (fun _ => true) [1] 0 0 = Ok (Some (s, st, b)) /\ ps_norm s <> euclid (dim px1) (ps_w s).
Proof.
  destruct px1_ok as (HR & HI & _). pose proof (index_perm_ok _ (index_plain_perm _ HI)) as HO. eexists _, _, _. split; [exact HR|]. split; [apply index_plain_perm; auto|]. split.
  - rewrite ptrain_eq, ploop_S by reflexivity. change (seq 0 (size px1)) with [0%nat]. rewrite (ppass_step _ _ HR HO) by (cbn; auto). change (vis px1 0) with (mkPoint [1] 1%Z 1%Z 0).
    destruct (Rle_dec _ 0) as [N|_]; [exfalso; revert N; unfold fscore, score, inner; cbn; lra|].
    cbn [ps_e]. rewrite andb_false_r. cbn [ppass obind ps_e Nat.eqb orb]. reflexivity.
  - cbn [ps_norm ps_w]. unfold euclid. replace (inner (dim px1) (w_start px1 [1]) (w_start px1 [1])) with 1 by (unfold inner; cbn; ring). rewrite sqrt_1. lra.
Qed.

(** C39: Novikoff's bound. If (u, bu) separates the data with functional margin g, and every point has |x|^2 + 1 <= r2, a training run
    from scratch makes at most r2 (|u|^2 + bu^2) / g^2 updates, whatever the visiting order, learning rate, clock and limits. *)
Lemma c39_mistake_bound : forall pr d clk st0 ct0 u bu g r2 s st b, rect d -> index_perm d -> binary d -> 0 < rate pr -> 0 < g -> 0 <= r2 ->
  (forall p, In p (d_points d) -> g <= yf d u bu p) ->
  (forall p, In p (d_points d) -> inner (dim d) (p_x p) (p_x p) + 1 <= r2) ->
  ptrain pr d clk [] st0 ct0 = Ok (Some (s, st, b)) ->
  INR (ps_ctot s - ct0) * (g * g) <= r2 * (inner (dim d) u u + bu * bu).
Proof.
  intros pr d clk st0 ct0 u bu g r2 s st b HR HI HY Hrate Hg Hr2 Hm Hx E. unfold ptrain in E. pose proof (index_perm_ok d HI) as HO.
  destruct (ploop_inv pr d HR HO (nov pr d u bu g r2 ct0) clk) with (fuel := S (max_it pr)) (k := O) (steps := st0) (s := mkP (repeat 0 (dim d)) 0 0 ct0 0)
    as (s1 & st1 & E1 & P & _); cbn [ps_w ps_ctot ps_norm]; auto; try lia.
  - intros i s0 Hi P Lw L. apply nov_update; auto.
  - unfold nov. cbn [ps_ctot ps_w ps_b]. rewrite Nat.sub_diag. cbn [INR]. assert (forall v, inner (dim d) (repeat 0 (dim d)) v = 0) as Z.
    { intro v. unfold inner. apply sumn_zero. intros i Hi. unfold nz. rewrite nth_repeat. ring. } rewrite !Z. split; auto. split; lra.
  - apply repeat_length.
  - rewrite E1 in E. cbn [obind] in E. injection E as <- <- <-. apply (nov_bound pr d u bu g r2 ct0); auto.
Qed.
Lemma px2_margin : (forall p, In p (d_points px2) -> 1 <= yf px2 [1] 0 p) /\ (forall p, In p (d_points px2) -> inner (dim px2) (p_x p) (p_x p) + 1 <= 10).
Proof. split; intros p [<-|[<-|[]]]; unfold yf, inner; cbn; lra. Qed.
Lemma c39_mistake_bound_ex : exists s st b, rect px2 /\ index_perm px2 /\ binary px2 /\
  (forall p, In p (d_points px2) -> 1 <= yf px2 [1] 0 p) /\ (forall p, In p (d_points px2) -> inner (dim px2) (p_x p) (p_x p) + 1 <= 10) /\
  ptrain (lim 1 20) px2 (fun _ => true) [] 0 0 = Ok (Some (s, st, b)).
Proof.
  destruct px2_ok as (A & B & C). destruct px2_margin. destruct (c38_train_total (lim 1 20) px2 (fun _ => true) [] 0 0 A B (or_introl eq_refl)) as (s & st & b & E & _).
  exists s, st, b. auto 10.
Qed.

(** C39: hence training of separable data answers true as soon as the limits allow the bound and the time does not run out. *)
Lemma c39_success : forall pr d clk st0 ct0 u bu g r2 (B : nat), rect d -> index_perm d -> binary d -> 0 < rate pr -> 0 < g -> 0 <= r2 ->
  (forall p, In p (d_points d) -> g <= yf d u bu p) ->
  (forall p, In p (d_points d) -> inner (dim d) (p_x p) (p_x p) + 1 <= r2) ->
  r2 * (inner (dim d) u u + bu * bu) <= INR B * (g * g) ->
  (forall k, clk k = true) -> (ct0 + B <= max_up pr)%nat -> (st0 + B <= max_it pr)%nat ->
  exists s st, ptrain pr d clk [] st0 ct0 = Ok (Some (s, st, true)) /\ (ps_ctot s <= ct0 + B)%nat /\ forall p, In p (d_points d) -> 0 < yf d (ps_w s) (ps_b s) p.
Proof.
  intros pr d clk st0 ct0 u bu g r2 B HR HI HY Hrate Hg Hr2 Hm Hx HB HC HU HT. pose proof (index_perm_ok d HI) as HO.
  assert (forall s, nov pr d u bu g r2 ct0 s -> (ps_ctot s <= ct0 + B)%nat) as BD.
  { intros s N. pose proof (nov_bound pr d u bu g r2 ct0 Hrate s Hg Hr2 N) as LB.
    assert (INR (ps_ctot s - ct0) <= INR B) as LI by (apply (Rmult_le_reg_r (g * g)); [apply Rmult_lt_0_compat; auto|lra]). apply INR_le in LI. lia. }
  assert (nov pr d u bu g r2 ct0 (mkP (repeat 0 (dim d)) 0 0 ct0 0)) as N0.
  { unfold nov. cbn [ps_ctot ps_w ps_b]. rewrite Nat.sub_diag. cbn [INR]. assert (forall v, inner (dim d) (repeat 0 (dim d)) v = 0) as Z.
    { intro v. unfold inner. apply sumn_zero. intros i Hi. unfold nz. rewrite nth_repeat. ring. } rewrite !Z. split; auto. split; lra. }
  destruct (ploop_reaches pr d HR HO clk B ct0 (nov pr d u bu g r2 ct0) HC) with (fuel := S (max_it pr)) (k := O) (steps := st0) (s := mkP (repeat 0 (dim d)) 0 0 ct0 0) as (s & st & E & Z);
    cbn [ps_ctot ps_w]; auto; try lia.
  - intros i s0 Hi P Lw L. apply nov_update; auto.
  - apply repeat_length.
  - exists s, st. assert (ptrain pr d clk [] st0 ct0 = Ok (Some (s, st, true))) as ET by (unfold ptrain; rewrite E; cbn [obind]; rewrite Z; reflexivity). split; auto. split.
    + pose proof (c39_mistake_bound pr d clk st0 ct0 u bu g r2 s st true HR HI HY Hrate Hg Hr2 Hm Hx ET) as LB.
      assert (INR (ps_ctot s - ct0) <= INR B) as LI by (apply (Rmult_le_reg_r (g * g)); [apply Rmult_lt_0_compat; auto|lra]). apply INR_le in LI. lia.
    + intros p Hp. apply (c38_success_separates pr d clk [] st0 ct0 s st HR HI (or_introl eq_refl) (HC O) ET p Hp).
Qed.
Lemma c39_success_ex : rect px2 /\ index_perm px2 /\ binary px2 /\ (forall p, In p (d_points px2) -> 1 <= yf px2 [1] 0 p) /\
  (forall p, In p (d_points px2) -> inner (dim px2) (p_x p) (p_x p) + 1 <= 10) /\ 10 * (inner (dim px2) [1] [1] + 0 * 0) <= INR 10 * (1 * 1) /\ (0 + 10 <= max_up (lim 1 20))%nat.
Proof.
  destruct px2_ok as (A & B & C). destruct px2_margin. repeat split; auto; [|cbn; lia]. replace (INR 10) with 10 by (cbn; lra). unfold inner. cbn. lra.
Qed.

(** C40: with the inner-product kernel, a fresh dual perceptron and a fresh primal perceptron, visiting the data in storage order,
    report the same weights, bias, norm, numbers of updates and passes, and the same answer; the weights are the
    combination of the points given by alpha, the norm is theirs, and alpha has one entry per point. *)
Lemma c40_dual_equals_primal : forall pw pr d clk k, rect d -> index_plain d -> binary d -> k_type k = InnerProduct -> k_computed k = false -> clk O = true ->
  exists s st u ans, ptrain pr d clk [] 0 0 = Ok (Some (s, st, ans)) /\ dual_train pw pr clk d (dual_fresh k) = Ok (Some (u, ans)) /\
    du_w u = ps_w s /\ du_b u = ps_b s /\ du_norm u = ps_norm s /\ du_ctot u = ps_ctot s /\ du_steps u = st /\
    length (du_alpha u) = size d /\ length (du_w u) = dim d /\
    (forall j, (j < dim d)%nat -> nz (du_w u) j = sumn (size d) (fun i => nz (du_alpha u) i * IZR (p_y (pt d i)) * nz (p_x (pt d i)) j)) /\
    du_norm u = euclid (dim d) (du_w u) /\
    (ans = true -> forall p, In p (d_points d) -> 0 < yf d (du_w u) (du_b u) p).
Proof.
  intros pw pr d clk k HR HI HY HT HC HK0. pose proof (index_plain_id d HI) as HID. pose proof (index_plain_perm d HI) as HP.
  destruct (inner_kernel pw k d HT HC HR) as (k' & EK & HK).
  assert (forall v, inner (dim d) (repeat 0 (dim d)) v = 0) as Z.
  { intro v. unfold inner. apply sumn_zero. intros i Hi. unfold nz. rewrite nth_repeat. ring. }
  assert (same d (mkP (repeat 0 (dim d)) 0 0 0 0) (mkD (repeat 0 (size d)) 0 0 0 0)) as S0.
  { repeat split; cbn [ps_w ps_b ps_norm ps_ctot ps_e ds_alpha ds_b ds_norm ds_ctot ds_e]; auto; try apply repeat_length.
    - intros j Hj. unfold nz. rewrite nth_repeat. symmetry. unfold comb. apply sumn_zero. intros i Hi. unfold nz. rewrite nth_repeat. ring.
    - rewrite Z, sqrt_0. auto. }
  assert (dloop pr d (k_K k') clk (S (max_it pr)) 0 0 (mkD (repeat 0 (size d)) 0 0 0 1) = dloop pr d (k_K k') clk (S (max_it pr)) 0 0 (mkD (repeat 0 (size d)) 0 0 0 0)) as E0
    by (cbn [dloop]; rewrite HK0; reflexivity).
  destruct (c38_train_total pr d clk [] 0 0 HR HP (or_introl eq_refl)) as (sx & stx & bx & EX & _).
  destruct (dloop_same pr d HR HID HY (k_K k') HK clk (S (max_it pr)) 0 0 _ _ S0) as [(s & t & st & E1 & E2 & HS)|(E1 & _)];
    [|unfold ptrain in EX; rewrite E1 in EX; discriminate].
  pose proof HS as (Lw & La & W & Bq & Nq & Nn & Cq & Eq).
  destruct (dual_w_ok d HR (ds_alpha t) (repeat 0 (dim d)) La (repeat_length _ _)) as (w & EW & LW & W1).
  assert (w = ps_w s) as ->.
  { apply nz_ext; [congruence|]. intros j Hj. rewrite W1 by lia. rewrite W by lia. unfold nz at 1. rewrite nth_repeat. ring. }
  exists s, st, (mkDual (ps_w s) (ds_b t) (ds_norm t) (ds_alpha t) k' st (ds_ctot t)), (Nat.eqb (ps_e s) 0).
  assert (ptrain pr d clk [] 0 0 = Ok (Some (s, st, Nat.eqb (ps_e s) 0))) as EP by (unfold ptrain; rewrite E1; reflexivity).
  split; auto. split.
  { unfold dual_train, dual_fresh. cbn [du_k du_alpha du_steps du_b du_norm du_ctot du_w]. rewrite EK. cbn [obind]. rewrite E0, E2. cbn [obind].
    assert (vresize 0 (dim d) [] = repeat 0 (dim d)) as -> by (unfold vresize; cbn [length]; rewrite firstn_nil, Nat.sub_0_r; reflexivity).
    rewrite EW. cbn [obind]. rewrite Eq. reflexivity. }
  cbn [du_w du_b du_norm du_alpha du_steps du_ctot]. split; auto. split; auto. split; auto. split; auto. split; auto. split; auto. split; auto.
  split; [exact W|]. split; [rewrite <- Nq; exact Nn|]. intros A p Hp. rewrite <- Bq.
  rewrite A in EP. apply (c38_success_separates pr d clk [] 0 0 s st HR HP (or_introl eq_refl) HK0 EP p Hp).
Qed.
Lemma c40_dual_equals_primal_ex : rect px1 /\ index_plain px1 /\ binary px1 /\ k_type (kernel_make InnerProduct 0) = InnerProduct /\ k_computed (kernel_make InnerProduct 0) = false.
Proof. destruct px1_ok as (A & B & C). auto. Qed.

(** C40: with any kernel (custom kernels symmetric), a fresh dual perceptron answers true only if every training point is strictly
    on its side of the kernel expansion, and then evaluate returns its label. *)
Lemma kernel_any pw k d : k_computed k = false -> rect d -> k_type k <> Custom ->
  exists k', compute pw k d None = Ok k' /\ k_type k' = k_type k /\ k_param k' = k_param k /\
    forall i j, (i < size d)%nat -> (j < size d)%nat -> mget (k_K k') i j = Ok (kval pw (k_type k) (k_param k) (fun _ _ _ => 0) (dim d) (pt d i) (pt d j)).
Proof.
  intros HC HR HT. destruct (compute_ok pw k d None (fun _ _ _ => 0) HC HR) as (k' & E & A & B & C & D & F & M); [intro; contradiction|].
  exists k'. split; auto. split; auto. split; auto. intros i j Hi Hj. apply mirrors_table in M.
  - rewrite M, mget_table by auto. reflexivity.
  - intros. apply kval_sym. intro; contradiction.
Qed.
Lemma dual_evaluate_ok pw k d alpha b p : k_type k <> Custom -> rect d -> length (p_x p) = dim d -> length alpha = size d ->
  dual_evaluate pw k d alpha b p = Ok (if Rle_dec 0 (dual_value (kval pw (k_type k) (k_param k) (fun _ _ _ => 0) (dim d)) d alpha b p) then 1%Z else (-1)%Z).
Proof.
  intros HT HR Lp La. unfold dual_evaluate. rewrite Lp, Nat.eqb_refl. cbn [negb].
  assert (forall q, In q (d_points d) -> kfun pw k p q (dim d) None = Ok (kval pw (k_type k) (k_param k) (fun _ _ _ => 0) (dim d) p q)) as HKF.
  { intros q Hq. apply kfun_ok; [intro; contradiction|lia|rewrite (HR q Hq); lia]. }
  rewrite (ofold_ext _ (fun f r => let* v := (let* a := vget alpha r in let* q := vget (d_points d) r in let* v := kfun pw k p q (dim d) None in Ok (a * IZR (p_y q) * v)) in Ok (f + v))).
  2:{ intros f r Hr. apply in_seq in Hr. rewrite vget_pt by lia. cbn [obind]. rewrite HKF by (apply nth_In; unfold size in Hr; lia). cbn [obind]. rewrite vget_nz by lia. reflexivity. }
  rewrite (fold_from_ok _ _ (fun i => nz alpha i * IZR (p_y (pt d i)) * kval pw (k_type k) (k_param k) (fun _ _ _ => 0) (dim d) p (pt d i))).
  - cbn [obind]. unfold dual_value. rewrite Rplus_comm. reflexivity.
  - intros r Hr. rewrite vget_nz by lia. cbn [obind]. rewrite vget_pt by auto. cbn [obind]. rewrite HKF by (apply nth_In; auto). reflexivity.
Qed.
Lemma c40_dual_success : forall pw pr d clk k, rect d -> k_type k <> Custom -> k_computed k = false ->
  exists u ans, dual_train pw pr clk d (dual_fresh k) = Ok (Some (u, ans)) /\
    (ans = true -> forall p, In p (d_points d) ->
      0 < IZR (p_y p) * dual_value (kval pw (k_type k) (k_param k) (fun _ _ _ => 0) (dim d)) d (du_alpha u) (du_b u) p /\
      (p_y p = 1%Z \/ p_y p = (-1)%Z -> dual_evaluate pw (du_k u) d (du_alpha u) (du_b u) p = Ok (p_y p))).
Proof.
  intros pw pr d clk k HR HT HC. destruct (kernel_any pw k d HC HR HT) as (k' & EK & TK & PK & HK).
  destruct (dloop_success pr d (k_K k') _ HK clk (S (max_it pr)) 0 0 (mkD (repeat 0 (size d)) 0 0 0 1)) as (t & st & E & La & SU); try lia.
  { apply repeat_length. } { right. cbn. lia. }
  destruct (dual_w_ok d HR (ds_alpha t) (repeat 0 (dim d)) La (repeat_length _ _)) as (w & EW & LW & W1).
  exists (mkDual w (ds_b t) (ds_norm t) (ds_alpha t) k' st (ds_ctot t)), (Nat.eqb (ds_e t) 0). split.
  { unfold dual_train, dual_fresh. cbn [du_k du_alpha du_steps du_b du_norm du_ctot du_w]. rewrite EK. cbn [obind]. rewrite E. cbn [obind].
    assert (vresize 0 (dim d) [] = repeat 0 (dim d)) as -> by (unfold vresize; cbn [length]; rewrite firstn_nil, Nat.sub_0_r; reflexivity).
    rewrite EW. reflexivity. }
  intros A p Hp. apply Nat.eqb_eq in A. cbn [du_alpha du_b du_k]. pose proof Hp as Hp'.
  apply (In_nth _ _ (mkPoint [] 0%Z 0%Z 0)) in Hp. destruct Hp as (i & Hi & <-). change (nth i (d_points d) (mkPoint [] 0%Z 0%Z 0)) with (pt d i) in *.
  specialize (SU A i Hi). unfold dyf, dvalue in SU. rewrite Rplus_comm in SU. split; [exact SU|].
  intro HY. rewrite dual_evaluate_ok by (rewrite ?TK; auto). rewrite TK, PK. unfold dual_value.
  destruct HY as [HY|HY]; rewrite HY in *; destruct (Rle_dec 0 _); auto; exfalso; lra.
Qed.
Lemma c40_dual_success_ex : rect px1 /\ k_type (kernel_make Gaussian 2) <> Custom /\ k_computed (kernel_make Gaussian 2) = false.
Proof. destruct px1_ok as (A & _). split; auto. split; [discriminate|reflexivity]. Qed.

(** C72 fails for a second training of the same object: the weights are added to the old ones. One point 1 with label 1: after the first
    training w = 1, after the second w = 2, with alpha and the norm still 1. *)
Lemma c72_dual_retrain_refuted : exists u u', dual_train Rpower (lim 1 5) (fun _ => true) px1 (dual_fresh (kernel_make InnerProduct 0)) = Ok (Some (u, true)) /\
  dual_train Rpower (lim 1 5) (fun _ => true) px1 u = Ok (Some (u', true)) /\
  du_w u = [1] /\ du_alpha u = [1] /\ du_alpha u' = [1] /\ du_w u' = [2] /\ du_norm u' = 1.
Proof.
  destruct px1_ok as (HR & HI & HY).
  destruct (inner_kernel Rpower (kernel_make InnerProduct 0) px1 eq_refl eq_refl HR) as (k' & EK & HK).
  assert (k_computed k' = true) as KC. { destruct (compute_ok Rpower (kernel_make InnerProduct 0) px1 None (fun _ _ _ => 0) eq_refl HR) as (k2 & E2 & _ & _ & F & _); [discriminate|]. rewrite EK in E2. injection E2 as <-. auto. }
  set (kf := fun i j => inner (dim px1) (p_x (pt px1 i)) (p_x (pt px1 j))).
  assert (forall al b nn ct e, dyf px1 kf (mkD [al] b nn ct e) 0 = b + al) as DY.
  { intros. unfold dyf, dvalue, kf, inner. cbn. ring. }
  assert (forall al b nn ct e, dvalue px1 kf (mkD [al] b nn ct e) 0 = b + al) as DV.
  { intros. unfold dvalue, kf, inner. cbn. ring. }
  assert (dnorm (lim 1 5) px1 kf (mkD [0] 0 0 0 0) 0 = 1) as DN.
  { unfold dnorm. rewrite DV. transitivity (sqrt 1); [|apply sqrt_1]. f_equal. cbn. unfold kf, inner. cbn. ring. }
  assert (forall k st nn ct, dloop (lim 1 5) px1 (k_K k') (fun _ => true) (S k) 1 st (mkD [0 + 1] (0 + 1 * 1) nn ct 1) = Ok (Some (mkD [0 + 1] (0 + 1 * 1) nn ct 0, S st))) as L2.
  { intros k st nn ct. cbn [dloop]. change (seq 0 (size px1)) with [0%nat]. cbn [ds_alpha ds_b ds_norm ds_ctot].
    destruct (dpass_step (lim 1 5) px1 (k_K k') kf HK st 0 [] (mkD [0 + 1] (0 + 1 * 1) nn ct 0)) as (al & U & ->); [cbn; lia|reflexivity|].
    rewrite DY. destruct (Rle_dec _ 0); [lra|]. cbn [ds_e]. rewrite andb_false_r. cbn [dpass obind ds_e Nat.eqb orb]. reflexivity. }
  assert (dloop (lim 1 5) px1 (k_K k') (fun _ => true) 6 0 0 (mkD [0] 0 0 0 1) = Ok (Some (mkD [0 + 1] (0 + 1 * 1) 1 1 0, 2%nat))) as L1.
  { cbn [dloop]. change (seq 0 (size px1)) with [0%nat]. cbn [ds_alpha ds_b ds_norm ds_ctot].
    destruct (dpass_step (lim 1 5) px1 (k_K k') kf HK 0 0 [] (mkD [0] 0 0 0 0)) as (al & U & ->); [cbn; lia|reflexivity|].
    rewrite DY. destruct (Rle_dec _ 0) as [_|N]; [|lra]. cbn in U. injection U as <-. rewrite DN. cbn [dpass obind ds_e ds_ctot ds_b]. change (Nat.eqb 1 0) with false. cbn [max_it max_up lim]. change (Nat.ltb 5 1) with false. cbn [orb].
    apply (L2 4%nat 1%nat 1 1%nat). }
  assert (dloop (lim 1 5) px1 (k_K k') (fun _ => true) 6 0 2 (mkD [0 + 1] (0 + 1 * 1) 1 1 1) = Ok (Some (mkD [0 + 1] (0 + 1 * 1) 1 1 0, 3%nat))) as L3.
  { cbn [dloop]. change (seq 0 (size px1)) with [0%nat]. cbn [ds_alpha ds_b ds_norm ds_ctot].
    destruct (dpass_step (lim 1 5) px1 (k_K k') kf HK 2 0 [] (mkD [0 + 1] (0 + 1 * 1) 1 1 0)) as (al & U & ->); [cbn; lia|reflexivity|].
    rewrite DY. destruct (Rle_dec _ 0); [lra|]. cbn [ds_e]. rewrite andb_false_r. cbn [dpass obind ds_e Nat.eqb orb]. reflexivity. }
  assert (compute Rpower k' px1 None = Ok k') as EK2 by (unfold compute; rewrite KC; reflexivity).
  exists (mkDual [1] (0 + 1 * 1) 1 [0 + 1] k' 2 1), (mkDual [2] (0 + 1 * 1) 1 [0 + 1] k' 3 1).
  assert (dual_w px1 [0 + 1] [0] = Ok [1]) as W1 by (cbn; do 2 f_equal; ring).
  assert (dual_w px1 [0 + 1] [1] = Ok [2]) as W2 by (cbn; do 2 f_equal; ring).
  split; [|split].
  - unfold dual_train, dual_fresh. cbn [du_k du_alpha du_steps du_b du_norm du_ctot du_w]. rewrite EK. cbn [obind]. change (repeat 0 (size px1)) with [0]. change (S (max_it (lim 1 5))) with 6%nat.
    rewrite L1. cbn [obind]. change (vresize 0 (dim px1) []) with [0]. cbn [ds_alpha]. rewrite W1. reflexivity.
  - unfold dual_train. cbn [du_k du_alpha du_steps du_b du_norm du_ctot du_w]. rewrite EK2. cbn [obind]. change (S (max_it (lim 1 5))) with 6%nat.
    rewrite L3. cbn [obind]. change (vresize 0 (dim px1) [1]) with [1]. cbn [ds_alpha]. rewrite W2. reflexivity.
  - cbn [du_w du_alpha du_norm]. replace (0 + 1) with 1 by ring. auto.
Qed.
(** C40: when the time is already over at the first test the answers differ: the dual perceptron answers false. *)
Lemma c40_timeout_refuted : forall pw pr d clk k, rect d -> k_type k <> Custom -> k_computed k = false -> clk O = false ->
  (exists s st, ptrain pr d clk [] 0 0 = Ok (Some (s, st, true))) /\ exists u, dual_train pw pr clk d (dual_fresh k) = Ok (Some (u, false)).
Proof.
  intros pw pr d clk k HR HT HC CK. split; [destruct (c38_timeout_refuted pr d clk [] 0 0 CK) as (s & E & _); eauto|].
  destruct (kernel_any pw k d HC HR HT) as (k' & EK & _).
  destruct (dual_w_ok d HR (repeat 0 (size d)) (repeat 0 (dim d)) (repeat_length _ _) (repeat_length _ _)) as (w & EW & _).
  eexists. unfold dual_train, dual_fresh. cbn [du_k du_alpha du_steps du_b du_norm du_ctot du_w]. rewrite EK. cbn [obind dloop]. rewrite CK. cbn [obind ds_alpha].
  assert (vresize 0 (dim d) [] = repeat 0 (dim d)) as -> by (unfold vresize; cbn [length]; rewrite firstn_nil, Nat.sub_0_r; reflexivity).
  rewrite EW. cbn [obind ds_e ds_b ds_norm ds_ctot Nat.eqb]. reflexivity.
Qed.
Lemma c40_timeout_refuted_ex : rect px1 /\ k_type (kernel_make Gaussian 2) <> Custom /\ k_computed (kernel_make Gaussian 2) = false /\ (fun k : nat => Nat.ltb 0 k) O = false.
Proof. destruct px1_ok as (A & _). split; auto. split; [discriminate|]. split; reflexivity. Qed.

(** C68: the primal evaluation is 0 on a dimension mismatch and otherwise +1 or -1 by the sign of w.x + b. *)
Lemma c68_primal : forall w b x,
  primal_evaluate w b x = Ok (if Nat.eq_dec (length x) (length w) then (if Rle_dec 0 (inner (length w) w x + b) then 1%Z else (-1)%Z) else 0%Z).
Proof.
  intros w b x. unfold primal_evaluate. destruct (Nat.eq_dec (length x) (length w)) as [L|L].
  - rewrite L, Nat.eqb_refl. cbn [negb].
    assert (ofold (fun f j => let* a := aget w j in let* c := aget x j in Ok (f + a * c)) (seq 0 (length w)) b = Ok (b + inner (length w) w x)) as ->.
    { unfold inner. rewrite <- (fold_from_ok _ (fun j => let* a := aget w j in let* c := aget x j in Ok (a * c))).
      - apply ofold_ext. intros f j Hj. apply in_seq in Hj. rewrite !aget_nz by lia. reflexivity.
      - intros j Hj. rewrite !aget_nz by lia. reflexivity. }
    cbn [obind]. rewrite Rplus_comm. reflexivity.
  - apply Nat.eqb_neq in L. rewrite L. reflexivity.
Qed.
Lemma c68_primal_ex : primal_evaluate [1; 2] 1 [3; -2] = Ok 1%Z /\ primal_evaluate [1; 2] 0 [3; -2] = Ok (-1)%Z /\ primal_evaluate [1; 2] 0 [3] = Ok 0%Z.
Proof.
  rewrite !c68_primal. unfold inner. cbn. repeat split; auto; destruct (Rle_dec 0 _); auto; lra.
Qed.
(** C68: the dual evaluation is 0 on a dimension mismatch and otherwise +1 or -1 by the sign of the kernel expansion. *)
Lemma c68_dual : forall pw k d alpha b p, k_type k <> Custom -> rect d -> length alpha = size d ->
  dual_evaluate pw k d alpha b p =
    Ok (if Nat.eq_dec (length (p_x p)) (dim d)
        then (if Rle_dec 0 (dual_value (kval pw (k_type k) (k_param k) (fun _ _ _ => 0) (dim d)) d alpha b p) then 1%Z else (-1)%Z) else 0%Z).
Proof.
  intros pw k d alpha b p HT HR La. destruct (Nat.eq_dec (length (p_x p)) (dim d)) as [L|L]; [apply dual_evaluate_ok; auto|].
  unfold dual_evaluate. apply Nat.eqb_neq in L. rewrite L. reflexivity.
Qed.
Lemma c68_dual_ex : k_type (kernel_make Gaussian 2) <> Custom /\ rect px2 /\ length [1; 2] = size px2.
Proof. split; [discriminate|]. split; [apply px2_ok|reflexivity]. Qed.
(** C68: they agree when w is the combination of the training points given by alpha and the kernel is the inner product. *)
Lemma c68_agree : forall pw k d alpha b w p, k_type k = InnerProduct -> rect d -> length alpha = size d -> length w = dim d ->
  (forall j, (j < dim d)%nat -> nz w j = sumn (size d) (fun i => nz alpha i * IZR (p_y (pt d i)) * nz (p_x (pt d i)) j)) ->
  dual_evaluate pw k d alpha b p = primal_evaluate w b (p_x p).
Proof.
  intros pw k d alpha b w p HT HR La Lw HW. rewrite c68_dual by (rewrite ?HT; auto; discriminate). rewrite c68_primal, Lw. rewrite HT. unfold dual_value, kval.
  rewrite (inner_comb d w alpha (p_x p)) by auto. reflexivity.
Qed.
Lemma c68_agree_ex : rect px2 /\ length [1; 2] = size px2 /\
  (forall j, (j < dim px2)%nat -> nz [7] j = sumn (size px2) (fun i => nz [1; 2] i * IZR (p_y (pt px2 i)) * nz (p_x (pt px2 i)) j)).
Proof. split; [apply px2_ok|]. split; [reflexivity|]. intros j Hj. cbn in Hj. assert (j = O) as -> by lia. cbn. lra. Qed.
