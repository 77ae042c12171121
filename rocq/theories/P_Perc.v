(** Property theorems: Property lemmas for the perceptrons: C38, C39, C40, C68.
    Each is closed by the lemma of the same (lower-case) name in T_Perc.v. *)
From Coq Require Import ZArith Bool List Permutation Lia Reals Lra Psatz.
From Verif Require Import Base ListLib M_Data M_Point L_Vec Loop M_Kernel S_Kernel L_Kernel M_Perc S_Perc L_Perc L_Perc2.
From Verif Require Import T_Perc.
Import ListNotations.
Local Open Scope R_scope.

(** C38: training always terminates, with a weight vector of the data's dimension, whatever the clock and the limits. *)
Theorem C38_train_total : forall pr d clk w0 st0 ct0, rect d -> index_perm d -> w0 = [] \/ length w0 = dim d ->
  exists s st b, ptrain pr d clk w0 st0 ct0 = Ok (Some (s, st, b)) /\ length (ps_w s) = dim d /\ (st0 <= st)%nat /\ (ct0 <= ps_ctot s)%nat.
Proof. exact c38_train_total. Qed.
Print Assumptions C38_train_total.

Example C38_train_total_ex : rect px2 /\ index_perm px2 /\ dim px2 = 1%nat.
Proof. exact c38_train_total_ex. Qed.

(** C38: when the loop is entered and training answers true, every training point is strictly on its side, and evaluate returns its label. *)
Theorem C38_success_separates : forall pr d clk w0 st0 ct0 s st, rect d -> index_perm d -> w0 = [] \/ length w0 = dim d -> clk O = true ->
  ptrain pr d clk w0 st0 ct0 = Ok (Some (s, st, true)) ->
  forall p, In p (d_points d) -> 0 < yf d (ps_w s) (ps_b s) p /\
    (p_y p = 1%Z \/ p_y p = (-1)%Z -> primal_evaluate (ps_w s) (ps_b s) (p_x p) = Ok (p_y p)).
Proof. exact c38_success_separates. Qed.
Print Assumptions C38_success_separates.

Example C38_success_separates_ex : exists s st, rect px1 /\ index_perm px1 /\ ptrain (lim 1 5) px1 (fun _ => true) [] 0 0 = Ok (Some (s, st, true)) /\ In (mkPoint [1] 1%Z 1%Z 0) (d_points px1).
Proof. exact c38_success_separates_ex. Qed.

(** C38: when the time is already over at the first test, training answers true for every dataset, separable or not. *)
Theorem C38_timeout_refuted : forall pr d clk w0 st0 ct0, clk O = false ->
  exists s, ptrain pr d clk w0 st0 ct0 = Ok (Some (s, st0, true)) /\ (w0 = [] -> forall p, yf d (ps_w s) (ps_b s) p = 0).
Proof. exact c38_timeout_refuted. Qed.
Print Assumptions C38_timeout_refuted.

Example C38_timeout_refuted_ex : (fun k : nat => Nat.ltb 0 k) O = false.
Proof. exact c38_timeout_refuted_ex. Qed.

(** C72: the reported norm is the Euclidean norm of the weights when training starts from scratch, or has made an update. *)
Theorem C72_norm : forall pr d clk w0 st0 ct0 s st b, rect d -> index_perm d -> w0 = [] \/ length w0 = dim d ->
  ptrain pr d clk w0 st0 ct0 = Ok (Some (s, st, b)) -> w0 = [] \/ (ct0 < ps_ctot s)%nat -> ps_norm s = euclid (dim d) (ps_w s).
Proof. exact c72_norm. Qed.
Print Assumptions C72_norm.

Example C72_norm_ex : exists s st, rect px1 /\ index_perm px1 /\ ptrain (lim 1 5) px1 (fun _ => true) [] 0 0 = Ok (Some (s, st, true)) /\ (0 < ps_ctot s)%nat.
Proof. exact c72_norm_ex. Qed.

(** C72: otherwise it may not be: training again from the learned weights 1 ends without an update, and reports the norm 0. *)
Theorem C72_primal_norm_refuted : exists s st b, rect px1 /\ index_perm px1 /\ ptrain (lim 1 5) px1 (fun _ => true) [1] 0 0 = Ok (Some (s, st, b)) /\ ps_norm s <> euclid (dim px1) (ps_w s).
Proof. exact c72_primal_norm_refuted. Qed.
Print Assumptions C72_primal_norm_refuted.

(** C39: Novikoff's bound. If (u, bu) separates the data with functional margin g, and every point has |x|^2 + 1 <= r2, a training run
    from scratch makes at most r2 (|u|^2 + bu^2) / g^2 updates, whatever the visiting order, learning rate, clock and limits. *)
Theorem C39_mistake_bound : forall pr d clk st0 ct0 u bu g r2 s st b, rect d -> index_perm d -> binary d -> 0 < rate pr -> 0 < g -> 0 <= r2 ->
  (forall p, In p (d_points d) -> g <= yf d u bu p) ->
  (forall p, In p (d_points d) -> inner (dim d) (p_x p) (p_x p) + 1 <= r2) ->
  ptrain pr d clk [] st0 ct0 = Ok (Some (s, st, b)) ->
  INR (ps_ctot s - ct0) * (g * g) <= r2 * (inner (dim d) u u + bu * bu).
Proof. exact c39_mistake_bound. Qed.
Print Assumptions C39_mistake_bound.

Example C39_mistake_bound_ex : exists s st b, rect px2 /\ index_perm px2 /\ binary px2 /\
  (forall p, In p (d_points px2) -> 1 <= yf px2 [1] 0 p) /\ (forall p, In p (d_points px2) -> inner (dim px2) (p_x p) (p_x p) + 1 <= 10) /\
  ptrain (lim 1 20) px2 (fun _ => true) [] 0 0 = Ok (Some (s, st, b)).
Proof. exact c39_mistake_bound_ex. Qed.

(** C39: hence training of separable data answers true as soon as the limits allow the bound and the time does not run out. *)
Theorem C39_success : forall pr d clk st0 ct0 u bu g r2 (B : nat), rect d -> index_perm d -> binary d -> 0 < rate pr -> 0 < g -> 0 <= r2 ->
  (forall p, In p (d_points d) -> g <= yf d u bu p) ->
  (forall p, In p (d_points d) -> inner (dim d) (p_x p) (p_x p) + 1 <= r2) ->
  r2 * (inner (dim d) u u + bu * bu) <= INR B * (g * g) ->
  (forall k, clk k = true) -> (ct0 + B <= max_up pr)%nat -> (st0 + B <= max_it pr)%nat ->
  exists s st, ptrain pr d clk [] st0 ct0 = Ok (Some (s, st, true)) /\ (ps_ctot s <= ct0 + B)%nat /\ forall p, In p (d_points d) -> 0 < yf d (ps_w s) (ps_b s) p.
Proof. exact c39_success. Qed.
Print Assumptions C39_success.

Example C39_success_ex : rect px2 /\ index_perm px2 /\ binary px2 /\ (forall p, In p (d_points px2) -> 1 <= yf px2 [1] 0 p) /\
  (forall p, In p (d_points px2) -> inner (dim px2) (p_x p) (p_x p) + 1 <= 10) /\ 10 * (inner (dim px2) [1] [1] + 0 * 0) <= INR 10 * (1 * 1) /\ (0 + 10 <= max_up (lim 1 20))%nat.
Proof. exact c39_success_ex. Qed.

(** C40: with the inner-product kernel, a fresh dual perceptron and a fresh primal perceptron, visiting the data in storage order,
    report the same weights, bias, norm, numbers of updates and passes, and the same answer; the weights are the
    combination of the points given by alpha, the norm is theirs, and alpha has one entry per point. *)
Theorem C40_dual_equals_primal : forall pw pr d clk k, rect d -> index_plain d -> binary d -> k_type k = InnerProduct -> k_computed k = false -> clk O = true ->
  exists s st u ans, ptrain pr d clk [] 0 0 = Ok (Some (s, st, ans)) /\ dual_train pw pr clk d (dual_fresh k) = Ok (Some (u, ans)) /\
    du_w u = ps_w s /\ du_b u = ps_b s /\ du_norm u = ps_norm s /\ du_ctot u = ps_ctot s /\ du_steps u = st /\
    length (du_alpha u) = size d /\ length (du_w u) = dim d /\
    (forall j, (j < dim d)%nat -> nz (du_w u) j = sumn (size d) (fun i => nz (du_alpha u) i * IZR (p_y (pt d i)) * nz (p_x (pt d i)) j)) /\
    du_norm u = euclid (dim d) (du_w u) /\
    (ans = true -> forall p, In p (d_points d) -> 0 < yf d (du_w u) (du_b u) p).
Proof. exact c40_dual_equals_primal. Qed.
Print Assumptions C40_dual_equals_primal.

Example C40_dual_equals_primal_ex : rect px1 /\ index_plain px1 /\ binary px1 /\ k_type (kernel_make InnerProduct 0) = InnerProduct /\ k_computed (kernel_make InnerProduct 0) = false.
Proof. exact c40_dual_equals_primal_ex. Qed.

Theorem C40_dual_success : forall pw pr d clk k, rect d -> k_type k <> Custom -> k_computed k = false ->
  exists u ans, dual_train pw pr clk d (dual_fresh k) = Ok (Some (u, ans)) /\
    (ans = true -> forall p, In p (d_points d) ->
      0 < IZR (p_y p) * dual_value (kval pw (k_type k) (k_param k) (fun _ _ _ => 0) (dim d)) d (du_alpha u) (du_b u) p /\
      (p_y p = 1%Z \/ p_y p = (-1)%Z -> dual_evaluate pw (du_k u) d (du_alpha u) (du_b u) p = Ok (p_y p))).
Proof. exact c40_dual_success. Qed.
Print Assumptions C40_dual_success.

Example C40_dual_success_ex : rect px1 /\ k_type (kernel_make Gaussian 2) <> Custom /\ k_computed (kernel_make Gaussian 2) = false.
Proof. exact c40_dual_success_ex. Qed.

(** C72 fails for a second training of the same object: the weights are added to the old ones. One point 1 with label 1: after the first
    training w = 1, after the second w = 2, with alpha and the norm still 1. *)
Theorem C72_dual_retrain_refuted : exists u u', dual_train Rpower (lim 1 5) (fun _ => true) px1 (dual_fresh (kernel_make InnerProduct 0)) = Ok (Some (u, true)) /\
  dual_train Rpower (lim 1 5) (fun _ => true) px1 u = Ok (Some (u', true)) /\
  du_w u = [1] /\ du_alpha u = [1] /\ du_alpha u' = [1] /\ du_w u' = [2] /\ du_norm u' = 1.
Proof. exact c72_dual_retrain_refuted. Qed.
Print Assumptions C72_dual_retrain_refuted.

(** C40: when the time is already over at the first test the answers differ: the dual perceptron answers false. *)
Theorem C40_timeout_refuted : forall pw pr d clk k, rect d -> k_type k <> Custom -> k_computed k = false -> clk O = false ->
  (exists s st, ptrain pr d clk [] 0 0 = Ok (Some (s, st, true))) /\ exists u, dual_train pw pr clk d (dual_fresh k) = Ok (Some (u, false)).
Proof. exact c40_timeout_refuted. Qed.
Print Assumptions C40_timeout_refuted.

Example C40_timeout_refuted_ex : rect px1 /\ k_type (kernel_make Gaussian 2) <> Custom /\ k_computed (kernel_make Gaussian 2) = false /\ (fun k : nat => Nat.ltb 0 k) O = false.
Proof. exact c40_timeout_refuted_ex. Qed.

(** C68: the primal evaluation is 0 on a dimension mismatch and otherwise +1 or -1 by the sign of w.x + b. *)
Theorem C68_primal : forall w b x,
  primal_evaluate w b x = Ok (if Nat.eq_dec (length x) (length w) then (if Rle_dec 0 (inner (length w) w x + b) then 1%Z else (-1)%Z) else 0%Z).
Proof. exact c68_primal. Qed.
Print Assumptions C68_primal.

Example C68_primal_ex : primal_evaluate [1; 2] 1 [3; -2] = Ok 1%Z /\ primal_evaluate [1; 2] 0 [3; -2] = Ok (-1)%Z /\ primal_evaluate [1; 2] 0 [3] = Ok 0%Z.
Proof. exact c68_primal_ex. Qed.

(** C68: the dual evaluation is 0 on a dimension mismatch and otherwise +1 or -1 by the sign of the kernel expansion. *)
Theorem C68_dual : forall pw k d alpha b p, k_type k <> Custom -> rect d -> length alpha = size d ->
  dual_evaluate pw k d alpha b p =
    Ok (if Nat.eq_dec (length (p_x p)) (dim d)
        then (if Rle_dec 0 (dual_value (kval pw (k_type k) (k_param k) (fun _ _ _ => 0) (dim d)) d alpha b p) then 1%Z else (-1)%Z) else 0%Z).
Proof. exact c68_dual. Qed.
Print Assumptions C68_dual.

Example C68_dual_ex : k_type (kernel_make Gaussian 2) <> Custom /\ rect px2 /\ length [1; 2] = size px2.
Proof. exact c68_dual_ex. Qed.

(** C68: they agree when w is the combination of the training points given by alpha and the kernel is the inner product. *)
Theorem C68_agree : forall pw k d alpha b w p, k_type k = InnerProduct -> rect d -> length alpha = size d -> length w = dim d ->
  (forall j, (j < dim d)%nat -> nz w j = sumn (size d) (fun i => nz alpha i * IZR (p_y (pt d i)) * nz (p_x (pt d i)) j)) ->
  dual_evaluate pw k d alpha b p = primal_evaluate w b (p_x p).
Proof. exact c68_agree. Qed.
Print Assumptions C68_agree.

Example C68_agree_ex : rect px2 /\ length [1; 2] = size px2 /\
  (forall j, (j < dim px2)%nat -> nz [7] j = sumn (size px2) (fun i => nz [1; 2] i * IZR (p_y (pt px2 i)) * nz (p_x (pt px2 i)) j)).
Proof. exact c68_agree_ex. Qed.

