(** Property theorems: Property lemmas for the fixed-margin perceptrons: C41.
    Each is closed by the lemma of the same (lower-case) name in T_Fixed.v. *)
From Coq Require Import ZArith Bool List Permutation Lia Reals Lra Psatz.
From Verif Require Import Base ListLib M_Data M_Point L_Vec Loop M_Kernel S_Kernel L_Kernel M_Perc S_Perc L_Perc L_Perc2 T_Perc L_Smo M_Fixed S_Fixed L_Fixed.
From Verif Require Import T_Fixed.
Import ListNotations.
Local Open Scope R_scope.

(** C41: the primal trainer never reads outside its vectors and always ends; when it answers true after a pass, every training point has
    y (w.x + b) > gamma * norm - alpha * flexible, for every norm. *)
Theorem C41_margin : forall pw kind pr gamma flex eps d clk w0 b0 norm0 st0 ct0, rect d -> index_perm d -> w0 = [] \/ length w0 = dim d -> (kind = L1 -> (0 < dim d)%nat) ->
  exists s st ans, ftrain pw kind pr gamma flex eps d clk w0 b0 norm0 st0 ct0 = Ok (Some (s, st, ans)) /\ length (f_w s) = dim d /\ length (f_al s) = size d /\
    (clk 0%nat = true -> ans = true -> forall i, (i < size d)%nat -> gamma * f_norm s - nz (f_al s) i * flex < yf d (f_w s) (f_b s) (pt d i)).
Proof. exact c41_margin. Qed.
Print Assumptions C41_margin.

(** C41: except with the L1 formulation, the norm kept is the norm of the weights, when it is so at the start. *)
Theorem C41_norm : forall pw kind pr gamma flex eps d clk w0 b0 norm0 st0 ct0 s st ans, rect d -> index_perm d -> w0 = [] \/ length w0 = dim d -> kind <> L1 ->
  norm_of pw kind (dim d) w0 norm0 ->
  ftrain pw kind pr gamma flex eps d clk w0 b0 norm0 st0 ct0 = Ok (Some (s, st, ans)) -> norm_of pw kind (dim d) (f_w s) (f_norm s).
Proof. exact c41_norm. Qed.
Print Assumptions C41_norm.

Theorem C41_combination : forall pw pr gamma flex eps d clk w0 b0 norm0 st0 ct0 s st ans, rect d -> index_perm d -> w0 = [] \/ length w0 = dim d -> 0 <= norm0 ->
  combination d (map p_alpha (d_points d)) w0 ->
  ftrain pw L2 pr gamma flex eps d clk w0 b0 norm0 st0 ct0 = Ok (Some (s, st, ans)) -> combination d (f_al s) (f_w s).
Proof. exact c41_combination. Qed.
Print Assumptions C41_combination.

Example C41_margin_ex : exists s st, ftrain Rpower L2 (lim 1 5) (1/2) 0 (1/1000) px1 (fun _ => true) [] 0 0 0 0 = Ok (Some (s, st, true)) /\ f_w s = [1] /\ f_b s = 1 /\ f_norm s = 1 /\ rect px1 /\ index_perm px1.
Proof. exact c41_margin_ex. Qed.

Example C41_norm_ex : exists s st, ftrain Rpower L2 (lim 1 5) (1/2) 0 (1/1000) px1 (fun _ => true) [] 0 0 0 0 = Ok (Some (s, st, true)) /\ norm_of Rpower L2 (dim px1) [] 0 /\ f_norm s = 1.
Proof. exact c41_norm_ex. Qed.

Example C41_combination_ex : exists s st, ftrain Rpower L2 (lim 1 5) (1/2) 0 (1/1000) px1 (fun _ => true) [] 0 0 0 0 = Ok (Some (s, st, true)) /\ combination px1 (map p_alpha (d_points px1)) [] /\ f_w s = [1].
Proof. exact c41_combination_ex. Qed.

(** C41: with the L1 formulation the norm kept is not the largest component: with the one point 1 of label 1 and gamma = 5, training answers
    true with w = 1, b = 1 and norm 0, although y (w.x + b) = 2 < gamma * 1. *)
Theorem C41_l1_norm_refuted : exists s st, ftrain Rpower L1 (lim 1 5) 5 0 (1/1000) px1 (fun _ => true) [] 0 0 0 0 = Ok (Some (s, st, true)) /\
  f_w s = [1] /\ norm_of Rpower L1 (dim px1) (f_w s) 1 /\ f_norm s = 0 /\ yf px1 (f_w s) (f_b s) (pt px1 0) < 5 * 1.
Proof. exact c41_l1_norm_refuted. Qed.
Print Assumptions C41_l1_norm_refuted.

(** C41: when the time is already over at the first test, the primal trainer answers true for every dataset. *)
Theorem C41_timeout_refuted : forall pw kind pr gamma flex eps d clk w0 b0 norm0 st0 ct0, clk 0%nat = false ->
  exists s, ftrain pw kind pr gamma flex eps d clk w0 b0 norm0 st0 ct0 = Ok (Some (s, st0, true)) /\ f_b s = b0 /\ f_norm s = norm0.
Proof. exact c41_timeout_refuted. Qed.
Print Assumptions C41_timeout_refuted.

Example C41_timeout_refuted_ex : (fun k : nat => Nat.ltb 0 k) O = false.
Proof. exact c41_timeout_refuted_ex. Qed.

(** C41: the dual trainer either meets a number that is not finite, or ends with function values equal to their definition from alphas, labels,
    kernel and bias, and with weights raised by the combination of the points; when it answers true, every point has y * f > gamma * norm. *)
Theorem C41_dual : forall pw kern pr gamma clk d func0 w0 b0 norm0 st0 ct0, rect d -> index_perm d -> k_type kern <> Custom -> k_computed kern = false -> length func0 = size d ->
  (forall r, (r < size d)%nat -> nz func0 r = gvalue d (kv pw kern d) (map p_alpha (d_points d)) b0 r) ->
  gtrain pw kern pr gamma clk d func0 w0 b0 norm0 st0 ct0 = Ok (Some None) \/
  exists s w st ans, gtrain pw kern pr gamma clk d func0 w0 b0 norm0 st0 ct0 = Ok (Some (Some (s, w, st, ans))) /\ length (g_al s) = size d /\
    (forall r, (r < size d)%nat -> nz (g_func s) r = gvalue d (kv pw kern d) (g_al s) (g_b s) r) /\
    (w0 = [] -> combination d (g_al s) w) /\
    (ans = true -> forall i, (i < size d)%nat -> gamma * g_norm s < IZR (p_y (pt d i)) * gvalue d (kv pw kern d) (g_al s) (g_b s) i).
Proof. exact c41_dual. Qed.
Print Assumptions C41_dual.

Example C41_dual_ex : rect px1a /\ index_perm px1a /\ k_type (kernel_make InnerProduct 0) <> Custom /\ k_computed (kernel_make InnerProduct 0) = false /\ length [2] = size px1a /\
  (forall r, (r < size px1a)%nat -> nz [2] r = gvalue px1a (kv Rpower (kernel_make InnerProduct 0) px1a) (map p_alpha (d_points px1a)) 1 r).
Proof. exact c41_dual_ex. Qed.

(** C41: with gamma not 0, the first training of a dual fixed-margin perceptron always divides by its norm 0. *)
Theorem C41_dual_fresh_refuted : forall pw kern pr gamma clk d w0 b0 st0 ct0, rect d -> index_perm d -> k_type kern <> Custom -> k_computed kern = false -> (0 < size d)%nat -> gamma <> 0 -> clk 0%nat = true ->
  gtrain pw kern pr gamma clk d [] w0 b0 0 st0 ct0 = Ok (Some None).
Proof. exact c41_dual_fresh_refuted. Qed.
Print Assumptions C41_dual_fresh_refuted.

Example C41_dual_fresh_refuted_ex : rect px1 /\ index_perm px1 /\ (0 < size px1)%nat.
Proof. exact c41_dual_fresh_refuted_ex. Qed.

Theorem C41_dual_zero : forall pw kern pr clk d w0 st0 ct0, rect d -> index_perm d -> k_type kern <> Custom -> k_computed kern = false -> binary d -> psd (size d) (kv pw kern d) -> (forall p, In p (d_points d) -> p_alpha p = 0) ->
  exists s w st ans, gtrain pw kern pr 0 clk d [] w0 0 0 st0 ct0 = Ok (Some (Some (s, w, st, ans))) /\ gnorm2 d (kv pw kern d) (g_al s) <= g_norm s * g_norm s /\
    (ans = true -> forall i, (i < size d)%nat -> 0 < IZR (p_y (pt d i)) * gvalue d (kv pw kern d) (g_al s) (g_b s) i).
Proof. exact c41_dual_zero. Qed.
Print Assumptions C41_dual_zero.

Example C41_dual_zero_ex : rect px2 /\ index_perm px2 /\ binary px2 /\ psd (size px2) (kv Rpower (kernel_make InnerProduct 0) px2) /\ (forall p, In p (d_points px2) -> p_alpha p = 0).
Proof. exact c41_dual_zero_ex. Qed.

(** C41: but the norm kept is not the norm: with gamma = 0, rate 1 and the one point 1 of label 1, alpha is 1, the norm is 1, and the norm kept is the root of 5. *)
Theorem C41_dual_norm_refuted : exists s w st, gtrain Rpower (kernel_make InnerProduct 0) (lim 1 5) 0 (fun _ => true) px1 [] [] 0 0 0 0 = Ok (Some (Some (s, w, st, true))) /\
  nz (g_al s) 0 = 1 /\ gnorm2 px1 (kv Rpower (kernel_make InnerProduct 0) px1) (g_al s) = 1 /\ g_norm s = sqrt 5.
Proof. exact c41_dual_norm_refuted. Qed.
Print Assumptions C41_dual_norm_refuted.

