(** Property theorems: Properties of the dual incremental margin algorithm.
    Each is closed by the lemma of the same (lower-case) name in T_Imad.v. *)
From Coq Require Import ZArith Bool List Lia Reals Lra Psatz Permutation Sorted.
From Verif Require Import Base ListLib M_Data M_Point L_Vec Loop M_Kernel S_Kernel L_Kernel M_Perc S_Perc L_Perc T_Perc L_Knn L_Smo M_Fixed S_Fixed L_Fixed T_Fixed M_Dll M_Smo M_Weight S_Weight T_Weight M_Imad.
From Verif Require Import T_Imad.
Import ListNotations.
Local Open Scope R_scope.

(** C96: training never reads outside an array and ends: it returns a solution, or computes a number that is not finite. *)
Theorem C96_total : forall (pw : R -> R -> R) t par pr (eps inc big : R) (clk : nat -> nat -> bool) (d : data R), rect d -> index_perm d -> t <> Custom -> 0 < eps -> 0 <= inc ->
  id_train pw (kernel_make t par) pr eps inc big clk d = Ok (Some None) \/
  exists r, id_train pw (kernel_make t par) pr eps inc big clk d = Ok (Some (Some r)) /\ length (dr_alpha r) = size d /\ length (dr_w r) = dim d.
Proof. exact c96_total. Qed.
Print Assumptions C96_total.

(** C96: with the inner product the weights stored are the combination of the training points given by the stored alphas. *)
Theorem C96_weights : forall (pw : R -> R -> R) par pr (eps inc big : R) (clk : nat -> nat -> bool) (d : data R) r, rect d -> index_perm d -> 0 < eps -> 0 <= inc ->
  id_train pw (kernel_make InnerProduct par) pr eps inc big clk d = Ok (Some (Some r)) -> forall j, (j < dim d)%nat -> nz (dr_w r) j = weight_of d (nz (dr_alpha r)) j.
Proof. exact c96_weights. Qed.
Print Assumptions C96_weights.

(** C96: a training that answers false stores alphas 0 and margin 0. *)
Theorem C96_failed : forall (pw : R -> R -> R) t par pr (eps inc big : R) (clk : nat -> nat -> bool) (d : data R) r, rect d -> index_perm d -> t <> Custom -> 0 < eps -> 0 <= inc ->
  id_train pw (kernel_make t par) pr eps inc big clk d = Ok (Some (Some r)) -> dr_ok r = false -> (forall i, (i < size d)%nat -> nz (dr_alpha r) i = 0) /\ dr_margin r = 0.
Proof. exact c96_failed. Qed.
Print Assumptions C96_failed.

(** C96: if training answers true, ends because the margin no longer grows, starts from points with alphas 0 and cuts none of the alphas to 0,
    then evaluate returns the label of every training point. *)
Theorem C96_classifies : forall (pw : R -> R -> R) t par pr (eps inc big : R) (clk : nat -> nat -> bool) (d : data R) r, rect d -> index_perm d -> t <> Custom -> 0 < eps -> 0 <= inc ->
  binary d -> (forall p, In p (d_points d) -> p_alpha p = 0) -> id_train pw (kernel_make t par) pr eps inc big clk d = Ok (Some (Some r)) -> dr_last r = true ->
  (forall i, (i < size d)%nat -> nz (dr_full r) i = 0 \/ eps * rate pr < nz (dr_full r) i) ->
  forall p, In p (d_points d) -> dual_evaluate pw (dr_kernel r) (dr_data r) (dr_alpha r) (dr_bias r) p = Ok (p_y p).
Proof. exact c96_classifies. Qed.
Print Assumptions C96_classifies.

(** C96: in general an answer true only means that the stored alphas separate the training points with some bias (if none is cut). *)
Theorem C96_some_bias : forall (pw : R -> R -> R) t par pr (eps inc big : R) (clk : nat -> nat -> bool) (d : data R) r, rect d -> index_perm d -> t <> Custom -> 0 < eps -> 0 <= inc ->
  binary d -> (forall p, In p (d_points d) -> p_alpha p = 0) -> id_train pw (kernel_make t par) pr eps inc big clk d = Ok (Some (Some r)) -> dr_ok r = true ->
  (forall i, (i < size d)%nat -> nz (dr_full r) i = 0 \/ eps * rate pr < nz (dr_full r) i) ->
  exists b, forall p, In p (d_points d) -> dual_evaluate pw (dr_kernel r) (dr_data r) (dr_alpha r) b p = Ok (p_y p).
Proof. exact c96_some_bias. Qed.
Print Assumptions C96_some_bias.

(** C96: the answer true does not mean that the training points are classified. The inner call that ends the training is usually one that fails, and its bias is stored
    with the alphas of the call before: here the training points 1 and 2 are at values 6 and 2, and point 3, of label -1, is at value 0 and is given label 1. *)
Theorem C96_bias_refuted : ~ (forall (pw : R -> R -> R) t par pr (eps inc big : R) (clk : nat -> nat -> bool) (d : data R) r, rect d -> index_perm d -> t <> Custom -> 0 < eps -> 0 <= inc ->
  binary d -> (forall p, In p (d_points d) -> p_alpha p = 0) -> id_train pw (kernel_make t par) pr eps inc big clk d = Ok (Some (Some r)) -> dr_ok r = true ->
  (forall i, (i < size d)%nat -> nz (dr_full r) i = 0 \/ eps * rate pr < nz (dr_full r) i) ->
  forall p, In p (d_points d) -> dual_evaluate pw (dr_kernel r) (dr_data r) (dr_alpha r) (dr_bias r) p = Ok (p_y p)).
Proof. exact c96_bias_refuted. Qed.
Print Assumptions C96_bias_refuted.

(** C96: training again starts from the alphas the points were left with, while the values and the bias start from 0: a second training on the dataset a first one classified answers true and stores a solution
    that misclassifies: the point 1, of label -1, is at value 0. *)
Theorem C96_retrain_refuted : ~ (forall (pw : R -> R -> R) t par pr (eps inc big : R) (clk : nat -> nat -> bool) (d : data R) r1 r2, rect d -> index_perm d -> t <> Custom -> 0 < eps -> 0 <= inc ->
  binary d -> (forall p, In p (d_points d) -> p_alpha p = 0) -> id_train pw (kernel_make t par) pr eps inc big clk d = Ok (Some (Some r1)) ->
  (forall p, In p (d_points d) -> dual_evaluate pw (dr_kernel r1) (dr_data r1) (dr_alpha r1) (dr_bias r1) p = Ok (p_y p)) ->
  id_train pw (kernel_make t par) pr eps inc big clk (dr_data r1) = Ok (Some (Some r2)) -> dr_ok r2 = true ->
  forall p, In p (d_points d) -> dual_evaluate pw (dr_kernel r2) (dr_data r2) (dr_alpha r2) (dr_bias r2) p = Ok (p_y p)).
Proof. exact c96_retrain_refuted. Qed.
Print Assumptions C96_retrain_refuted.

(** C96: the margin stored is not the distance from the hyperplane to the closest training point: for the points 1 and -1 it is 2 / sqrt 12, and the distance is 1. *)
Theorem C96_margin_refuted : ~ (forall (pw : R -> R -> R) par pr (eps inc big : R) (clk : nat -> nat -> bool) (d : data R) r, rect d -> index_perm d -> 0 < eps -> 0 <= inc ->
  binary d -> (forall p, In p (d_points d) -> p_alpha p = 0) -> id_train pw (kernel_make InnerProduct par) pr eps inc big clk d = Ok (Some (Some r)) -> dr_ok r = true ->
  (forall i, (i < size d)%nat -> nz (dr_full r) i = 0 \/ eps * rate pr < nz (dr_full r) i) ->
  exists i, (i < size d)%nat /\ dr_margin r * euclid (dim d) (dr_w r) = Rabs (inner (dim d) (dr_w r) (p_x (pt d i)) + dr_bias r)).
Proof. exact c96_margin_refuted. Qed.
Print Assumptions C96_margin_refuted.

(** C96: if training ends because the margin no longer grows, the support vectors are, in order, the points with a stored alpha that is not 0. *)
Theorem C96_svs : forall (pw : R -> R -> R) t par pr (eps inc big : R) (clk : nat -> nat -> bool) (d : data R) r, rect d -> index_perm d -> t <> Custom -> 0 < eps -> 0 <= inc -> 0 <= rate pr ->
  id_train pw (kernel_make t par) pr eps inc big clk d = Ok (Some (Some r)) -> dr_last r = true ->
  StronglySorted lt (dr_svs r) /\ forall i, In i (dr_svs r) <-> (i < size d)%nat /\ nz (dr_alpha r) i <> 0.
Proof. exact c96_svs. Qed.
Print Assumptions C96_svs.

(** C96: if it ends because an inner call fails, they are those of the failed call: a support vector may have a stored alpha of 0. *)
Theorem C96_svs_refuted : ~ (forall (pw : R -> R -> R) t par pr (eps inc big : R) (clk : nat -> nat -> bool) (d : data R) r, rect d -> index_perm d -> t <> Custom -> 0 < eps -> 0 <= inc -> 0 <= rate pr ->
  id_train pw (kernel_make t par) pr eps inc big clk d = Ok (Some (Some r)) -> dr_ok r = true -> forall i, In i (dr_svs r) -> nz (dr_alpha r) i <> 0).
Proof. exact c96_svs_refuted. Qed.
Print Assumptions C96_svs_refuted.

Example C96_total_ex : rect idb /\ index_perm idb /\ InnerProduct <> Custom /\ 0 < 1 / 10000000 /\ 0 <= 1001 / 1000.
Proof. exact c96_total_ex. Qed.

Example C96_weights_ex : exists r, id_train Rpower (kernel_make InnerProduct 0) fine (1 / 10000000) (1001 / 1000) 100 (fun _ _ => true) idb = Ok (Some (Some r)) /\ rect idb /\ index_perm idb.
Proof. exact c96_weights_ex. Qed.

Example C96_failed_ex : exists r, id_train Rpower (kernel_make InnerProduct 0) fine (1 / 10000000) (1001 / 1000) 100 (fun _ _ => false) idb = Ok (Some (Some r)) /\ dr_ok r = false.
Proof. exact c96_failed_ex. Qed.

Example C96_classifies_ex : exists r, id_train Rpower (kernel_make InnerProduct 0) fine (1 / 10000000) (1001 / 1000) 100 (fun _ _ => true) (twp (1 / 10000)) = Ok (Some (Some r)) /\ dr_last r = true /\
  rect (twp (1 / 10000)) /\ index_perm (twp (1 / 10000)) /\ binary (twp (1 / 10000)) /\ (forall p, In p (d_points (twp (1 / 10000))) -> p_alpha p = 0) /\
  (forall i, (i < size (twp (1 / 10000)))%nat -> nz (dr_full r) i = 0 \/ 1 / 10000000 * rate fine < nz (dr_full r) i).
Proof. exact c96_classifies_ex. Qed.

Example C96_some_bias_ex : exists r, id_train Rpower (kernel_make InnerProduct 0) fine (1 / 10000000) (1001 / 1000) 100 (fun _ _ => true) idb = Ok (Some (Some r)) /\ dr_ok r = true /\ dr_last r = false /\ rect idb /\ index_perm idb /\ binary idb /\
  (forall i, (i < size idb)%nat -> nz (dr_full r) i = 0 \/ 1 / 10000000 * rate fine < nz (dr_full r) i).
Proof. exact c96_some_bias_ex. Qed.

Example C96_svs_ex : exists r, id_train Rpower (kernel_make InnerProduct 0) fine (1 / 10000000) (1001 / 1000) 100 (fun _ _ => true) (twp (1 / 10000)) = Ok (Some (Some r)) /\ dr_last r = true /\
  rect (twp (1 / 10000)) /\ index_perm (twp (1 / 10000)) /\ 0 <= rate fine.
Proof. exact c96_svs_ex. Qed.

