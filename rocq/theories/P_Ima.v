(** Property theorems: Properties of the incremental margin algorithm.
    Each is closed by the lemma of the same (lower-case) name in T_Ima.v. *)
From Coq Require Import ZArith Bool List Lia Reals Lra Psatz Permutation.
From Verif Require Import Base ListLib M_Data M_Point L_Vec Loop M_Kernel S_Kernel L_Kernel M_Perc S_Perc L_Perc T_Perc L_Knn L_Smo M_Fixed S_Fixed L_Fixed T_Fixed M_Ima S_Ima L_Ima.
From Verif Require Import T_Ima.
Import ListNotations.
Local Open Scope R_scope.

(** C92: training ends without reading or writing outside an array, and stores as many weights as there are features. *)
Theorem C92_total : forall (pw : R -> R -> R) (kind : qnorm) (pr : params) (flex eps aprox big : R) (d : data R) (clk : nat -> nat -> bool) (stop : nat -> bool) (margin : R),
  rect d -> d_index d = [] \/ index_perm d -> (kind = L1 -> (0 < dim d)%nat) ->
  exists r, ima_train pw kind pr flex eps aprox big d clk stop margin = Ok (Some r) /\ length (re_w r) = dim d.
Proof. exact c92_total. Qed.
Print Assumptions C92_total.

(** C92: with no flexibility, a training that answers true has stored a hyperplane with every training point strictly on its own side, together with
    that hyperplane's norm (Linf and L2); one that answers false leaves zero weights and the margin of the constructor. *)
Theorem C92_separates : forall (pw : R -> R -> R) (kind : qnorm) (pr : params) (eps aprox big : R) (d : data R) (clk : nat -> nat -> bool) (stop : nat -> bool) (margin : R) r,
  rect d -> d_index d = [] \/ index_perm d -> (kind = L1 -> (0 < dim d)%nat) -> (forall x q, 0 <= pw x q) -> 0 <= aprox ->
  ima_train pw kind pr 0 eps aprox big d clk stop margin = Ok (Some r) ->
  (re_ok r = true -> (forall p, In p (d_points d) -> 0 < yf d (re_w r) (re_b r) p) /\ 0 <= re_norm r /\ (kind = Linf \/ kind = L2 -> norm_of pw kind (dim d) (re_w r) (re_norm r)) /\ re_printed r <> []) /\
  (re_ok r = false -> re_w r = repeat 0 (dim d) /\ re_b r = 0 /\ re_margin r = margin /\ re_printed r = []).
Proof. exact c92_separates. Qed.
Print Assumptions C92_separates.

(** C92: with both classes and no flexibility (all formulations but L1), the stored margin is half the gap between the closest point of each class,
    measured in the stored norm. *)
Theorem C92_margin : forall (pw : R -> R -> R) (kind : qnorm) (pr : params) (eps aprox big : R) (d : data R) (clk : nat -> nat -> bool) (stop : nat -> bool) (margin : R) r,
  rect d -> d_index d = [] \/ index_perm d -> proper pw kind -> binary d -> both_classes d -> spread d big -> 0 <= aprox ->
  ima_train pw kind pr 0 eps aprox big d clk stop margin = Ok (Some r) -> re_ok r = true ->
  0 < re_norm r /\ norm_of pw kind (dim d) (re_w r) (re_norm r) /\
  exists p q, closest d (re_w r) (re_b r) p q /\ re_margin r = (value d (re_w r) (re_b r) p - value d (re_w r) (re_b r) q) / (2 * re_norm r).
Proof. exact c92_margin. Qed.
Print Assumptions C92_margin.

(** C93: the margins reported, one for each successful call, strictly increase, and the last one is the margin stored; with the Euclidean norm none of
    them exceeds half the distance of two points of different classes. *)
Theorem C93_increasing : forall (pw : R -> R -> R) (kind : qnorm) (pr : params) (eps aprox big : R) (d : data R) (clk : nat -> nat -> bool) (stop : nat -> bool) (margin : R) r,
  rect d -> d_index d = [] \/ index_perm d -> proper pw kind -> binary d -> both_classes d -> spread d big -> 0 <= aprox ->
  ima_train pw kind pr 0 eps aprox big d clk stop margin = Ok (Some r) ->
  increasing (re_printed r) /\ (re_ok r = true -> re_printed r <> [] /\ last (re_printed r) 0 = re_margin r).
Proof. exact c93_increasing. Qed.
Print Assumptions C93_increasing.

(** C93: with the Euclidean norm the stored margin is at most half the distance of any two training points of different classes. *)
Theorem C93_bound : forall (pw : R -> R -> R) (pr : params) (eps aprox big : R) (d : data R) (clk : nat -> nat -> bool) (stop : nat -> bool) (margin : R) r p q,
  rect d -> d_index d = [] \/ index_perm d -> binary d -> spread d big -> 0 <= aprox ->
  ima_train pw L2 pr 0 eps aprox big d clk stop margin = Ok (Some r) -> re_ok r = true ->
  In p (d_points d) -> p_y p = 1%Z -> In q (d_points d) -> p_y q = (-1)%Z ->
  0 < re_margin r <= sqrt (sumn (dim d) (fun j => (nz (p_x p) j - nz (p_x q) j) ^ 2)) / 2.
Proof. exact c93_bound. Qed.
Print Assumptions C93_bound.

(** C94: after a training that answers true on both classes, a point with as many features as the data is given label 1 exactly if its value reaches
    half the gap between the closest training points p and q, and label -1 otherwise; a point with another number of features gets 0. *)
Theorem C94_evaluate : forall (pw : R -> R -> R) (kind : qnorm) (pr : params) (eps aprox big : R) (d : data R) (clk : nat -> nat -> bool) (stop : nat -> bool) (margin : R) r p q x,
  rect d -> d_index d = [] \/ index_perm d -> proper pw kind -> binary d -> both_classes d -> spread d big -> 0 <= aprox ->
  ima_train pw kind pr 0 eps aprox big d clk stop margin = Ok (Some r) -> re_ok r = true -> closest d (re_w r) (re_b r) p q ->
  ima_evaluate (re_w r) (re_b r) (re_norm r) (re_margin r) x =
    Ok (if Nat.eqb (length (p_x x)) (dim d) then if Rle_dec ((value d (re_w r) (re_b r) p - value d (re_w r) (re_b r) q) / 2) (value d (re_w r) (re_b r) x) then 1%Z else (-1)%Z else 0%Z).
Proof. exact c94_evaluate. Qed.
Print Assumptions C94_evaluate.

(** C94: no training point of label -1 is given label 1; the training points of label 1 whose value is below half the gap are given label -1, and this
    happens to the closest one as soon as the closest negative point is farther from the hyperplane. *)
Theorem C94_training_points : forall (pw : R -> R -> R) (kind : qnorm) (pr : params) (eps aprox big : R) (d : data R) (clk : nat -> nat -> bool) (stop : nat -> bool) (margin : R) r p q,
  rect d -> d_index d = [] \/ index_perm d -> proper pw kind -> (forall x q, 0 <= pw x q) -> binary d -> both_classes d -> spread d big -> 0 <= aprox ->
  ima_train pw kind pr 0 eps aprox big d clk stop margin = Ok (Some r) -> re_ok r = true -> closest d (re_w r) (re_b r) p q ->
  (forall x, In x (d_points d) -> p_y x = (-1)%Z -> ima_evaluate (re_w r) (re_b r) (re_norm r) (re_margin r) x = Ok (-1)%Z) /\
  (ima_evaluate (re_w r) (re_b r) (re_norm r) (re_margin r) p = Ok 1%Z <-> - value d (re_w r) (re_b r) q <= value d (re_w r) (re_b r) p).
Proof. exact c94_training_points. Qed.
Print Assumptions C94_training_points.

(** C94: on points of the one label 1, every point whose value is less than half of [big] norms is given label -1. *)
Theorem C94_one_class_refuted : forall (pw : R -> R -> R) (kind : qnorm) (pr : params) (eps aprox big : R) (d : data R) (clk : nat -> nat -> bool) (stop : nat -> bool) (margin : R) r x,
  rect d -> d_index d = [] \/ index_perm d -> (kind = L1 -> (0 < dim d)%nat) -> (forall x q, 0 <= pw x q) -> 0 <= aprox -> (forall p, In p (d_points d) -> p_y p = 1%Z) ->
  ima_train pw kind pr 0 eps aprox big d clk stop margin = Ok (Some r) -> re_ok r = true -> 0 < re_norm r -> length (p_x x) = dim d ->
  value d (re_w r) (re_b r) x < big / 2 * re_norm r -> ima_evaluate (re_w r) (re_b r) (re_norm r) (re_margin r) x = Ok (-1)%Z.
Proof. exact c94_one_class_refuted. Qed.
Print Assumptions C94_one_class_refuted.

(** C92: started from an initial solution, training reads the weights of an empty vector. *)
Theorem C92_initial_refuted : forall (d : data R) (w0 : vec) (norm0 : R), (0 < dim d)%nat -> (0 < size d)%nat -> length w0 = dim d -> ima_initial d w0 norm0 = UB.
Proof. exact c92_initial_refuted. Qed.
Print Assumptions C92_initial_refuted.

Example C92_total_ex : rect ix /\ (d_index ix = [] \/ index_perm ix) /\ size ix = 2%nat.
Proof. exact c92_total_ex. Qed.

Example C92_separates_ex : exists r, ima_train (fun _ _ => 0) L2 (lim 1 1) 0 (1/1000) 0 100 ix (fun _ _ => true) (fun _ => true) 0 = Ok (Some r) /\ re_ok r = true /\ rect ix /\ index_perm ix /\ (forall x q : R, 0 <= (fun _ _ => 0) x q).
Proof. exact c92_separates_ex. Qed.

Example C92_margin_ex : exists r, ima_train (fun _ _ => 0) L2 (lim 1 1) 0 (1/1000) 0 100 ix (fun _ _ => true) (fun _ => true) 0 = Ok (Some r) /\ re_ok r = true /\ re_margin r = 5 / 2 /\ proper (fun _ _ => 0) L2 /\
  rect ix /\ index_perm ix /\ binary ix /\ both_classes ix /\ spread ix 100.
Proof. exact c92_margin_ex. Qed.

Example C93_increasing_ex : exists r, ima_train (fun _ _ => 0) Linf (lim 1 1) 0 (1/1000) 0 100 ix (fun _ _ => true) (fun _ => true) 0 = Ok (Some r) /\ re_ok r = true /\ re_printed r = [5 / 2] /\ proper (fun _ _ => 0) Linf /\
  rect ix /\ index_perm ix /\ binary ix /\ both_classes ix /\ spread ix 100.
Proof. exact c93_increasing_ex. Qed.

Example C93_bound_ex : exists r p q, ima_train (fun _ _ => 0) L2 (lim 1 1) 0 (1/1000) 0 100 ix (fun _ _ => true) (fun _ => true) 0 = Ok (Some r) /\ re_ok r = true /\ rect ix /\ index_perm ix /\ binary ix /\ spread ix 100 /\
  In p (d_points ix) /\ p_y p = 1%Z /\ In q (d_points ix) /\ p_y q = (-1)%Z.
Proof. exact c93_bound_ex. Qed.

Example C94_evaluate_ex : exists r p q, ima_train (fun _ _ => 0) L2 (lim 1 1) 0 (1/1000) 0 100 ix (fun _ _ => true) (fun _ => true) 0 = Ok (Some r) /\ re_ok r = true /\ closest ix (re_w r) (re_b r) p q /\
  rect ix /\ index_perm ix /\ binary ix /\ both_classes ix /\ spread ix 100.
Proof. exact c94_evaluate_ex. Qed.

Example C94_training_points_ex : exists r p q, ima_train (fun _ _ => 0) L2 (lim 1 1) 0 (1/1000) 0 100 ix (fun _ _ => true) (fun _ => true) 0 = Ok (Some r) /\ re_ok r = true /\ closest ix (re_w r) (re_b r) p q /\
  rect ix /\ index_perm ix /\ binary ix /\ both_classes ix /\ spread ix 100.
Proof. exact c94_training_points_ex. Qed.

(** C94: trained on the points 1 (label 1) and -4 (label -1), the classifier separates them with w = 1, b = 1 and answers -1 for both. *)
Theorem C94_positive_refuted : exists r, ima_train (fun _ _ => 0) L2 (lim 1 1) 0 (1/1000) 0 100 ix (fun _ _ => true) (fun _ => true) 0 = Ok (Some r) /\ re_ok r = true /\
  (forall p, In p (d_points ix) -> 0 < yf ix (re_w r) (re_b r) p) /\ exists p, In p (d_points ix) /\ p_y p = 1%Z /\ ima_evaluate (re_w r) (re_b r) (re_norm r) (re_margin r) p = Ok (-1)%Z.
Proof. exact c94_positive_refuted. Qed.
Print Assumptions C94_positive_refuted.

Example C92_initial_refuted_ex : (0 < dim ix)%nat /\ (0 < size ix)%nat /\ length [3] = dim ix.
Proof. exact c92_initial_refuted_ex. Qed.

Example C94_one_class_refuted_ex : exists r x, ima_train (fun _ _ => 0) L2 (lim 1 1) 0 (1/1000) 0 100 px1 (fun _ _ => true) (fun _ => true) 0 = Ok (Some r) /\ re_ok r = true /\ 0 < re_norm r /\ In x (d_points px1) /\
  value px1 (re_w r) (re_b r) x < 100 / 2 * re_norm r /\ rect px1 /\ index_perm px1 /\ (forall p, In p (d_points px1) -> p_y p = 1%Z).
Proof. exact c94_one_class_refuted_ex. Qed.

