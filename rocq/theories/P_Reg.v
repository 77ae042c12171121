(** Property theorems: Property lemmas for regression: C47, C48, C49.
    Each is closed by the lemma of the same (lower-case) name in T_Reg.v. *)
From Coq Require Import Bool List Reals Lra Lia Permutation Sorted.
From Verif Require Import Base ListLib L_Vec Loop M_Point S_Point L_Point M_Reg S_Reg.
From Verif Require Import T_Reg.
Import ListNotations.
Local Open Scope R_scope.

(** C47: the value is the mean of the labels of the k nearest samples, earlier samples first among equally near ones. *)
Theorem C47_mean : forall dist (k : nat) (s : list sample) q, (0 < k <= length s)%nat ->
  exists N, knn_regress dist k s q = Ok (Some (total (map (fun i => snd (nth i s ([], 0))) N) / INR k)) /\
    first_k (length s) k (fun i => dist q (fst (nth i s ([], 0)))) N.
Proof. exact c47_mean. Qed.
Print Assumptions C47_mean.

Example C47_mean_ex : (0 < 2 <= length [([0], 1); ([1], 5); ([3], 7)])%nat.
Proof. exact c47_mean_ex. Qed.

(** C47: so it lies between the smallest and the largest label. *)
Theorem C47_between : forall dist (k : nat) (s : list sample) q lo hi, (0 < k <= length s)%nat -> (forall p, In p s -> lo <= snd p <= hi) ->
  exists v, knn_regress dist k s q = Ok (Some v) /\ lo <= v <= hi.
Proof. exact c47_between. Qed.
Print Assumptions C47_between.

Example C47_between_ex : (0 < 2 <= length [([0], 1); ([1], 5); ([3], 7)])%nat /\ forall p, In p [([0], 1); ([1], 5); ([3], 7)] -> 1 <= snd p <= 7.
Proof. exact c47_between_ex. Qed.

(** C47: the guard: more neighbours than samples are read out of bounds. *)
Theorem C47_few_refuted : forall dist (k : nat) (s : list sample) q, (length s < k)%nat -> knn_regress dist k s q = UB.
Proof. exact c47_few_refuted. Qed.
Print Assumptions C47_few_refuted.

Example C47_few_refuted_ex : (length [([0], 1)] < 3)%nat.
Proof. exact c47_few_refuted_ex. Qed.

(** C48: the mean of the squared differences. *)
Theorem C48_mean_square : forall a b, length a = length b -> a <> [] -> mse a b = Ok (Some (sumn (length a) (fun i => (nz a i - nz b i) ^ 2) / INR (length a))).
Proof. exact c48_mean_square. Qed.
Print Assumptions C48_mean_square.

Example C48_mean_square_ex : length [1; 2] = length [1; 4] /\ [1; 2] <> [].
Proof. exact c48_mean_square_ex. Qed.

(** C48: non-negative, zero iff the vectors are equal, symmetric. *)
Theorem C48_measure : forall a b, length a = length b -> a <> [] -> exists v, mse a b = Ok (Some v) /\ 0 <= v /\ (v = 0 <-> a = b) /\ mse b a = Ok (Some v).
Proof. exact c48_measure. Qed.
Print Assumptions C48_measure.

Example C48_measure_ex : length [1; 2] = length [1; 4] /\ [1; 2] <> [].
Proof. exact c48_measure_ex. Qed.

(** C48: vectors of different length are refused. *)
Theorem C48_lengths : forall a b, length a <> length b -> mse a b = Abort.
Proof. exact c48_lengths. Qed.
Print Assumptions C48_lengths.

Example C48_lengths_ex : length [1] <> length [1; 4].
Proof. exact c48_lengths_ex. Qed.

(** C49: training makes at least one and at most max_it passes over the data from zero weights, each example moving the weights by the rate against its error
    and the bias by the error itself; it stops early only when the cost changes by at most EPS between passes or the time is over.
    What differs from the property: the bias is not moved by the learning rate. *)
Theorem C49_training : forall rate EPS dim late data max_it bias0, Forall (fun e => length (fst e) = dim) data ->
  exists w b costs st, lms_train rate EPS dim late data max_it bias0 = Ok (w, b, st) /\ length w = dim /\
    lms_passes rate 1 data (repeat 0 dim) bias0 w b costs /\ (length costs <= max_it)%nat /\ (max_it = 0%nat \/ (0 < length costs)%nat) /\
    ((length costs = max_it)%nat \/ lms_stops EPS late costs).
Proof. exact c49_training. Qed.
Print Assumptions C49_training.

Example C49_training_ex : Forall (fun e : list R * R => length (fst e) = 2%nat) [([1; 2], 3); ([0; 1], -1)].
Proof. exact c49_training_ex. Qed.

(** C49: the learning rate does not apply to the bias: with rate 1/2, one example and one pass, the bias moves by the whole error, so that no run of the rule with
    one rate for weights and bias gives this result. *)
Theorem C49_bias_refuted : exists w b st, lms_train (1 / 2) (1 / 10000000) 1 (fun _ => false) [([0], 1)] 1 0 = Ok (w, b, st) /\ b = 1 /\
  forall w' b' costs, lms_passes (1 / 2) (1 / 2) [([0], 1)] [0] 0 w' b' costs -> length costs = 1%nat -> b' = 1 / 2.
Proof. exact c49_bias_refuted. Qed.
Print Assumptions C49_bias_refuted.

(** C49: after the step of an example its own error is the old one times minus the rate times the squared length: the step of the bias alone removes the error and
    the step of the weights comes on top. *)
Theorem C49_residual : forall rate x y w b w' b', length x = length w -> lms_moves rate 1 x y w b w' b' ->
  residual w' b' x y = - (rate * sumn (length x) (fun k => nz x k * nz x k)) * residual w b x y.
Proof. exact c49_residual. Qed.
Print Assumptions C49_residual.

Example C49_residual_ex : exists w' b', length [1; 2] = length [0; 0] /\ lms_moves (1 / 10) 1 [1; 2] 3 [0; 0] 0 w' b'.
Proof. exact c49_residual_ex. Qed.

(** C49: the trained function is evaluated as bias plus weighted sum, and as 0 on points of another dimension. *)
Theorem C49_value : forall w b p, primal_value w b p = Ok (if Nat.eqb (length p) (length w) then b + sumn (length w) (fun k => nz w k * nz p k) else 0).
Proof. exact c49_value. Qed.
Print Assumptions C49_value.

Example C49_value_ex : primal_value [1; 2] 3 [1] = Ok 0.
Proof. exact c49_value_ex. Qed.

