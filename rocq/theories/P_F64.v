(** Property theorems: C136: the decision function in double precision.
    Each is closed by the lemma of the same (lower-case) name in T_F64.v. *)
From Coq Require Import ZArith Bool List Reals Lia Lra Permutation.
From Flocq Require Import Core BinarySingleNaN.
From Verif Require Import Base M_Data L_Vec Loop L_Kernel M_Perc M_F64 S_F64 L_F64.
From Verif Require Import T_F64.
Import ListNotations.
Local Open Scope R_scope.

(** C136: rounding. For vectors of finite doubles whose terms do not come near the largest double, the computed decision value is a finite double whose
    distance from the exact value is at most 2 (n + 1) 2^-53 times the sum of the absolute values of the terms, and n times the smallest double. *)
Theorem C136_error : forall (n : nat) (w x : list b64) (b : b64), length w = n -> length x = n -> Forall fin w -> Forall fin x -> fin b -> (Z.of_nat n < 2 ^ 52)%Z ->
  magnitude n w x b <= bpow radix2 1020 ->
  exists f, fdecision n w x b = Ok f /\ fin f /\ Rabs (rv f - exact_value n w x b) <= error_bound n (magnitude n w x b).
Proof. exact c136_error. Qed.
Print Assumptions C136_error.

Example C136_error_ex : length [fofZ 3] = 1%nat /\ Forall fin [fofZ 3] /\ Forall fin [fofZ (-2)] /\ fin (fofZ 1) /\ (Z.of_nat 1 < 2 ^ 52)%Z /\ magnitude 1 [fofZ 3] [fofZ (-2)] (fofZ 1) <= bpow radix2 1020.
Proof. exact c136_error_ex. Qed.

(** C136: so when the exact value is further from 0 than that, evaluate() in doubles gives the class of exact arithmetic. *)
Theorem C136_sign : forall (w x : list b64) (b : b64), length x = length w -> Forall fin w -> Forall fin x -> fin b -> (Z.of_nat (length w) < 2 ^ 52)%Z ->
  magnitude (length w) w x b <= bpow radix2 1020 -> error_bound (length w) (magnitude (length w) w x b) < Rabs (exact_value (length w) w x b) ->
  fevaluate w b x = primal_evaluate (map rv w) (rv b) (map rv x).
Proof. exact c136_sign. Qed.
Print Assumptions C136_sign.

Example C136_sign_ex : error_bound 1 (magnitude 1 [fofZ 3] [fofZ (-2)] (fofZ 1)) < Rabs (exact_value 1 [fofZ 3] [fofZ (-2)] (fofZ 1)) /\ fevaluate [fofZ 3] (fofZ 1) [fofZ (-2)] = Ok (-1)%Z.
Proof. exact c136_sign_ex. Qed.

(** C136: whole numbers. When all numbers are integers and the terms add up to less than 2^53, nothing is rounded: the decision value is exact, and so is the class. *)
Theorem C136_whole : forall (w x : list b64) (b : b64), length x = length w -> Forall fin w -> Forall fin x -> fin b ->
  whole (rv b) -> (forall v, In v w \/ In v x -> whole (rv v)) -> magnitude (length w) w x b < IZR (2 ^ 53) ->
  (exists f, fdecision (length w) w x b = Ok f /\ fin f /\ rv f = exact_value (length w) w x b) /\ fevaluate w b x = primal_evaluate (map rv w) (rv b) (map rv x).
Proof. exact c136_whole. Qed.
Print Assumptions C136_whole.

Example C136_whole_ex : whole (rv (fofZ 1)) /\ (forall v, In v [fofZ 3] \/ In v [fofZ (-2)] -> whole (rv v)) /\ magnitude 1 [fofZ 3] [fofZ (-2)] (fofZ 1) < IZR (2 ^ 53).
Proof. exact c136_whole_ex. Qed.

Theorem C136_nan_refuted : forall (w x : list b64) (b : b64) (j : nat), length x = length w -> (j < length w)%nat ->
  is_nan (nth j x fzero) = true \/ is_nan (nth j w fzero) = true \/ (rv (nth j w fzero) = 0 /\ fin (nth j w fzero) /\ ~ fin (nth j x fzero)) -> fevaluate w b x = Ok (-1)%Z.
Proof. exact c136_nan_refuted. Qed.
Print Assumptions C136_nan_refuted.

Theorem C136_order_refuted : exists (w x w' x' : list b64) (b : b64), Permutation (combine w x) (combine w' x') /\ length w = length x /\ length w' = length x' /\ Forall fin (w ++ x) /\ fin b /\
  fevaluate w b x = Ok 1%Z /\ fevaluate w' b x' = Ok (-1)%Z.
Proof. exact c136_order_refuted. Qed.
Print Assumptions C136_order_refuted.

