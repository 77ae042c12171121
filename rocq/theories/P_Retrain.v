(** Property theorems: C141: training a perceptron again on data of another dimension.
    Each is closed by the lemma of the same (lower-case) name in T_Retrain.v. *)
From Coq Require Import ZArith Bool List Lia Reals Lra Permutation.
From Verif Require Import Base ListLib M_Data M_Point L_Vec Loop M_Kernel S_Kernel L_Kernel M_Perc S_Perc L_Perc T_Perc.
From Verif Require Import T_Retrain.
Import ListNotations.
Local Open Scope R_scope.

(** C141: an object trained before on data with fewer features cannot be trained again: the first point makes the program stop on the failed assertion of the weights' index. *)
Theorem C141_shorter_refuted : forall (pr : params) (d : data R) (clk : nat -> bool) (w0 : list R) (st0 ct0 : nat), rect d -> index_perm d -> (0 < size d)%nat -> clk O = true -> (0 < length w0 < dim d)%nat ->
  ptrain pr d clk w0 st0 ct0 = Abort.
Proof. exact c141_shorter_refuted. Qed.
Print Assumptions C141_shorter_refuted.

(** C141: an object trained before on data with more features is trained on the first weights only; the superfluous ones stay, and evaluate() then answers 0 for every training point. *)
Theorem C141_longer_refuted : forall (pr : params) (d : data R) (clk : nat -> bool) (w0 : list R) (st0 ct0 : nat), rect d -> index_perm d -> (dim d < length w0)%nat ->
  exists s st b, ptrain pr d clk w0 st0 ct0 = Ok (Some (s, st, b)) /\ length (ps_w s) = length w0 /\ forall p, In p (d_points d) -> primal_evaluate (ps_w s) (ps_b s) (p_x p) = Ok 0%Z.
Proof. exact c141_longer_refuted. Qed.
Print Assumptions C141_longer_refuted.

Example C141_longer_refuted_ex : rect px1 /\ index_perm px1 /\ (dim px1 < length [1; 2])%nat /\ (0 < size px1)%nat.
Proof. exact c141_longer_refuted_ex. Qed.

Example C141_shorter_refuted_ex : rect wide /\ index_perm wide /\ (0 < size wide)%nat /\ (0 < length [1] < dim wide)%nat.
Proof. exact c141_shorter_refuted_ex. Qed.

