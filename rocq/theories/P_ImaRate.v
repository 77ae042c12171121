(** Property theorems: C140: learning rates and support vectors of the incremental margin algorithm.
    Each is closed by the lemma of the same (lower-case) name in T_ImaRate.v. *)
From Coq Require Import ZArith Bool List Lia Reals Lra Psatz Permutation.
From Verif Require Import Base ListLib M_Data M_Point L_Vec Loop M_Kernel S_Kernel L_Kernel M_Perc S_Perc L_Perc T_Perc L_Knn L_Smo M_Fixed S_Fixed L_Fixed T_Fixed M_Ima S_Ima L_Ima T_Ima S_ImaRate.
From Verif Require Import T_ImaRate.
Import ListNotations.
Local Open Scope R_scope.

(** C140: the support vectors are the points whose alpha exceeds eps times the learning rate after the last successful call; that rate is 1 up to the second such call, then the square root of t / c, with t and c the numbers of updates
    after the third and after the last one. The counts start at 1 or more, do not decrease, and there are as many as reported margins. *)
Theorem C140_rates : forall (pw : R -> R -> R) (kind : qnorm) (pr : params) (flex eps aprox big : R) (d : data R) (clk : nat -> nat -> bool) (stop : nat -> bool) (margin : R) r,
  rect d -> d_index d = [] \/ index_perm d -> (kind = L1 -> (0 < dim d)%nat) -> (0 < size d)%nat -> ima_train pw kind pr flex eps aprox big d clk stop margin = Ok (Some r) ->
  exists cs, length cs = length (re_printed r) /\ rising cs /\ (forall c, In c cs -> (1 <= c <= re_ctot r)%nat) /\
    forall i, In i (re_svs r) <-> (i < size d)%nat /\ eps * rate_after cs < nz (re_alpha r) i.
Proof. exact c140_rates. Qed.
Print Assumptions C140_rates.

(** C140: hence, for eps at least 0, every support vector has a positive alpha and every point whose alpha exceeds eps is a support vector; after at most three reported margins these are the only ones. *)
Theorem C140_support : forall (pw : R -> R -> R) (kind : qnorm) (pr : params) (flex eps aprox big : R) (d : data R) (clk : nat -> nat -> bool) (stop : nat -> bool) (margin : R) r,
  rect d -> d_index d = [] \/ index_perm d -> (kind = L1 -> (0 < dim d)%nat) -> (0 < size d)%nat -> 0 <= eps -> ima_train pw kind pr flex eps aprox big d clk stop margin = Ok (Some r) ->
  forall i, (In i (re_svs r) -> 0 < nz (re_alpha r) i) /\ ((i < size d)%nat -> eps < nz (re_alpha r) i -> In i (re_svs r)) /\
    ((length (re_printed r) <= 3)%nat -> In i (re_svs r) -> eps < nz (re_alpha r) i).
Proof. exact c140_support. Qed.
Print Assumptions C140_support.

Example C140_rates_ex : exists r, ima_train (fun _ _ => 0) L2 (lim 1 1) 0 (1/1000) 0 100 ix (fun _ _ => true) (fun _ => true) 0 = Ok (Some r) /\ re_ok r = true /\ rect ix /\ index_perm ix /\ (0 < size ix)%nat.
Proof. exact c140_rates_ex. Qed.

