(** Property theorems: Proofs about the statistics of int points.
    Each is closed by the lemma of the same (lower-case) name in T_IntStat.v. *)
From Coq Require Import ZArith Bool Reals Lia Lra List Psatz.
From Verif Require Import Base Loop M_Data M_IntStat S_IntStat.
From Verif Require Import T_IntStat.
Import ListNotations.
Local Open Scope Z_scope.

(** C150: the mean of an int point whose sum is not negative is the mean rounded down. *)
Theorem C150_mean : forall (B : Z) (x : list Z), small B x -> x <> [] -> (0 <= true_mean x)%R -> exists m, imean x = Ok m /\ (IZR m <= true_mean x < IZR m + 1)%R.
Proof. exact c150_mean. Qed.
Print Assumptions C150_mean.

Example C150_mean_ex : small 2 [2; 1; 0; 2] /\ imean [2; 1; 0; 2] = Ok 1.
Proof. exact c150_mean_ex. Qed.

(** C150: if the sum is negative the mean reported is above every int, and variance, deviation and covariance are undefined. *)
Theorem C150_mean_refuted : forall (B : Z) (x : list Z), small B x -> Z.of_nat (length x) < 2 ^ 32 -> (true_mean x < 0)%R ->
  exists m, imean x = Ok m /\ 2 ^ 31 < m /\ ivar x = UB /\ istd x = UB /\ forall y, length y = length x -> icovar x y = UB.
Proof. exact c150_mean_refuted. Qed.
Print Assumptions C150_mean_refuted.

Example C150_mean_refuted_ex : small 3 [1; -3] /\ (true_mean [1; -3]%Z < 0)%R /\ imean [1; -3] = Ok (2 ^ 63 - 1).
Proof. exact c150_mean_refuted_ex. Qed.

(** C150: no numbers, and points of different dimensions, stop. *)
Theorem C150_stop : imean [] = Abort /\ ivar [] = Abort /\ istd [] = Abort /\ icovar [] [] = Abort /\ forall x y, length x <> length y -> icovar x y = Abort.
Proof. exact c150_stop. Qed.
Print Assumptions C150_stop.

(** C150: otherwise the variance is a whole number less than 1 off the variance, and the deviation its root. *)
Theorem C150_var : forall (B : Z) (x : list Z), small B x -> x <> [] -> (0 <= true_mean x)%R ->
  exists v, ivar x = Ok v /\ 0 <= v /\ (Rabs (IZR v - true_var x) < 1)%R /\ istd x = Ok (sqrt (IZR v)).
Proof. exact c150_var. Qed.
Print Assumptions C150_var.

Example C150_var_ex : small 7 [7; 1; 4] /\ ivar [7; 1; 4] = Ok 6 /\ ivar [7; 1; 5] = Ok 6.
Proof. exact c150_var_ex. Qed.

(** C150: the variance of a point of zeros and ones is always 0, so that it does not tell constant points. *)
Theorem C150_var_refuted : forall (x : list Z), x <> [] -> 4 * Z.of_nat (length x) <= 2 ^ 31 - 1 -> (forall v, In v x -> v = 0 \/ v = 1) -> ivar x = Ok 0 /\ istd x = Ok 0%R.
Proof. exact c150_var_refuted. Qed.
Print Assumptions C150_var_refuted.

Example C150_var_refuted_ex : forall v, In v [1; 0; 1] -> v = 0 \/ v = 1.
Proof. exact c150_var_refuted_ex. Qed.

(** C150: the covariance is too large, by less than n / (n - 1). *)
Theorem C150_covar : forall (B : Z) (x y : list Z), small B x -> small B y -> length x = length y -> (2 <= length x)%nat -> (0 <= true_mean x)%R -> (0 <= true_mean y)%R ->
  exists c, icovar x y = Ok (Some c) /\ (0 <= c - true_cov x y < INR (length x) / (INR (length x) - 1))%R.
Proof. exact c150_covar. Qed.
Print Assumptions C150_covar.

Example C150_covar_ex : small 3 [0; 3; 1] /\ small 3 [2; 0; 3] /\ (2 <= length [0; 3; 1])%nat.
Proof. exact c150_covar_ex. Qed.

