(** Property theorems: classificationReport and kfold (C59, C60).
    Each is closed by the lemma of the same (lower-case) name in T_Valid3.v. *)
From Coq Require Import ZArith Bool Sorted Permutation Lia List Reals Lra.
From Verif Require Import Base ListLib M_Data S_Data L_Data L_Data2 L_Insert L_Split T_Data M_Valid L_Valid T_Valid T_Valid2.
From Verif Require Import T_Valid3.
Import ListNotations.
Open Scope nat_scope.

(** C59: with labels 1 (positive) and another one, whenever a report is returned its counters and its
    accuracy are right. *)
Theorem C59_counts : forall (real pred : list Z) (n : Z) (rep : report),
  n <> 1%Z -> length real = length pred -> (forall z, In z real \/ In z pred -> z = 1%Z \/ z = n) ->
  classificationReport real pred = Ok rep ->
  let count (a b : Z) := length (filter (fun rp => Z.eqb (fst rp) a && Z.eqb (snd rp) b) (combine real pred)) in
  r_tp rep = count 1%Z 1%Z /\ r_fp rep = count n 1%Z /\ r_tn rep = count n n /\ r_fn rep = count 1%Z n /\
  r_accuracy rep = Some (INR (count 1%Z 1%Z + count n n) / INR (length real))%R.
Proof. exact c59_counts. Qed.
Print Assumptions C59_counts.

Example C59_counts_ex : exists rep, classificationReport [1; 1; 1; -1; -1]%Z [1; 1; -1; -1; 1]%Z = Ok rep /\
  (r_tp rep, r_fp rep, r_tn rep, r_fn rep) = (2, 1, 1, 1).
Proof. exact c59_counts_ex. Qed.

(** C59: for any vectors of equal length whose number of distinct labels is not two, the function
    divides the integer 0 by 0. *)
Theorem C59_multiclass_refuted : forall (real pred : list Z), length real = length pred ->
  length (nodup Z.eq_dec (real ++ pred)) <> 2 -> classificationReport real pred = UB.
Proof. exact c59_multiclass_refuted. Qed.
Print Assumptions C59_multiclass_refuted.

Example C59_multiclass_ex : length (nodup Z.eq_dec ([0; 1; 2] ++ [0; 2; 2])%Z) = 3.
Proof. exact c59_multiclass_ex. Qed.

(** C59: the ratios are truncated to 0 or 1: whenever a report is returned, each is 1 exactly when the
    corresponding error counter is 0, and 0 otherwise, so 2 hits out of 3 give sensitivity 0. *)
Theorem C59_ratios_refuted : forall (real pred : list Z) (rep : report),
  classificationReport real pred = Ok rep ->
  r_sensitivity rep = Some (if Nat.eqb (r_fn rep) 0 then 1 else 0)%R /\
  r_precision rep = Some (if Nat.eqb (r_fp rep) 0 then 1 else 0)%R /\
  r_specificity rep = Some (if Nat.eqb (r_fn rep) 0 then 1 else 0)%R.
Proof. exact c59_ratios_refuted. Qed.
Print Assumptions C59_ratios_refuted.

Example C59_ratios_ex : exists rep, classificationReport [1; 1; 1; -1; -1]%Z [1; 1; -1; -1; 1]%Z = Ok rep /\
  r_fn rep = 1 /\ r_sensitivity rep = Some 0%R.
Proof. exact c59_ratios_ex. Qed.

(** C60, primal classifiers: with at least three folds and at least as many points as folds, kfold
    returns the mean over k pairs of the error percentage on the test part of the classifier trained on
    the training part, which is disjoint from it; the accuracy is the complement to 100. In the
    stratified case every point is tested exactly once. *)
Theorem C60_primal : forall (T C : Type) (train : data T -> C) (evaluate : C -> point T -> Z)
    (sh : nat -> nat -> list nat) (d : data T) (folds : nat) (stratified : bool),
  data_ok d -> 3 <= folds <= size d -> (forall site m, Permutation (sh site m) (seq 0 m)) ->
  exists (pairs : list (data T * data T)) (left_out : list (point T)) (e : R),
    kfold train evaluate sh d folds stratified false = Ok (Some (e, (100 - e)%R)) /\
    length pairs = folds /\
    length left_out = (if stratified then 0 else size d mod folds) /\
    (forall tr te, In (tr, te) pairs -> d_points te <> [] /\
        Permutation (map content (d_points tr) ++ map content (d_points te) ++ map content left_out) (map content (d_points d))) /\
    Permutation (flat_map (fun p => map content (d_points (snd p))) pairs ++ map content left_out) (map content (d_points d)) /\
    (e = rsum (map (pct train evaluate) pairs) / INR folds)%R /\ (0 <= e <= 100)%R.
Proof. exact c60_primal. Qed.
Print Assumptions C60_primal.

Example C60_primal_ex : data_ok ex5 /\ 3 <= 3 <= size ex5 /\ (forall m, Permutation (rev (seq 0 m)) (seq 0 m)).
Proof. exact c60_primal_ex. Qed.

(** C60: a classifier reporting the dual formulation is trained on the test fold as well: the samples it
    is given are all test points followed by all training points, whatever the data. *)
Theorem C60_dual_refuted : forall (T : Type) (classes : list Z) (tr te : data T),
  data_ok te -> data_ok tr -> d_dim te = d_dim tr -> d_cdist te = false -> (Z.of_nat (size te + size tr) < 2 ^ 63)%Z ->
  exists ts, kf_training_set true classes (tr, te) = Ok ts /\ d_points ts = d_points te ++ d_points tr.
Proof. exact c60_dual_refuted. Qed.
Print Assumptions C60_dual_refuted.

Example C60_dual_ex : data_ok ex3 /\ data_ok exj /\ d_dim ex3 = d_dim exj /\ d_cdist ex3 = false /\ (Z.of_nat (size ex3 + size exj) < 2 ^ 63)%Z.
Proof. exact c60_dual_ex. Qed.

