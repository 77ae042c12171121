(** Property theorems: Validation utilities (C55-C60, C70).
    Each is closed by the lemma of the same (lower-case) name in T_Valid.v. *)
From Coq Require Import ZArith Bool Sorted Permutation Lia List Reals Lra.
From Verif Require Import Base ListLib M_Data S_Data L_Data L_Data2 L_Insert L_Split T_Data M_Valid L_Valid.
From Verif Require Import T_Valid.
Import ListNotations.
Open Scope nat_scope.

(** C55, stratified, three or more folds: every pair partitions the data; every point is tested exactly
    once over the pairs; each label is spread evenly over the test sets; the class counters of all
    returned datasets are exact. *)
Theorem C55_stratified : forall (T : Type) (sh : nat -> nat -> list nat) (d : data T) (folds : nat) (keepIndex : bool),
  data_ok d -> 3 <= folds -> (forall site m, Permutation (sh site m) (seq 0 m)) ->
  exists r, kfoldsplit sh d folds true keepIndex = Ok r /\ length r = folds /\
    (forall tr te, In (tr, te) r ->
        Permutation (map content (d_points tr) ++ map content (d_points te)) (map content (d_points d)) /\
        (keepIndex = true -> Permutation (d_points tr ++ d_points te) (d_points d)) /\
        class_ok tr /\ class_ok te /\ d_size tr = size tr /\ d_size te = size te) /\
    Permutation (flat_map (fun p => map content (d_points (snd p))) r) (map content (d_points d)) /\
    (forall p q, In p r -> In q r -> forall c, (label_count c (d_points (snd p)) <= label_count c (d_points (snd q)) + 1)%Z).
Proof. exact c55_stratified. Qed.
Print Assumptions C55_stratified.

Example C55_stratified_ex : data_ok ex5 /\ (forall m, Permutation (rev (seq 0 m)) (seq 0 m)) /\
  exists r, kfoldsplit (fun _ m => rev (seq 0 m)) ex5 3 true true = Ok r /\
   map (fun p => (map p_id (d_points (fst p)), map p_id (d_points (snd p)))) r = [([2; 3; 4; 5], [1]); ([1; 2; 3], [4; 5]); ([4; 5; 1], [2; 3])]%Z.
Proof. exact c55_stratified_ex. Qed.

(** C55, unstratified, three or more folds: fewer than [folds] points are left out; every pair
    partitions the others and every one of them is tested exactly once. *)
Theorem C55_unstratified : forall (T : Type) (sh : nat -> nat -> list nat) (d : data T) (folds : nat) (keepIndex : bool),
  data_ok d -> 3 <= folds -> (forall site m, Permutation (sh site m) (seq 0 m)) ->
  exists r left_out, kfoldsplit sh d folds false keepIndex = Ok r /\ length r = folds /\ length left_out = size d mod folds /\
    (forall tr te, In (tr, te) r ->
        Permutation (map content (d_points tr) ++ map content (d_points te) ++ map content left_out) (map content (d_points d)) /\
        size te = size d / folds /\ class_ok tr /\ class_ok te) /\
    Permutation (flat_map (fun p => map content (d_points (snd p))) r ++ map content left_out) (map content (d_points d)).
Proof. exact c55_unstratified. Qed.
Print Assumptions C55_unstratified.

(** C55 with two folds: each pair tests the classifier on exactly the points it was trained on. *)
Theorem C55_two_folds_refuted : forall (T : Type) (sh : nat -> nat -> list nat) (d : data T) (stratified keepIndex : bool),
  data_ok d -> (forall site m, Permutation (sh site m) (seq 0 m)) ->
  exists r, kfoldsplit sh d 2 stratified keepIndex = Ok r /\ length r = 2 /\
    forall tr te, In (tr, te) r -> Permutation (d_points te) (d_points tr).
Proof. exact c55_two_folds_refuted. Qed.
Print Assumptions C55_two_folds_refuted.

Example C55_two_folds_ex : data_ok ex5 /\ exists r, kfoldsplit (fun _ m => seq 0 m) ex5 2 true true = Ok r /\
   map (fun p => (map p_id (d_points (fst p)), map p_id (d_points (snd p)))) r = [([1; 5; 4], [1; 5; 4]); ([3; 2], [3; 2])]%Z.
Proof. exact c55_two_folds_ex. Qed.

(** C55: one fold is undefined behaviour, whatever the data. *)
Theorem C55_one_fold_refuted : forall (T : Type) (sh : nat -> nat -> list nat) (d : data T) (keepIndex : bool),
  data_ok d -> (forall site m, Permutation (sh site m) (seq 0 m)) -> kfoldsplit sh d 1 true keepIndex = UB.
Proof. exact c55_one_fold_refuted. Qed.
Print Assumptions C55_one_fold_refuted.

(** C55: the repeated version returns qtde times k pairs, numbered by execution and fold, each block
    being a k-fold split. *)
Theorem C55_repeated : forall (T : Type) (sh : nat -> nat -> nat -> list nat) (d : data T) (folds qtde : nat) (stratified keepIndex : bool),
  data_ok d -> 2 <= folds -> (forall e site m, Permutation (sh e site m) (seq 0 m)) ->
  exists r, kkfoldsplit sh d folds qtde stratified keepIndex = Ok r /\ length r = qtde * folds /\
    forall e f p, In (e, f, p) r -> 1 <= e <= qtde /\ 1 <= f <= folds /\
      exists ps, kfoldsplit (sh (e - 1)) d folds stratified keepIndex = Ok ps /\ nth_error ps (f - 1) = Some p.
Proof. exact c55_repeated. Qed.
Print Assumptions C55_repeated.

(** C56, stratified: every point is in exactly one of train and test; the test part is one fold. *)
Theorem C56_stratified : forall (T : Type) (sh : nat -> nat -> list nat) (d : data T) (k : nat) (keepIndex : bool),
  data_ok d -> 1 <= k -> (forall site m, Permutation (sh site m) (seq 0 m)) ->
  exists tr te, partTrainTest sh d k true keepIndex = Ok (tr, te) /\
    Permutation (map content (d_points tr) ++ map content (d_points te)) (map content (d_points d)) /\
    (keepIndex = true -> Permutation (d_points tr ++ d_points te) (d_points d)) /\
    size d / k <= size te <= size d / k + 1 /\
    class_ok tr /\ class_ok te /\ d_size tr = size tr /\ d_size te = size te.
Proof. exact c56_stratified. Qed.
Print Assumptions C56_stratified.

Example C56_stratified_ex : data_ok ex5 /\ exists tr te, partTrainTest (fun _ m => seq 0 m) ex5 2 true true = Ok (tr, te) /\
  map p_id (d_points tr) = [1; 5; 4]%Z /\ map p_id (d_points te) = [3; 2]%Z.
Proof. exact c56_stratified_ex. Qed.

(** C56, unstratified: the same up to the n mod k points that the split leaves out. *)
Theorem C56_unstratified : forall (T : Type) (sh : nat -> nat -> list nat) (d : data T) (k : nat) (keepIndex : bool),
  data_ok d -> 1 <= k -> (forall site m, Permutation (sh site m) (seq 0 m)) ->
  exists tr te left_out, partTrainTest sh d k false keepIndex = Ok (tr, te) /\ length left_out = size d mod k /\
    Permutation (map content (d_points tr) ++ map content (d_points te) ++ map content left_out) (map content (d_points d)) /\
    size te = size d / k /\ class_ok tr /\ class_ok te.
Proof. exact c56_unstratified. Qed.
Print Assumptions C56_unstratified.

(** C56: unstratified splitting can drop points from both parts. *)
Theorem C56_unstratified_refuted : exists (d tr te : data Z) (p : point Z), data_ok d /\
  partTrainTest (fun _ m => seq 0 m) d 2 false true = Ok (tr, te) /\ In p (d_points d) /\
  ~ In (content p) (map content (d_points tr)) /\ ~ In (content p) (map content (d_points te)).
Proof. exact c56_unstratified_refuted. Qed.
Print Assumptions C56_unstratified_refuted.

(** C57: the table is square, sums to the number of samples, and entry (i,j) counts the samples
    predicted as class i whose true class is j (so rows are predictions, the transpose of the documented layout). *)
Theorem C57_counts : forall (T : Type) (d : data T) (pred : point T -> Z),
  class_ok d -> (forall p, In p (d_points d) -> In (pred p) (d_classes d)) ->
  exists m, generateConfusionMatrix d pred = Ok m /\
    length m = length (d_classes d) /\ (forall row, In row m -> length row = length (d_classes d)) /\
    list_sum (map (fun row => list_sum row) m) = size d /\
    forall i j ci cj, nth_error (d_classes d) i = Some ci -> nth_error (d_classes d) j = Some cj ->
      nth j (nth i m []) 0 = length (filter (fun p => Z.eqb (pred p) ci && Z.eqb (p_y p) cj) (d_points d)).
Proof. exact c57_counts. Qed.
Print Assumptions C57_counts.

Example C57_counts_ex : class_ok ex5 /\ generateConfusionMatrix ex5 (fun _ => 1%Z) = Ok [[3; 2]; [0; 0]].
Proof. exact c57_counts_ex. Qed.

(** C57: with the documented orientation (rows = true classes) the table is wrong. *)
Theorem C57_orientation_refuted : exists (d : data Z) (pred : point Z -> Z) m i j ci cj,
  class_ok d /\ (forall p, In p (d_points d) -> In (pred p) (d_classes d)) /\ generateConfusionMatrix d pred = Ok m /\
  nth_error (d_classes d) i = Some ci /\ nth_error (d_classes d) j = Some cj /\
  nth j (nth i m []) 0 <> length (filter (fun p => Z.eqb (p_y p) ci && Z.eqb (pred p) cj) (d_points d)).
Proof. exact c57_orientation_refuted. Qed.
Print Assumptions C57_orientation_refuted.

(** C57: an answer that is not a listed class is booked under the first class. *)
Theorem C57_unlisted_refuted : exists (d : data Z) (pred : point Z -> Z) m c,
  class_ok d /\ (forall p, In p (d_points d) -> ~ In (pred p) (d_classes d)) /\ generateConfusionMatrix d pred = Ok m /\
  nth_error (d_classes d) 0 = Some c /\ nth 0 (nth 0 m []) 0 > 0.
Proof. exact c57_unlisted_refuted. Qed.
Print Assumptions C57_unlisted_refuted.

