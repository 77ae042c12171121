(** Property theorems: Property lemmas for the committee of perceptrons: C109.
    Each is closed by the lemma of the same (lower-case) name in T_Pcom.v. *)
From Coq Require Import ZArith Bool List Lia Reals Lra Permutation.
From Verif Require Import Base ListLib M_Data L_Data2 M_Point L_Point L_Vec Loop L_Valid M_Kernel S_Kernel L_Kernel M_Perc S_Perc T_Perc S_Ima M_Balanced T_Balanced M_Knn M_Ens S_Ens T_Ens M_Pcom.
From Verif Require Import T_Pcom.
Import ListNotations.
Local Open Scope R_scope.

(** C109: training always ends, with n members, each one a perceptron trained alone on the committee's samples in some order; the samples are rearranged, no more. *)
Theorem C109_train : forall (big : R) (n max_epoch max_up : nat) (late : nat -> nat -> bool) (ws : nat -> vec) (perms : nat -> list nat) (d : data R),
  rect d -> (d_size d <= length (d_index d))%nat -> (forall i, Permutation (perms i) (seq 0 (size d))) -> (forall i, length (ws i) = dim d) ->
  exists d' ms, pcom_train big n max_epoch max_up late ws perms d = Ok (d', ms) /\ Permutation (d_points d') (d_points d) /\ d_classes d' = d_classes d /\ d_dist d' = d_dist d /\ length ms = n /\
    forall i, (i < n)%nat -> exists w b perm k ok, nth_error ms i = Some (w, b) /\ Permutation perm (seq 0 (size d)) /\ bp_train big (1 / 2) max_epoch max_up (late i) (ws i) perm d = Ok (w, b, k, ok).
Proof. exact c109_train. Qed.
Print Assumptions C109_train.

(** C109: on points that a hyperplane through the origin separates, with limits large enough for the margin, a committee of one or more members answers the label of every training point, whatever
    the weights drawn and the shuffles. *)
Theorem C109_separable : forall (n : nat) (ws : nat -> vec) (d : data R) (u : vec) (g : R),
  rect d -> (d_size d <= length (d_index d))%nat -> (forall i, length (ws i) = dim d) -> 0 < g -> binary d -> NoDup (d_classes d) -> (forall p, In p (d_points d) -> In (p_y p) (d_classes d)) -> (0 < n)%nat ->
  (forall p, In p (d_points d) -> g <= IZR (p_y p) * inner (dim d) u (p_x p)) ->
  exists K, forall (big : R) (max_epoch max_up : nat) (late : nat -> nat -> bool) (perms : nat -> list nat), 0 <= big -> (forall i, Permutation (perms i) (seq 0 (size d))) -> (K <= max_up)%nat -> (K < max_epoch)%nat -> (forall i e, late i e = false) ->
    exists d' ms, pcom_train big n max_epoch max_up late ws perms d = Ok (d', ms) /\ forall p, In p (d_points d) -> pcom_evaluate d' ms p = Ok (p_y p).
Proof. exact c109_separable. Qed.
Print Assumptions C109_separable.

(** C109: evaluation takes the majority of the signs when both labels are listed; a tie goes to the label listed first. *)
Theorem C109_majority : forall (d' : data R) (ms : list (vec * R)) (p : point R), NoDup (d_classes d') -> In 1%Z (d_classes d') -> In (-1)%Z (d_classes d') -> (forall w b, In (w, b) ms -> length w = length (p_x p)) ->
  exists preds c, Forall2 (fun m y => (y = 1%Z /\ 0 <= inner (length (p_x p)) (fst m) (p_x p) + snd m) \/ (y = (-1)%Z /\ inner (length (p_x p)) (fst m) (p_x p) + snd m < 0)) ms preds /\
    pcom_evaluate d' ms p = Ok c /\ first_largest (d_classes d') (fun x => INR (ballots preds x)) c.
Proof. exact c109_majority. Qed.
Print Assumptions C109_majority.

Theorem C109_unlisted_refuted : forall (d' : data R) (ms : list (vec * R)) (p : point R) w b, (forall w b, In (w, b) ms -> length w = length (p_x p)) -> In (w, b) ms ->
  (0 <= inner (length (p_x p)) w (p_x p) + b /\ ~ In 1%Z (d_classes d')) \/ (inner (length (p_x p)) w (p_x p) + b < 0 /\ ~ In (-1)%Z (d_classes d')) -> pcom_evaluate d' ms p = Abort.
Proof. exact c109_unlisted_refuted. Qed.
Print Assumptions C109_unlisted_refuted.

(** C109: a committee without members answers the class listed first for every point. *)
Theorem C109_empty_refuted : forall (big : R) (max_epoch max_up : nat) (late : nat -> nat -> bool) (ws : nat -> vec) (perms : nat -> list nat) (d : data R) c cs p, d_classes d = c :: cs ->
  exists d' ms, pcom_train big 0 max_epoch max_up late ws perms d = Ok (d', ms) /\ pcom_evaluate d' ms p = Ok c.
Proof. exact c109_empty_refuted. Qed.
Print Assumptions C109_empty_refuted.

(** The hypotheses are met. *)
Example C109_train_ex : rect by1 /\ (d_size by1 <= length (d_index by1))%nat /\ (forall i : nat, Permutation [0; 1]%nat (seq 0 (size by1))) /\ (forall i : nat, length [INR i] = dim by1).
Proof. exact c109_train_ex. Qed.

Example C109_separable_ex : rect by1 /\ (d_size by1 <= length (d_index by1))%nat /\ (forall i : nat, length [INR i] = dim by1) /\ binary by1 /\ NoDup (d_classes by1) /\ (forall p, In p (d_points by1) -> In (p_y p) (d_classes by1)) /\
  forall p, In p (d_points by1) -> 1 <= IZR (p_y p) * inner (dim by1) [1] (p_x p).
Proof. exact c109_separable_ex. Qed.

Example C109_majority_ex : NoDup (d_classes by1) /\ In 1%Z (d_classes by1) /\ In (-1)%Z (d_classes by1) /\ (forall w b, In (w, b) [([1], 0); ([2], 1)] -> length w = length (p_x (mkPoint [3] 0%Z 0%Z 0))).
Proof. exact c109_majority_ex. Qed.

Example C109_unlisted_refuted_ex : (forall w b, In (w, b) [([1], 0)] -> length w = length (p_x (mkPoint [-3] 0%Z 0%Z 0))) /\ inner 1 [1] [-3] + 0 < 0 /\ ~ In (-1)%Z (d_classes (mkData [mkPoint [1] 1%Z 1%Z 0] [1]%Z [0]%Z [] [1]%Z [1]%Z 1 1 false false false true)).
Proof. exact c109_unlisted_refuted_ex. Qed.

