(** Property theorems: Properties of the balanced perceptron.
    Each is closed by the lemma of the same (lower-case) name in T_Balanced.v. *)
From Coq Require Import ZArith Bool List Lia Reals Lra Psatz Permutation.
From Verif Require Import Base ListLib M_Data L_Data2 M_Point L_Point L_Vec M_Kernel S_Kernel L_Kernel M_Perc S_Perc T_Perc S_Ima M_Balanced.
From Verif Require Import T_Balanced.
Import ListNotations.
Local Open Scope R_scope.

(** C95: training ends without an access outside an array and after at most one update more than allowed. *)
Theorem C95_total : forall (big rate : R) (max_epoch max_up : nat) (late : nat -> bool) (w0 : vec) (perm : list nat) (d : data R),
  rect d -> (d_size d <= length (d_index d))%nat -> Permutation perm (seq 0 (size d)) -> length w0 = dim d ->
  exists w b k ok, bp_train big rate max_epoch max_up late w0 perm d = Ok (w, b, k, ok) /\ length w = dim d /\ (k <= S max_up)%nat.
Proof. exact c95_total. Qed.
Print Assumptions C95_total.

(** C95: if training answers true after at least one epoch, every training point is labelled 1 or -1 and evaluate returns its label. *)
Theorem C95_classifies : forall (big rate : R) (max_epoch max_up : nat) (late : nat -> bool) (w0 : vec) (perm : list nat) (d : data R) w b k,
  rect d -> (d_size d <= length (d_index d))%nat -> Permutation perm (seq 0 (size d)) -> length w0 = dim d -> 0 <= big -> (0 < max_epoch)%nat ->
  bp_train big rate max_epoch max_up late w0 perm d = Ok (w, b, k, true) ->
  forall p, In p (d_points d) -> (p_y p = 1%Z \/ p_y p = (-1)%Z) /\ bp_evaluate w b p = Ok (p_y p).
Proof. exact c95_classifies. Qed.
Print Assumptions C95_classifies.

(** C95: with both classes, and values below [big], the hyperplane returned is balanced: the closest points of the two classes have opposite values. *)
Theorem C95_balanced : forall (big rate : R) (max_epoch max_up : nat) (late : nat -> bool) (w0 : vec) (perm : list nat) (d : data R) w b k,
  rect d -> (d_size d <= length (d_index d))%nat -> Permutation perm (seq 0 (size d)) -> length w0 = dim d -> (0 < max_epoch)%nat ->
  bp_train big rate max_epoch max_up late w0 perm d = Ok (w, b, k, true) -> both_classes d -> (forall p, In p (d_points d) -> Rabs (inner (dim d) w (p_x p)) < big) ->
  exists p q, closest d w b p q /\ 0 < value d w b p /\ value d w b q = - value d w b p.
Proof. exact c95_balanced. Qed.
Print Assumptions C95_balanced.

(** C95: the bias plays no part in training: an answer true means that a hyperplane through the origin separates the points. *)
Theorem C95_through_origin : forall (big rate : R) (max_epoch max_up : nat) (late : nat -> bool) (w0 : vec) (perm : list nat) (d : data R) w b k,
  rect d -> (d_size d <= length (d_index d))%nat -> Permutation perm (seq 0 (size d)) -> length w0 = dim d -> (0 < max_epoch)%nat ->
  bp_train big rate max_epoch max_up late w0 perm d = Ok (w, b, k, true) ->
  forall p, In p (d_points d) -> (p_y p = 1%Z /\ 0 <= inner (dim d) w (p_x p)) \/ (p_y p = (-1)%Z /\ inner (dim d) w (p_x p) < 0).
Proof. exact c95_through_origin. Qed.
Print Assumptions C95_through_origin.

(** C95: if a hyperplane through the origin separates the points with a positive margin, training answers true whenever the limits are large enough. *)
Theorem C95_converges : forall (rate : R) (w0 : vec) (d : data R) (u : vec) (g : R),
  rect d -> (d_size d <= length (d_index d))%nat -> length w0 = dim d -> 0 < rate -> 0 < g -> binary d ->
  (forall p, In p (d_points d) -> g <= IZR (p_y p) * inner (dim d) u (p_x p)) ->
  exists K, forall (big : R) (max_epoch max_up : nat) (late : nat -> bool) (perm : list nat), Permutation perm (seq 0 (size d)) ->
    (K <= max_up)%nat -> (K < max_epoch)%nat -> (forall e, late e = false) ->
    exists w b k, bp_train big rate max_epoch max_up late w0 perm d = Ok (w, b, k, true) /\ (k <= K)%nat.
Proof. exact c95_converges. Qed.
Print Assumptions C95_converges.

Theorem C95_no_bias_refuted : (forall p, In p (d_points bx) -> 0 < yf bx [-1] (3/2) p) /\
  forall (big rate : R) (max_epoch max_up : nat) (late : nat -> bool) (w0 : vec) (perm : list nat), Permutation perm [0; 1]%nat -> length w0 = 1%nat -> (0 < max_epoch)%nat ->
  exists w b k, bp_train big rate max_epoch max_up late w0 perm bx = Ok (w, b, k, false).
Proof. exact c95_no_bias_refuted. Qed.
Print Assumptions C95_no_bias_refuted.

(** C95: with a maximum of 0 epochs training answers true for every dataset, whatever the labels. *)
Theorem C95_zero_epochs_refuted : forall (big rate : R) (max_up : nat) (late : nat -> bool) (w0 : vec) (perm : list nat) (d : data R),
  rect d -> (d_size d <= length (d_index d))%nat -> Permutation perm (seq 0 (size d)) -> length w0 = dim d ->
  exists b, bp_train big rate 0 max_up late w0 perm d = Ok (w0, b, 0%nat, true).
Proof. exact c95_zero_epochs_refuted. Qed.
Print Assumptions C95_zero_epochs_refuted.

Example C95_total_ex : rect by1 /\ (d_size by1 <= length (d_index by1))%nat /\ Permutation [0; 1]%nat (seq 0 (size by1)) /\ length [1] = dim by1.
Proof. exact c95_total_ex. Qed.

Example C95_classifies_ex : exists w b, bp_train 100 1 5 5 (fun _ => false) [1] [0; 1]%nat by1 = Ok (w, b, 0%nat, true) /\ rect by1 /\ (d_size by1 <= length (d_index by1))%nat /\ Permutation [0; 1]%nat (seq 0 (size by1)) /\ length [1] = dim by1.
Proof. exact c95_classifies_ex. Qed.

Example C95_balanced_ex : exists w b, bp_train 100 1 5 5 (fun _ => false) [1] [0; 1]%nat by1 = Ok (w, b, 0%nat, true) /\ both_classes by1 /\ (forall p, In p (d_points by1) -> Rabs (inner (dim by1) w (p_x p)) < 100).
Proof. exact c95_balanced_ex. Qed.

Example C95_through_origin_ex : exists w b, bp_train 100 1 5 5 (fun _ => false) [1] [0; 1]%nat by1 = Ok (w, b, 0%nat, true) /\ rect by1.
Proof. exact c95_through_origin_ex. Qed.

Example C95_converges_ex : rect by1 /\ binary by1 /\ forall p, In p (d_points by1) -> 1 <= IZR (p_y p) * inner (dim by1) [1] (p_x p).
Proof. exact c95_converges_ex. Qed.

Example C95_zero_epochs_refuted_ex : rect bx /\ (d_size bx <= length (d_index bx))%nat /\ Permutation [1; 0]%nat (seq 0 (size bx)) /\ length [0] = dim bx.
Proof. exact c95_zero_epochs_refuted_ex. Qed.

