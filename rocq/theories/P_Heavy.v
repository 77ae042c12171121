(** Property theorems: C116: the admissible ordered search with one child.
    Each is closed by the lemma of the same (lower-case) name in T_Heavy.v. *)
From Coq Require Import ZArith Bool List Reals Permutation Sorted Lia Lra.
From Verif Require Import Base ListLib Loop M_Data S_Data L_Data L_Data2 L_Feat L_Join M_Point L_Vec M_Kmeans S_Fs T_Fs M_Pq S_Pq L_Pq T_Pq T_Prune T_Vis M_Aos S_Aos L_Aos L_Aos2 L_Aos3 L_Aos4 T_Aos L_Smo T_Ima.
From Verif Require Import T_Heavy.
Import ListNotations.
Local Open Scope nat_scope.

(** C116: with one child and trainings that succeed, the search is an elimination: the classifier is trained, one feature of the greatest absolute weight is taken away, and so on, as many times as there are features to take away. *)
Theorem C116_heaviest : forall (fuel : nat) (c : aos_cfg) srt tr (d : data R), searchable d c srt tr -> ranked d by_weight srt -> willing d tr -> a_breadth c = 1 -> levels d c + 3 <= fuel ->
  exists e, aos_select fuel c srt tr d = Ok (Done e) /\ heaviest by_weight tr d (levels d c) e.
Proof. exact c116_heaviest. Qed.
Print Assumptions C116_heaviest.

(** C116: the value of a child is the absolute weight of the feature taken away, times the margin and the root of the number of features left, over the norm of the weights. *)
Theorem C116_value : forall dim i (wi wnorm margin : R), i < dim -> (wnorm <> 0)%R -> aos_projected dim i wi wnorm margin = (sqrt (INR (dim - 1)) * (Rabs wi / Rabs wnorm) * Rabs margin)%R.
Proof. exact c116_value. Qed.
Print Assumptions C116_value.

(** C116: the margin left is greater when a feature of smaller weight is taken away, but the value of the child is smaller. *)
Theorem C116_order_refuted : forall (w : list R) i j pi pj (wnorm margin : R), i < length w -> j < length w -> pi < length w -> pj < length w -> pnorm2 w = Ok wnorm ->
  (Rabs (nth i w 0) < Rabs (nth j w 0))%R -> (0 < margin)%R ->
  (shadow w j margin < shadow w i margin /\ aos_projected (length w) pi (nth i w 0) wnorm margin < aos_projected (length w) pj (nth j w 0) wnorm margin)%R.
Proof. exact c116_order_refuted. Qed.
Print Assumptions C116_order_refuted.

Example C116_order_refuted_ex : pnorm2 [3; 4]%R = Ok (sqrt (0 + Rabs 3 * Rabs 3 + Rabs 4 * Rabs 4))%R /\ 0 < length [3; 4]%R /\ (Rabs (nth 0 [3; 4] 0) < Rabs (nth 1 [3; 4] 0))%R.
Proof. exact c116_order_refuted_ex. Qed.

Example C116_heaviest_ex : exists e, aos_select 5 (aos_new fx 1 1 0 0) (fun _ => fsort (fun x => - Rabs x)%R) (even_train 1) fx = Ok (Done e) /\ heaviest by_weight (even_train 1) fx 2 e.
Proof. exact c116_heaviest_ex. Qed.

