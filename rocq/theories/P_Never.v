(** Property theorems: C115: a search without end.
    Each is closed by the lemma of the same (lower-case) name in T_Never.v. *)
From Coq Require Import ZArith Bool List Reals Permutation Sorted Lia Lra.
From Verif Require Import Base ListLib Loop M_Data S_Data L_Data L_Data2 L_Feat L_Join M_Point L_Vec M_Kmeans S_Fs T_Fs M_Pq S_Pq L_Pq T_Pq T_Prune T_Vis M_Aos S_Aos L_Aos L_Aos2 L_Aos3 L_Aos4 T_Aos.
From Verif Require Import T_Never.
Import ListNotations.
Local Open Scope nat_scope.

(** C115: with one feature to take away and a classifier that reports no positive margin, the search trains again and again and never ends. *)
Theorem C115_forever_refuted : forall (fuel : nat) (c : aos_cfg) srt tr (d : data R), data_ok d -> d_points d <> [] -> 2 <= length (d_fnames d) -> flat d tr -> (forall e l, Permutation (srt e l) l) ->
  (a_gm c <= 0)%R -> 1 <= a_cap c -> 1 <= a_len c -> apart (a_len c) (d_fnames d) 2 -> roomy (a_len c) (a_width c) (d_fnames d) 2 -> 1 <= a_breadth c -> a_depth c = 1%Z ->
  aos_select fuel c srt tr d = Ok Running.
Proof. exact c115_forever_refuted. Qed.
Print Assumptions C115_forever_refuted.

(** A margin of 0, which the perceptron leaves in its solution; two of three features asked for, with the default of three children. *)
Example C115_forever_refuted_ex : flat fx (even_train 0) /\ a_depth (aos_new fx 2 3 0 0) = 1%Z /\ forall fuel, aos_select fuel (aos_new fx 2 3 0 0) (fun _ => fsort (fun x => - Rabs x)%R) (even_train 0) fx = Ok Running.
Proof. exact c115_forever_refuted_ex. Qed.

