(** Property theorems: C114: the admissible ordered search.
    Each is closed by the lemma of the same (lower-case) name in T_Aos.v. *)
From Coq Require Import ZArith Bool List Reals Permutation Sorted Lia Lra.
From Verif Require Import Base ListLib Loop M_Data S_Data L_Data L_Data2 L_Feat L_Join M_Point L_Vec M_Kmeans S_Fs T_Fs M_Pq S_Pq L_Pq T_Pq T_Prune T_Vis M_Aos S_Aos L_Aos L_Aos2 L_Aos3 L_Aos4.
From Verif Require Import T_Aos.
Import ListNotations.
Local Open Scope nat_scope.

(** C114: what a search returns, if it ever does: [d] without some of its features, no more than were to be taken away, and the classifier was trained on it with success, unless it is [d] itself. No other outcome but to go on is possible. *)
Theorem C114_sound : forall (fuel : nat) (c : aos_cfg) srt tr (d : data R), searchable d c srt tr -> 1 <= a_breadth c -> children d c + levels d c <= length (d_fnames d) ->
  aos_select fuel c srt tr d = Ok Running \/
  exists e fs, aos_select fuel c srt tr d = Ok (Done e) /\ restricted (without fs) d e /\ NoDup fs /\ incl fs (d_fnames d) /\ length fs <= levels d c /\ (fs = [] \/ exists k, fst (tr k e) = true).
Proof. exact c114_sound. Qed.
Print Assumptions C114_sound.

(** C114: the search ends, within a number of turns given by the breadth and the number of features to take away. *)
Theorem C114_ends : forall (fuel : nat) (c : aos_cfg) srt tr (d : data R), searchable d c srt tr -> 1 <= a_breadth c -> children d c + levels d c <= length (d_fnames d) ->
  children d c * turns (children d c) (levels d c) < fuel -> exists e, aos_select fuel c srt tr d = Ok (Done e).
Proof. exact c114_ends. Qed.
Print Assumptions C114_ends.

(** C114: when every training succeeds and no node is lost from the queue, the result has the number of features asked for. *)
Theorem C114_reach : forall (fuel : nat) (c : aos_cfg) srt tr (d : data R), searchable d c srt tr -> willing d tr -> 1 <= a_breadth c -> children d c + levels d c <= length (d_fnames d) ->
  children d c * turns (children d c) (levels d c) <= a_cap c -> children d c * turns (children d c) (levels d c) < fuel ->
  exists e, aos_select fuel c srt tr d = Ok (Done e) /\ length (d_fnames e) = length (d_fnames d) - levels d c.
Proof. exact c114_reach. Qed.
Print Assumptions C114_reach.

(** C114: with more children than the features that are to be left, a search in which every training succeeds goes beyond the end of the weights. The default of three children does so when one or two features are asked for. *)
Theorem C114_breadth_refuted : forall (fuel : nat) (c : aos_cfg) srt tr (d : data R), searchable d c srt tr -> willing d tr -> 1 <= a_breadth c -> length (d_fnames d) < children d c + levels d c ->
  children d c * turns (children d c) (levels d c) <= a_cap c -> children d c * turns (children d c) (levels d c) < fuel -> aos_select fuel c srt tr d = UB.
Proof. exact c114_breadth_refuted. Qed.
Print Assumptions C114_breadth_refuted.

(** C114: with no children the search answers an empty dataset. *)
Theorem C114_zero_refuted : forall (fuel : nat) (c : aos_cfg) srt tr (d : data R), searchable d c srt tr -> a_breadth c = 0 -> aos_select fuel c srt tr d = Ok (Done data_empty).
Proof. exact c114_zero_refuted. Qed.
Print Assumptions C114_zero_refuted.

(** C114: an AOS constructed to keep [final] of the features keeps that many, when every training succeeds, each node has no more than [final] children and the queue of
    500000 places has room. *)
Theorem C114_keep : forall (fuel final breadth cut : nat) (gm : R) srt tr (d : data R),
  searchable d (aos_new d (Z.of_nat final) breadth cut gm) srt tr -> willing d tr -> 1 <= final <= length (d_fnames d) -> 1 <= breadth <= final ->
  (Z.of_nat (length (d_fnames d)) <= 99999)%Z -> (Z.of_nat (breadth * turns breadth (length (d_fnames d) - final)) <= 500000)%Z ->
  breadth * turns breadth (length (d_fnames d) - final) < fuel ->
  exists e, aos_select fuel (aos_new d (Z.of_nat final) breadth cut gm) srt tr d = Ok (Done e) /\ length (d_fnames e) = final.
Proof. exact c114_keep. Qed.
Print Assumptions C114_keep.

(** The constructor, asked for two of three features with two children, and for one with one child. *)
Example C114_reach_ex : searchable fx (aos_new fx 2 2 0 0) (fun _ => fsort (fun x => - Rabs x)%R) (even_train 1) /\ willing fx (even_train 1) /\
  children fx (aos_new fx 2 2 0 0) = 2 /\ levels fx (aos_new fx 2 2 0 0) = 1 /\ children fx (aos_new fx 1 1 0 0) = 1 /\ levels fx (aos_new fx 1 1 0 0) = 2 /\ 2 * turns 2 1 <= a_cap (aos_new fx 2 2 0 0).
Proof. exact c114_reach_ex. Qed.

Example C114_reach_ex2 : exists e, aos_select 9 (aos_new fx 2 2 0 0) (fun _ => fsort (fun x => - Rabs x)%R) (even_train 1) fx = Ok (Done e) /\ length (d_fnames e) = 2.
Proof. exact c114_reach_ex2. Qed.

(** Keeping two of three features, with the constructor. *)
Example C114_keep_ex : searchable fx (aos_new fx (Z.of_nat 2) 2 0 0) (fun _ => fsort (fun x => - Rabs x)%R) (even_train 1) /\ willing fx (even_train 1) /\
  length (d_fnames fx) = 3 /\ 2 * turns 2 (3 - 2) = 8.
Proof. exact c114_keep_ex. Qed.

(** Three children, the default, and one feature asked for. *)
Example C114_breadth_refuted_ex : exists fuel, aos_select fuel (aos_new fx 1 3 0 0) (fun _ => fsort (fun x => - Rabs x)%R) (even_train 1) fx = UB.
Proof. exact c114_breadth_refuted_ex. Qed.

