(** Property theorems: Proofs about the ranking of the features in AOS.
    Each is closed by the lemma of the same (lower-case) name in T_AosRank.v. *)
From Coq Require Import ZArith Bool Reals Lia Lra List.
From Verif Require Import Base ListLib Loop L_Vec M_Data S_Data M_Point M_Stat S_Stat T_Stat M_Kmeans M_Fs S_Fs T_Fs M_Pq M_Aos S_Aos T_Aos T_Heavy M_AosRank S_AosRank.
From Verif Require Import T_AosRank.
Import ListNotations.
Local Open Scope nat_scope.

(** C147: sorting shape 6 compares the absolute weight times the square of the difference of the class means over the sum of the scatters. *)
Theorem C147_fisher : forall (q w : R) (d : data R) (i : nat), data_ok d -> two_labels d -> i < length (d_fnames d) -> (label_scatter d 1 i + label_scatter d (-1) i <> 0)%R ->
  aos_key 6 q d w i = Ok (Some (Rabs w * (Rsqr (label_mean d (Z.eqb 1) i - label_mean d (Z.eqb (-1)) i) / (label_scatter d 1 i + label_scatter d (-1) i))))%R.
Proof. exact c147_fisher. Qed.
Print Assumptions C147_fisher.

(** C147: sorting shape 5 looks at neither mean: the value is |w| sqrt(variance of the class -1, less 1), and not a number unless both variances exceed 1 (that of class -1 may be 1). *)
Theorem C147_golub_refuted : forall (q w : R) (d : data R) (i : nat), data_ok d -> two_labels d -> i < length (d_fnames d) ->
  ((1 < label_var d 1 i)%R -> (1 <= label_var d (-1) i)%R -> aos_key 5 q d w i = Ok (Some (Rabs w * sqrt (label_var d (-1) i - 1))%R)) /\
  (~ ((1 < label_var d 1 i)%R /\ (1 <= label_var d (-1) i)%R) -> aos_key 5 q d w i = Ok None).
Proof. exact c147_golub_refuted. Qed.
Print Assumptions C147_golub_refuted.

(** C147: when the values of a feature lie within an interval of length 1, as after scaling to [0, 1], its value is not a number. *)
Theorem C147_scaled_refuted : forall (q w lo : R) (d : data R) (i : nat), data_ok d -> two_labels d -> i < length (d_fnames d) ->
  (forall p, In p (d_points d) -> lo <= nz (p_x p) i <= lo + 1)%R -> aos_key 5 q d w i = Ok None.
Proof. exact c147_scaled_refuted. Qed.
Print Assumptions C147_scaled_refuted.

Example C147_fisher_ex : data_ok fx /\ two_labels fx /\ 0 < length (d_fnames fx) /\ (label_scatter fx 1 0 + label_scatter fx (-1) 0 = 4)%R /\ (label_mean fx (Z.eqb 1) 0 - label_mean fx (Z.eqb (-1)) 0 = 4)%R.
Proof. exact c147_fisher_ex. Qed.

Example C147_golub_refuted_ex : data_ok fx /\ two_labels fx /\ label_var fx 1 0 = 1%R /\ label_var fx (-1) 0 = 1%R.
Proof. exact c147_golub_refuted_ex. Qed.

Theorem C147_shapes : forall (w : R) (d : data R) (i : nat), data_ok d -> two_labels d -> i < length (d_fnames d) ->
  let f := nth i (d_fnames d) 0%Z in
  (forall (q : R) shape, (shape < 2 \/ 6 < shape)%Z -> aos_key shape q d w i = Ok (Some (Rabs w))) /\
  (forall q : R, aos_key 2 q d w i = Ok (if Req_EM_T (gap_without d f) 0 then None else Some (Rabs w / gap_without d f)%R)) /\
  exists r, radius_without d f r /\ aos_key 4 2 d w i = Ok (Some (Rabs w * r)%R) /\
    aos_key 3 2 d w i = Ok (if Req_EM_T (gap_without d f) 0 then None else Some (Rabs w * r / gap_without d f)%R).
Proof. exact c147_shapes. Qed.
Print Assumptions C147_shapes.

Example C147_shapes_ex : data_ok fx /\ two_labels fx /\ (gap_without fx 1 = sqrt 4)%R.
Proof. exact c147_shapes_ex. Qed.

Theorem C147_order : weak_order (fun a => a <> None) aos_before /\
  forall (l : list (option R)) (i j : nat) (a b : R), (forall i j, i < j < length l -> aos_before (nth j l None) (nth i l None) = false) -> i < j ->
    nth_error l i = Some (Some a) -> nth_error l j = Some (Some b) -> (b <= a)%R.
Proof. exact c147_order. Qed.
Print Assumptions C147_order.

Example C147_order_ex : aos_before (Some 2%R) (Some 1%R) = true.
Proof. exact c147_order_ex. Qed.

(** C147: as soon as one value is not a number and two others differ it is not: std::sort is then undefined. *)
Theorem C147_nan_refuted : forall (P : option R -> Prop) (a b : R), P None -> P (Some a) -> P (Some b) -> a <> b -> ~ weak_order P aos_before.
Proof. exact c147_nan_refuted. Qed.
Print Assumptions C147_nan_refuted.

Example C147_nan_refuted_ex : (1 <> 2)%R.
Proof. exact c147_nan_refuted_ex. Qed.

(** C147: with any other choice the children are those of C114. *)
Theorem C147_choice : forall (choice : Z) (c : aos_cfg) level ofnames dim (ws : list (Z * R * R)) (wnorm margin : R) (s : front), choice <> 2%Z ->
  aos_children choice c level ofnames dim ws wnorm margin s = ofold (aos_branch c level ofnames dim (map fst ws) wnorm margin) (seq 0 (a_breadth c)) s.
Proof. exact c147_choice. Qed.
Print Assumptions C147_choice.

(** C147: with choice 2 and a sorting shape other than 2 and 3 the distance by which the margin is multiplied is -1: no child but the first enters the queue. *)
Theorem C147_choice_refuted : forall (shape : Z) (d : data R) (c : aos_cfg) level ofnames dim (ws : list (Z * R * R)) (wnorm margin : R) (s s' : front),
  shape <> 2%Z -> shape <> 3%Z -> (forall x, In x ws -> aos_dcents shape d (fst (fst x)) = Ok (Some (snd x)) /\ snd (fst x) <> 0%R) ->
  1 < dim -> length ws <= dim -> (wnorm <> 0)%R -> (margin <> 0)%R -> (0 <= a_gm c)%R -> 1 <= a_breadth c ->
  aos_children 2 c level ofnames dim ws wnorm margin s = Ok s' ->
  exists s1, aos_branch_choice 2 c level ofnames dim ws wnorm margin s 0 = Ok s1 /\ snd (fst s') = snd (fst s1).
Proof. exact c147_choice_refuted. Qed.
Print Assumptions C147_choice_refuted.

Example C147_choice_refuted_ex : (forall x, In x cws -> aos_dcents 1 fx (fst (fst x)) = Ok (Some (snd x)) /\ snd (fst x) <> 0%R) /\
  exists s', aos_children 2 ccfg 0 [] 3 cws 4%R 1%R ([], vis_new 7 3, pq_new 4, []) = Ok s' /\ length (fst (fst (fst s'))) = 2 /\ pq_size (snd (fst s')) = 1.
Proof. exact c147_choice_refuted_ex. Qed.

Example C147_scaled_refuted_ex : data_ok ux /\ two_labels ux /\ 2 < length (d_fnames ux) /\ (forall p, In p (d_points ux) -> 0 <= nz (p_x p) 2 <= 0 + 1)%R.
Proof. exact c147_scaled_refuted_ex. Qed.

Example C147_choice_ex : (1 <> 2)%Z.
Proof. exact c147_choice_ex. Qed.

(** C147: with one child per node, trainings that succeed, and values that are numbers, the search with any sorting shape is an elimination: train, take away a feature of
    the greatest value, and so on. *)
Theorem C147_search : forall (fuel : nat) (shape : Z) (q : R) (c : aos_cfg) srt tr (d : data R) (key : data R -> Z * R -> R), searchable d c srt tr -> willing d tr -> a_breadth c = 1 -> levels d c + 3 <= fuel ->
  (forall keep e i w, restricted keep d e -> i < length (d_fnames e) -> aos_key shape q e w i = Ok (Some (key e (nth i (d_fnames e) 0%Z, w)))) -> ranked d key srt ->
  exists e, aos_select fuel c srt tr d = Ok (Done e) /\
    heaviest (fun e x => match aos_key shape q e (snd x) (aos_find (d_fnames e) (fst x)) with Ok (Some v) => v | _ => 0%R end) tr d (levels d c) e.
Proof. exact c147_search. Qed.
Print Assumptions C147_search.

Example C147_search_ex : exists key, (forall keep e i w, restricted keep fx e -> i < length (d_fnames e) -> aos_key 4 3 e w i = Ok (Some (key e (nth i (d_fnames e) 0%Z, w)))) /\
  ranked fx key (fun _ => fsort (fun x => - Rabs x)%R) /\ searchable fx (aos_new fx 1 1 0 0) (fun _ => fsort (fun x => - Rabs x)%R) (even_train 1) /\ levels fx (aos_new fx 1 1 0 0) = 2.
Proof. exact c147_search_ex. Qed.

(** C147: with choice 2 a child that is kept is worth its projected margin, as in C116, times the distance that goes with its feature. *)
Theorem C147_value : forall (c : aos_cfg) level ofnames dim (ws : list (Z * R * R)) (wnorm margin : R) (s s' : front) (i : nat) (f : Z) (w dc : R) (n : node),
  i < dim -> (wnorm <> 0)%R -> nth_error ws i = Some (f, w, dc) -> aos_branch_choice 2 c level ofnames dim ws wnorm margin s i = Ok s' ->
  nth_error (fst (fst (fst s'))) (length (fst (fst (fst s)))) = Some (Some n) ->
  n_pgamma n = (sqrt (INR (dim - 1)) * (Rabs w / Rabs wnorm) * Rabs margin)%R /\ n_value n = (n_pgamma n * dc)%R /\ n_level n = S level /\ n_rgamma n = (-1)%R.
Proof. exact c147_value. Qed.
Print Assumptions C147_value.

Example C147_value_ex : exists s' n, aos_branch_choice 2 ccfg 0 [] 3 cws 4%R 1%R ([], vis_new 7 3, pq_new 4, []) 0 = Ok s' /\ nth_error (fst (fst (fst s'))) 0 = Some (Some n).
Proof. exact c147_value_ex. Qed.

