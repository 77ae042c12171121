(** Property theorems: Property lemmas for the choice of subspaces: C106.
    Each is closed by the lemma of the same (lower-case) name in T_Dsm.v. *)
From Coq Require Import String ZArith Bool List Reals Lra Lia Psatz.
From Verif Require Import Base ListLib L_Vec M_Data S_Data M_Point S_Point L_Point Loop L_Data2 L_Join L_Smo M_Stat S_Stat T_Stat M_Eq S_Eq T_Eq M_Dsm S_Dsm.
From Verif Require Import T_Dsm.
Import ListNotations.
Local Open Scope R_scope.

(** C106: a new object chooses greedily, and its subspaces have different features. *)
Theorem C106_new : forall (d : data R) (k n : nat) (alpha : R), data_ok d -> (Z.of_nat (d_dim d) < 2 ^ 31)%Z -> (n <= d_dim d)%nat ->
  let labels := map (fun p => IZR (p_y p)) (d_points d) in
  let np := length (d_points d) in
  (2 <= np)%nat -> 0 <= alpha <= 1 -> alpha * INR np < 101 / 100 * (INR np - 1) -> varies np (nz labels) -> (forall c, (c < d_dim d)%nat -> varies np (fun i => at_ d i c)) ->
  exists s s', dsm_new d k n alpha = Ok s /\ dsm_run s d = Ok s' /\ subspaces_ok (d_dim d) n k (s_subs s') /\
    greedy (d_dim d) (merit d labels alpha) (rounds n k) (repeat (repeat (2 ^ 64 - 1)%Z n) k) (s_subs s').
Proof. exact c106_new. Qed.
Print Assumptions C106_new.

(** C106: called again, with more features than asked for. *)
Theorem C106_again : forall (d : data R) (s : dsm) k, data_ok d -> (Z.of_nat (d_dim d) < 2 ^ 31)%Z -> (s_n s < d_dim d)%nat -> subspaces_ok (d_dim d) (s_n s) k (s_subs s) ->
  length (s_labels s) = length (d_points d) ->
  let np := length (d_points d) in
  (2 <= np)%nat -> 0 <= s_alpha s <= 1 -> s_alpha s * INR np < 101 / 100 * (INR np - 1) -> varies np (nz (s_labels s)) -> (forall c, (c < d_dim d)%nat -> varies np (fun i => at_ d i c)) ->
  exists s', dsm_run s d = Ok s' /\ subspaces_ok (d_dim d) (s_n s) k (s_subs s') /\ greedy (d_dim d) (merit d (s_labels s) (s_alpha s)) (rounds (s_n s) k) (s_subs s) (s_subs s').
Proof. exact c106_again. Qed.
Print Assumptions C106_again.

(** C106: if all the labels are equal every subspace consists of the first feature only. *)
Theorem C106_labels_refuted : forall (d : data R) (k n : nat) (alpha : R), data_ok d -> d_points d <> [] -> (forall p q, In p (d_points d) -> In q (d_points d) -> p_y p = p_y q) ->
  exists s s', dsm_new d k n alpha = Ok s /\ dsm_run s d = Ok s' /\ s_subs s' = repeat (repeat 0%Z n) k.
Proof. exact c106_labels_refuted. Qed.
Print Assumptions C106_labels_refuted.

Example C106_new_ex : data_ok ds3 /\ (2 <= d_dim ds3)%nat /\ (2 <= length (d_points ds3))%nat /\ 0 <= / 2 <= 1 /\ / 2 * INR 3 < 101 / 100 * (INR 3 - 1) /\ varies 3 (nz (map (fun p => IZR (p_y p)) (d_points ds3))) /\
  (forall c, (c < d_dim ds3)%nat -> varies 3 (fun i => at_ ds3 i c)).
Proof. exact c106_new_ex. Qed.

Example C106_again_ex : exists s, subspaces_ok (d_dim ds3) (s_n s) 3 (s_subs s) /\ (s_n s < d_dim ds3)%nat /\ s_labels s = map (fun p => IZR (p_y p)) (d_points ds3) /\ s_alpha s = / 2.
Proof. exact c106_again_ex. Qed.

Example C106_labels_ex : data_ok ds1 /\ d_points ds1 <> [] /\ (forall p q, In p (d_points ds1) -> In q (d_points ds1) -> p_y p = p_y q).
Proof. exact c106_labels_ex. Qed.

(** C106: the covariance is divided by n-1, the deviations by n: with few points the score of a feature falls below that of the features already taken. *)
Theorem C106_scale_refuted : exists (d : data R) s s', data_ok d /\ varies 2 (nz (map (fun p => IZR (p_y p)) (d_points d))) /\ (forall c, (c < d_dim d)%nat -> varies 2 (fun i => at_ d i c)) /\
  dsm_new d 1 (d_dim d) 1 = Ok s /\ dsm_run s d = Ok s' /\ s_subs s' = [[0; 0]]%Z /\ d_dim d = 2%nat.
Proof. exact c106_scale_refuted. Qed.
Print Assumptions C106_scale_refuted.

