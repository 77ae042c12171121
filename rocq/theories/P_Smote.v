(** Property theorems: Property lemmas for SMOTE: C63.
    Each is closed by the lemma of the same (lower-case) name in T_Smote.v. *)
From Coq Require Import String ZArith Bool List Reals Lra Lia Permutation Sorted.
From Verif Require Import Base ListLib M_Data S_Data L_Data L_Data2 Loop T_Data M_Smote S_Smote.
From Verif Require Import T_Smote.
Import ListNotations.
Local Open Scope R_scope.

(** C63: SMOTE keeps the points of the dataset, in place, and appends artificial points of the least frequent class only: for each point of it, one for each of its
    min(k, number of different non-zero distances) nearest points of that class. The other end is read from the whole dataset, and the point lies beyond the first end. *)
Theorem C63_smote : forall dist srt al k (d : data R), sorts_by_distance srt -> data_ok d -> d_points d <> [] ->
  exists c groups, least_frequent d c /\
    Forall2 (fun z g => Forall (smote_from al dist k d c z) g /\ exists n, distinct_nonzero (map (fun p => dist (p_x z) (p_x p)) (points_of d c)) n /\ length g = Nat.min k n) (points_of d c) groups /\
    forall perm, Permutation perm (seq 0 (length (concat groups))) -> (Z.of_nat (length (d_points d) + length (concat groups)) < 2 ^ 63)%Z ->
      exists d' new, smote dist srt al k perm d = Ok d' /\ data_ok d' /\ d_points d' = d_points d ++ new /\ Permutation (map content new) (map content (concat groups)).
Proof. exact c63_smote. Qed.
Print Assumptions C63_smote.

(** C63: when the points of the least frequent class stand first in the dataset, the other end is the near point itself. *)
Theorem C63_front : forall al dist k (d : data R) c z s rest, d_points d = points_of d c ++ rest -> smote_from al dist k d c z s ->
  exists near t, In near (points_of d c) /\ among_least k (map (fun p => dist (p_x z) (p_x p)) (points_of d c)) (dist (p_x z) (p_x near)) /\ p_x s = beyond (p_x z) (p_x near) (al t) /\ p_y s = c.
Proof. exact c63_front. Qed.
Print Assumptions C63_front.

(** C63: the artificial points are not on the segments between minority points, even when the other end is the near point. *)
Theorem C63_segment_refuted : exists (d d' : data R) perm p, sorts_by_distance rsort /\ data_ok d /\ (exists rest, d_points d = points_of d 2 ++ rest) /\ least_frequent d 2%Z /\
  smote dist1 rsort half 1 perm d = Ok d' /\ In p (d_points d') /\ p_y p = 2%Z /\ forall z w, In z (points_of d 2) -> In w (points_of d 2) -> ~ on_segment (p_x z) (p_x w) (p_x p).
Proof. exact c63_segment_refuted. Qed.
Print Assumptions C63_segment_refuted.

(** C63: an artificial point need not even be built from two minority points. *)
Theorem C63_neighbour_refuted : exists (d d' : data R) perm p, sorts_by_distance rsort /\ data_ok d /\ least_frequent d 2%Z /\
  smote dist1 rsort half 1 perm d = Ok d' /\ In p (d_points d') /\ p_y p = 2%Z /\ forall z w a, 0 <= a < 1 -> In z (points_of d 2) -> In w (points_of d 2) -> p_x p <> beyond (p_x z) (p_x w) a.
Proof. exact c63_neighbour_refuted. Qed.
Print Assumptions C63_neighbour_refuted.

Example C63_smote_ex : sorts_by_distance rsort /\ data_ok mback /\ d_points mback <> [] /\ least_frequent mback 2%Z /\ length (points_of mback 2) = 2%nat.
Proof. exact c63_smote_ex. Qed.

Example C63_front_ex : exists rest s, d_points mfront = points_of mfront 2 ++ rest /\ smote_from half dist1 1 mfront 2 (mk1 10 2 1) s.
Proof. exact c63_front_ex. Qed.

