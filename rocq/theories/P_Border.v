(** Property theorems: Property lemmas for borderline SMOTE: C105.
    Each is closed by the lemma of the same (lower-case) name in T_Border.v. *)
From Coq Require Import String ZArith Bool List Reals Lra Lia Permutation Sorted.
From Verif Require Import Base ListLib M_Data S_Data L_Data L_Data2 L_Join Loop T_Data M_Heap L_Heap M_Smote S_Smote T_Smote T_Sampling M_Border S_Border L_Border.
From Verif Require Import T_Border.
Import ListNotations.
Local Open Scope nat_scope.

(** C105: the first class with the most points is the majority; a point is in danger if at least m/2 but not all of m points at the m smallest different non-zero
    distances belong to it, whatever its own class. SMOTE is applied to these points alone. To the dataset are added those of the points in danger and of the artificial points,
    in that order, whose place counted from 1 is the id of a point in danger; a point in danger that is added is the same object once more. *)
Theorem C105_borderline : forall (dist dist2 : list R -> list R -> R) (srt : list entry -> list entry) (al : nat -> R) m k (hp : heap R) (h : hdata R) (d : data R),
  sorts_by_distance srt -> view hp h = Ok d -> data_ok d -> NoDup (h_refs h) -> d_points d <> [] -> (Z.of_nat (length (d_points d)) < 2 ^ 63)%Z ->
  (forall z, In z (d_points d) -> exists n, distinct_nonzero (map (fun p => dist (p_x z) (p_x p)) (d_points d)) n /\ m <= n) ->
  exists maj nb, most_frequent d maj /\ (forall z, In z (d_points d) -> nearest dist m (d_points d) (p_x z) (nb (p_x z))) /\
    let danger := filter (fun z => dangerous (d_points d) maj m (nb (p_x z))) (d_points d) in
    (danger = [] -> forall perm, borderline dist dist2 srt al m k perm hp h = Ok (hp, h)) /\
    (danger <> [] -> exists dg c groups refs, data_ok dg /\ map content (d_points dg) = map content danger /\ least_frequent dg c /\
      Forall2 (fun z g => Forall (smote_from al dist2 k dg c z) g /\ exists n, distinct_nonzero (map (fun p => dist2 (p_x z) (p_x p)) (points_of dg c)) n /\ length g = Nat.min k n) (points_of dg c) groups /\
      reads hp refs danger /\ incl refs (h_refs h) /\
      forall perm, Permutation perm (seq 0 (length (concat groups))) -> (Z.of_nat (length (d_points d) + length danger + length (concat groups)) < 2 ^ 63)%Z ->
        exists new hp' h' d', borderline dist dist2 srt al m k perm hp h = Ok (hp', h') /\ view hp' h' = Ok d' /\ data_ok d' /\ Permutation new (map content (concat groups)) /\
          map content (d_points d') = map content (d_points d) ++ numbered (map p_id danger) (map content danger ++ new) /\
          h_refs h' = h_refs h ++ numbered (map p_id danger) (refs ++ seq (length hp) (length new))).
Proof. exact c105_borderline. Qed.
Print Assumptions C105_borderline.

(** C105: when the points in danger carry the ids 1, 2, ... (they stand first in a dataset numbered as the loaders do), they are added to the dataset a second time and none of the artificial points is. *)
Theorem C105_front_refuted : forall (dist dist2 : list R -> list R -> R) (srt : list entry -> list entry) (al : nat -> R) m k (hp : heap R) (h : hdata R) (d : data R),
  sorts_by_distance srt -> view hp h = Ok d -> data_ok d -> NoDup (h_refs h) -> d_points d <> [] -> (Z.of_nat (length (d_points d)) < 2 ^ 63)%Z ->
  (forall z, In z (d_points d) -> exists n, distinct_nonzero (map (fun p => dist (p_x z) (p_x p)) (d_points d)) n /\ m <= n) ->
  exists maj nb, most_frequent d maj /\ (forall z, In z (d_points d) -> nearest dist m (d_points d) (p_x z) (nb (p_x z))) /\
    let danger := filter (fun z => dangerous (d_points d) maj m (nb (p_x z))) (d_points d) in
    danger <> [] -> map p_id danger = map Z.of_nat (seq 1 (length danger)) -> exists t, forall perm, Permutation perm (seq 0 t) -> (Z.of_nat (length (d_points d) + length danger + t) < 2 ^ 63)%Z ->
      exists hp' h' d', borderline dist dist2 srt al m k perm hp h = Ok (hp', h') /\ view hp' h' = Ok d' /\ map content (d_points d') = map content (d_points d) ++ map content danger /\ ~ NoDup (h_refs h').
Proof. exact c105_front_refuted. Qed.
Print Assumptions C105_front_refuted.

(** C105: with fewer than m different non-zero distances from some point, null pointers are read. *)
Theorem C105_short_refuted : forall (dist dist2 : list R -> list R -> R) (srt : list entry -> list entry) (al : nat -> R) m k perm (hp : heap R) (h : hdata R) (d : data R) z n,
  sorts_by_distance srt -> view hp h = Ok d -> data_ok d -> NoDup (h_refs h) -> (Z.of_nat (length (d_points d)) < 2 ^ 63)%Z ->
  In z (d_points d) -> distinct_nonzero (map (fun p => dist (p_x z) (p_x p)) (d_points d)) n -> n < m -> borderline dist dist2 srt al m k perm hp h = UB.
Proof. exact c105_short_refuted. Qed.
Print Assumptions C105_short_refuted.

(** C105: with m at least the number of points there are never enough neighbours. *)
Theorem C105_many_refuted : forall (dist dist2 : list R -> list R -> R) (srt : list entry -> list entry) (al : nat -> R) m k perm (hp : heap R) (h : hdata R) (d : data R),
  sorts_by_distance srt -> view hp h = Ok d -> data_ok d -> NoDup (h_refs h) -> (Z.of_nat (length (d_points d)) < 2 ^ 63)%Z ->
  d_points d <> [] -> (forall x, dist x x = 0%R) -> length (d_points d) <= m -> borderline dist dist2 srt al m k perm hp h = UB.
Proof. exact c105_many_refuted. Qed.
Print Assumptions C105_many_refuted.

Example C105_borderline_ex : view (d_points mfront) hfront = Ok mfront /\ data_ok mfront /\ NoDup (h_refs hfront) /\
  (forall z, In z (d_points mfront) -> exists n, distinct_nonzero (map (fun p => dist1 (p_x z) (p_x p)) (d_points mfront)) n /\ 1 <= n) /\
  forall maj nb, most_frequent mfront maj -> (forall z, In z (d_points mfront) -> nearest dist1 1 (d_points mfront) (p_x z) (nb (p_x z))) ->
    map p_id (filter (fun z => dangerous (d_points mfront) maj 1 (nb (p_x z))) (d_points mfront)) = [1; 2]%Z.
Proof. exact c105_borderline_ex. Qed.

Example C105_many_refuted_ex : borderline dist1 dist1 rsort half 5 1 [] (d_points mfront) hfront = UB.
Proof. exact c105_many_refuted_ex. Qed.

