(** Property theorems: mltk::Data: insertion, removal, features, copies, joins and splits (C01-C14).
    Each is closed by the lemma of the same (lower-case) name in T_Data.v. *)
From Coq Require Import ZArith Bool String Sorted Permutation Lia List.
From Verif Require Import Base ListLib M_Data M_Hist S_Data L_Data L_Data2 L_Insert L_Feat L_Str L_Split L_Join.
From Verif Require Import T_Data.
Import ListNotations.
Open Scope Z_scope.

(** C01: insertPoint rejects exactly a point of another dimension (leaving the dataset as it is) and
    otherwise appends it. *)
Theorem C01_insertPoint : forall (T : Type) (d : data T) (p : point T) (keepIndex : bool),
  d_size d = size d -> length (d_dist d) = length (d_classes d) ->
  exists d' b, insertPoint d p keepIndex = Ok (d', b) /\
    (b = false <-> (d_points d <> [] /\ length (p_x p) <> dim d)) /\
    (b = false -> d' = d) /\
    (b = true -> d_points d' = d_points d ++ [if keepIndex then p else with_id (Z.of_nat (size d')) p] /\
                 size d' = S (size d) /\ d_size d' = size d').
Proof. exact c01_insertPoint. Qed.
Print Assumptions C01_insertPoint.

Example C01_insertPoint_ex :
  d_size ex3 = size ex3 /\ length (d_dist ex3) = length (d_classes ex3) /\
  (exists d', insertPoint ex3 (pt [1; 2; 3] 5 0) false = Ok (d', true)) /\
  insertPoint ex3 (pt [1; 2] 5 0) false = Ok (ex3, false).
Proof. exact c01_insertPoint_ex. Qed.

(** C01: the guard on the class counters is needed. After classesCopy the counters are shorter than
    the class list and inserting a point of a listed class writes out of bounds. *)
Theorem C01_after_classesCopy_refuted :
  exists (src : data Z) (cls : list Z) (p : point Z),
    data_ok src /\ insertPoint (classesCopy data_empty src cls) p false = UB.
Proof. exact c01_after_classesCopy_refuted. Qed.
Print Assumptions C01_after_classesCopy_refuted.

(** C02: every history of allowed calls runs without undefined behaviour and leaves the class list
    and counters (and sizes, dimensions, names) equal to what the points say. *)
Theorem C02_history : forall (T : Type) (ops : list (op T)) (d : data T),
  data_ok d -> allowed_run d ops -> exists d', run d ops = Ok d' /\ data_ok d'.
Proof. exact c02_history. Qed.
Print Assumptions C02_history.

Example C02_history_ex : data_ok ex3 /\ allowed_run ex3 hist /\ exists d', run ex3 hist = Ok d' /\ d_points d' <> [].
Proof. exact c02_history_ex. Qed.

(** C02, clear(): the counters survive clear(), so the next insertions count wrongly. *)
Theorem C02_clear_refuted :
  exists (d d' : data Z) (p : point Z), data_ok d /\ insertPoint (clear d) p false = Ok (d', true) /\
    nth_error (d_classes d') 0 = Some (p_y p) /\ d_points d' <> [] /\
    nth_error (d_dist d') 0 <> Some (label_count (p_y p) (d_points d')).
Proof. exact c02_clear_refuted. Qed.
Print Assumptions C02_clear_refuted.

(** C02, relabelling to a label not seen before is undefined behaviour. *)
Theorem C02_relabel_new_refuted : exists (d : data Z) (i : nat) (v : Z), data_ok d /\ (i < size d)%nat /\ updatePointValue d i v = UB.
Proof. exact c02_relabel_new_refuted. Qed.
Print Assumptions C02_relabel_new_refuted.

(** C02, removePoints with all ids leaves no points but a size of one; the next insertion is undefined behaviour. *)
Theorem C02_remove_all_refuted : exists (d d' : data Z) (ids : list Z) nf (p : point Z), data_ok d /\
  removePoints d ids = Ok (d', nf) /\ d_points d' = [] /\ d_size d' = 1%nat /\ insertPoint d' p false = UB.
Proof. exact c02_remove_all_refuted. Qed.
Print Assumptions C02_remove_all_refuted.

(** C02: relabelling a point to a listed label moves exactly that point's label. *)
Theorem C02_relabel : forall (T : Type) (d : data T) (i : nat) (v : Z),
  data_ok d -> (i < size d)%nat -> In v (d_classes d) ->
  exists d' a q b, updatePointValue d i v = Ok (d', true) /\ data_ok d' /\
    d_points d = a ++ q :: b /\ length a = i /\
    d_points d' = a ++ mkPoint (p_x q) v (p_id q) (p_alpha q) :: b.
Proof. exact c02_relabel. Qed.
Print Assumptions C02_relabel.

Example C02_relabel_ex : data_ok ex3 /\ (1 < size ex3)%nat /\ In 1 (d_classes ex3).
Proof. exact c02_relabel_ex. Qed.

(** C03: with ascending ids (as insertPoint assigns them) removePoint removes exactly the addressed
    point, keeps the order and the bookkeeping. *)
Theorem C03_removePoint : forall (T : Type) (d : data T) (id : Z),
  data_ok d -> (2 <= size d)%nat -> StronglySorted Z.lt (map p_id (d_points d)) ->
  0 < id -> In id (map p_id (d_points d)) ->
  exists d', removePoint d id = Ok (d', true) /\ data_ok d' /\
    d_points d' = filter (fun p => negb (p_id p =? id)) (d_points d) /\
    size d' = (size d - 1)%nat /\ d_size d' = (size d - 1)%nat /\
    d_classes d' = d_classes d /\ d_fnames d' = d_fnames d.
Proof. exact c03_removePoint. Qed.
Print Assumptions C03_removePoint.

(** C03: whatever the order of ids, if removePoint returns true then exactly the first point with
    that id is gone; if it returns false nothing changed. *)
Theorem C03_removePoint_result : forall (T : Type) (d d' : data T) (id : Z) (b : bool),
  data_ok d -> removePoint d id = Ok (d', b) ->
  (b = false -> d' = d) /\
  (b = true -> data_ok d' /\ exists l q r, d_points d = l ++ q :: r /\ p_id q = id /\
      (forall p, In p l -> p_id p <> id) /\ d_points d' = l ++ r).
Proof. exact c03_removePoint_result. Qed.
Print Assumptions C03_removePoint_result.

(** C03: an id beyond the last point's id (or not positive) is rejected. *)
Theorem C03_removePoint_reject : forall (T : Type) (d : data T) (id : Z),
  data_ok d -> d_points d <> [] -> (forall p, In p (d_points d) -> p_id p < id) \/ id <= 0 ->
  removePoint d id = Ok (d, false).
Proof. exact c03_removePoint_reject. Qed.
Print Assumptions C03_removePoint_reject.

Example C03_removePoint_ex : data_ok ex3 /\ (2 <= size ex3)%nat /\ StronglySorted Z.lt (map p_id (d_points ex3)) /\
  In 2 (map p_id (d_points ex3)) /\ exists d', removePoint ex3 2 = Ok (d', true) /\ map p_id (d_points d') = [1; 3].
Proof. exact c03_removePoint_ex. Qed.

(** C03: an absent id between existing ones reads an uninitialised label: undefined behaviour. *)
Theorem C03_absent_refuted : exists (d : data Z) (id : Z), data_ok d /\ ~ In id (map p_id (d_points d)) /\ removePoint d id = UB.
Proof. exact c03_absent_refuted. Qed.
Print Assumptions C03_absent_refuted.

(** C03: after a shuffle a present id can be refused. *)
Theorem C03_shuffled_refuted : exists (d d' : data Z) perm (id : Z), data_ok d /\ Permutation perm (seq 0 (size d)) /\
  shuffle perm d = Ok d' /\ In id (map p_id (d_points d')) /\ removePoint d' id = Ok (d', false).
Proof. exact c03_shuffled_refuted. Qed.
Print Assumptions C03_shuffled_refuted.

(** C03: removing from a dataset visited in another order (setIndex, as the trainers leave it) puts
    a negative position into the index. *)
Theorem C03_index_refuted : exists (d d' : data Z) (idx : list Z) (id i : Z),
  data_ok d /\ Permutation idx (map Z.of_nat (seq 0 (size d))) /\
  removePoint (setIndex d idx) id = Ok (d', true) /\ In i (d_index d') /\ i < 0.
Proof. exact c03_index_refuted. Qed.
Print Assumptions C03_index_refuted.

(** C04: removePoints keeps, in order, exactly the points whose id is not listed, keeps the class
    bookkeeping, and reports for each listed id (ascending) whether it was missing - provided some
    point stays. *)
Theorem C04_removePoints : forall (T : Type) (d : data T) (ids : list Z),
  data_ok d -> (exists p, In p (d_points d) /\ ~ In (p_id p) ids) ->
  (forall p, In p (d_points d) -> In (p_id p) ids -> 0 < p_id p) ->
  exists d' missing, removePoints d ids = Ok (d', missing) /\ data_ok d' /\
    d_points d' = filter (fun p => negb (memZ (p_id p) ids)) (d_points d) /\
    d_classes d' = d_classes d /\ d_fnames d' = d_fnames d /\ length missing = length ids /\
    (NoDup ids -> forall i x, nth_error (isort Z.leb ids) i = Some x ->
       nth_error missing i = Some (negb (memZ x (map p_id (d_points d))))).
Proof. exact c04_removePoints. Qed.
Print Assumptions C04_removePoints.

Example C04_removePoints_ex : data_ok ex3 /\ (exists p, In p (d_points ex3) /\ ~ In (p_id p) [5; 3; 1]) /\
  exists d', removePoints ex3 [5; 3; 1] = Ok (d', [false; false; true]) /\ map p_id (d_points d') = [2].
Proof. exact c04_removePoints_ex. Qed.

(** C05: removeFeatures keeps, in every point and in order, the values of the features not named,
    and the same names, when no existing feature is named twice. *)
Theorem C05_removeFeatures : forall (T : Type) (d : data T) (feats : list Z),
  data_ok d -> feats <> [] -> length (d_fnames d) <> 1%nat ->
  NoDup (filter (fun f => memZ f (d_fnames d)) feats) ->
  exists d', removeFeatures d feats = Ok (d', true) /\
    d_points d' = map (fun p => mkPoint (keep_features (fun n => negb (memZ n feats)) (d_fnames d) (p_x p))
                                        (p_y p) (p_id p) (p_alpha p)) (d_points d) /\
    d_fnames d' = filter (fun n => negb (memZ n feats)) (d_fnames d) /\
    d_dim d' = length (d_fnames d') /\ d_classes d' = d_classes d /\ d_dist d' = d_dist d /\ d_size d' = d_size d.
Proof. exact c05_removeFeatures. Qed.
Print Assumptions C05_removeFeatures.

(** C05: with a single feature, or no request, nothing changes. *)
Theorem C05_removeFeatures_refuse : forall (T : Type) (d : data T) (feats : list Z),
  feats = [] \/ length (d_fnames d) = 1%nat ->
  removeFeatures d feats = Ok (d, if length feats =? 0 then true else false)%nat.
Proof. exact c05_removeFeatures_refuse. Qed.
Print Assumptions C05_removeFeatures_refuse.

Example C05_removeFeatures_ex : data_ok ex3 /\ NoDup (filter (fun f => memZ f (d_fnames ex3)) [2; 9; 9]) /\
  exists d', removeFeatures ex3 [2; 9; 9] = Ok (d', true) /\ map p_x (d_points d') = [[10; 30]; [11; 31]; [12; 32]].
Proof. exact c05_removeFeatures_ex. Qed.

(** C05: a feature named twice blocks the removal of later ones from the values but not from the names. *)
Theorem C05_duplicate_refuted : exists (d d' : data Z) (feats : list Z), data_ok d /\
  removeFeatures d feats = Ok (d', true) /\ d_fnames d' = [2] /\ exists p, In p (d_points d') /\ length (p_x p) = 2%nat.
Proof. exact c05_duplicate_refuted. Qed.
Print Assumptions C05_duplicate_refuted.

(** C05: inserting a point after removing features renames all remaining features. *)
Theorem C05_names_reset_refuted : exists (d d1 d2 : data Z) (p : point Z), data_ok d /\
  removeFeatures d [1] = Ok (d1, true) /\ d_fnames d1 = [2; 3] /\ insertPoint d1 p false = Ok (d2, true) /\ d_fnames d2 = [1; 2].
Proof. exact c05_names_reset_refuted. Qed.
Print Assumptions C05_names_reset_refuted.

(** C06: insertFeatures projects every point onto the requested existing features, in name order. *)
Theorem C06_insertFeatures : forall (T : Type) (d : data T) (req : list Z),
  data_ok d -> d_points d <> [] -> req <> [] -> NoDup req -> (forall f, In f req -> In f (d_fnames d)) ->
  exists d', insertFeatures d req true = Ok d' /\
    d_points d' = map (fun p => mkPoint (keep_features (fun n => memZ n req) (d_fnames d) (p_x p)) (p_y p) (p_id p) (p_alpha p))
                      (d_points d) /\
    Permutation (d_fnames d') req /\ StronglySorted Z.lt (d_fnames d') /\
    d_dim d' = length req /\ d_size d' = size d /\ class_ok d'.
Proof. exact c06_insertFeatures. Qed.
Print Assumptions C06_insertFeatures.

(** C06: without keepIndex only the ids differ: they become 1..n. *)
Theorem C06_insertFeatures_renumber : forall (T : Type) (d : data T) (req : list Z),
  data_ok d -> d_points d <> [] -> req <> [] -> NoDup req -> (forall f, In f req -> In f (d_fnames d)) ->
  exists d', insertFeatures d req false = Ok d' /\
    map content (d_points d') = map (fun p => (keep_features (fun n => memZ n req) (d_fnames d) (p_x p), p_y p, p_alpha p)) (d_points d) /\
    map p_id (d_points d') = map (fun i => Z.of_nat (S i)) (seq 0 (size d)).
Proof. exact c06_insertFeatures_renumber. Qed.
Print Assumptions C06_insertFeatures_renumber.

(** C06: a request naming an absent feature, or one twice, yields an empty dataset. *)
Theorem C06_insertFeatures_absent : forall (T : Type) (d : data T) (req : list Z) (keepIndex : bool),
  data_ok d -> d_points d <> [] -> req <> [] -> ~ (NoDup req /\ (forall f, In f req -> In f (d_fnames d))) ->
  exists d', insertFeatures d req keepIndex = Ok d' /\ d_points d' = [] /\ d_dim d' = O /\ d_fnames d' = [].
Proof. exact c06_insertFeatures_absent. Qed.
Print Assumptions C06_insertFeatures_absent.

Example C06_insertFeatures_ex : data_ok ex3 /\ NoDup [3; 1] /\ (forall f, In f [3; 1] -> In f (d_fnames ex3)) /\
  exists d', insertFeatures ex3 [3; 1] true = Ok d' /\ map p_x (d_points d') = [[10; 30]; [11; 31]; [12; 32]].
Proof. exact c06_insertFeatures_ex. Qed.

(** C07: selectFeatures projects every point onto the requested existing features, in name order. *)
Theorem C07_selectFeatures : forall (T : Type) (y0 id0 : Z) (alpha0 : T) (d : data T) (req : list Z),
  data_ok d -> req <> [] -> NoDup req -> (forall f, In f req -> In f (d_fnames d)) ->
  exists d', selectFeatures y0 id0 alpha0 d req None = Ok d' /\
    d_points d' = map (fun p => mkPoint (keep_features (fun n => memZ n req) (d_fnames d) (p_x p)) (p_y p) (p_id p) (p_alpha p))
                      (d_points d) /\
    d_size d' = size d /\ class_ok d'.
Proof. exact c07_selectFeatures. Qed.
Print Assumptions C07_selectFeatures.

Example C07_selectFeatures_ex : data_ok ex3 /\ NoDup [3; 1] /\ (forall f, In f [3; 1] -> In f (d_fnames ex3)) /\
  exists d', selectFeatures 0 0 0 ex3 [3; 1] None = Ok d' /\ map p_x (d_points d') = [[10; 30]; [11; 31]; [12; 32]].
Proof. exact c07_selectFeatures_ex. Qed.

(** C07: the name 0 silently selects the first feature and drops the last requested one. *)
Theorem C07_zero_refuted : exists (d d' : data Z), data_ok d /\ selectFeatures 0 0 0 d [0; 2; 3] None = Ok d' /\
  map p_x (d_points d') = map (fun p => firstn 2 (p_x p)) (d_points d).
Proof. exact c07_zero_refuted. Qed.
Print Assumptions C07_zero_refuted.

(** C07: the feature names of the result are 1..m, whatever names were selected. *)
Theorem C07_names_refuted : exists (d d' : data Z), data_ok d /\ selectFeatures 0 0 0 d [2; 3] None = Ok d' /\ d_fnames d' = [1; 2].
Proof. exact c07_names_refuted. Qed.
Print Assumptions C07_names_refuted.

(** C08 (value part): a copy shows the same points, names, classes, counters and index. *)
Theorem C08_copy_value : forall (T : Type) (d : data T), data_ok d -> copy d = d.
Proof. exact c08_copy_value. Qed.
Print Assumptions C08_copy_value.

Example C08_copy_value_ex : data_ok ex3 /\ copy ex3 = ex3 /\ d_points ex3 <> [].
Proof. exact c08_copy_value_ex. Qed.

(** C09: join appends copies of the other dataset's points, unites the class lists and recounts. *)
Theorem C09_join : forall (T : Type) (a b : data T),
  data_ok a -> data_ok b -> d_dim a = d_dim b -> d_cdist a = false ->
  Z.of_nat (size a + size b) < 2 ^ 63 ->
  exists r, join a b = Ok r /\
    d_points r = d_points a ++ d_points b /\ d_size r = size r /\
    class_ok r /\ (forall c, In c (d_classes r) <-> In c (d_classes a) \/ In c (d_classes b)) /\
    (exists more, d_classes r = d_classes a ++ more) /\
    d_index r = map Z.of_nat (seq 0 (size r)) /\
    (d_fnames a <> [] -> d_fnames r = d_fnames a) /\
    (NoDup (d_cnames a) -> NoDup (d_cnames b) ->
       forall n, In n (d_cnames r) <-> In n (d_cnames a) \/ In n (d_cnames b)).
Proof. exact c09_join. Qed.
Print Assumptions C09_join.

Example C09_join_ex : data_ok ex3 /\ data_ok exj /\ d_dim ex3 = d_dim exj /\ d_cdist ex3 = false /\
  exists r, join ex3 exj = Ok r /\ d_classes r = [1; -1; 9; 10] /\ d_dist r = [3; 1; 1; 1].
Proof. exact c09_join_ex. Qed.

(** C09: the class names are sorted as text and the classes as numbers, so they stop matching. *)
Theorem C09_names_refuted : exists a b r : data Z, data_ok a /\ data_ok b /\ join a b = Ok r /\
  nth_error (d_classes r) 2 = Some 9 /\ nth_error (d_cnames r) 2 = Some "10"%string.
Proof. exact c09_names_refuted. Qed.
Print Assumptions C09_names_refuted.

(** C09: joining onto a dataset whose counters were computed while loading leaves all counters zero. *)
Theorem C09_loaded_refuted : exists a b r : data Z, data_ok a /\ data_ok b /\ d_cdist a = true /\ join a b = Ok r /\
  Forall (fun c => c = 0) (d_dist r) /\ d_points r <> [].
Proof. exact c09_loaded_refuted. Qed.
Print Assumptions C09_loaded_refuted.

(** C09: joining into an empty dataset leaves its dimension zero; removeFeatures then drops the names
    but no values. *)
Theorem C09_empty_refuted : exists a b r r' : data Z, data_ok a /\ data_ok b /\ join a b = Ok r /\ d_dim r = O /\
  removeFeatures r [1] = Ok (r', true) /\ d_fnames r' = [2; 3] /\ map p_x (d_points r') = map p_x (d_points b).
Proof. exact c09_empty_refuted. Qed.
Print Assumptions C09_empty_refuted.

(** C10: the stratified split partitions the points and balances every label across the parts. *)
Theorem C10_stratified : forall (T : Type) (d : data T) (k : nat) (perm : list nat) (keepIndex : bool),
  data_ok d -> (0 < k)%nat -> Permutation perm (seq 0 (size d)) ->
  exists parts, splitSample perm d k true keepIndex = Ok parts /\ length parts = k /\
    Permutation (flat_map (fun P => map content (d_points P)) parts) (map content (d_points d)) /\
    (keepIndex = true -> Permutation (flat_map d_points parts) (d_points d)) /\
    (forall P Q, In P parts -> In Q parts ->
        (forall c, label_count c (d_points P) <= label_count c (d_points Q) + 1) /\
        (size P <= size Q + 1)%nat) /\
    (forall P, In P parts -> class_ok P /\ d_size P = size P).
Proof. exact c10_stratified. Qed.
Print Assumptions C10_stratified.

Example C10_stratified_ex : data_ok ex5 /\ Permutation [4; 2; 3; 0; 1]%nat (seq 0 (size ex5)) /\
  exists parts, splitSample [4; 2; 3; 0; 1]%nat ex5 2 true true = Ok parts /\
     map (fun P => map p_id (d_points P)) parts = [[5; 1; 2]; [3; 4]].
Proof. exact c10_stratified_ex. Qed.

(** C11: the unstratified split gives k parts of floor(n/k) points, disjoint, leaving n mod k points out. *)
Theorem C11_unstratified : forall (T : Type) (d : data T) (k : nat) (perm : list nat) (keepIndex : bool),
  data_ok d -> (0 < k)%nat -> Permutation perm (seq 0 (size d)) ->
  exists parts, splitSample perm d k false keepIndex = Ok parts /\ length parts = k /\
    (forall P, In P parts -> size P = (size d / k)%nat /\ d_size P = size P /\ class_ok P) /\
    exists left_out, length left_out = (size d mod k)%nat /\
      Permutation (flat_map (fun P => map content (d_points P)) parts ++ map content left_out) (map content (d_points d)) /\
      (keepIndex = true -> Permutation (flat_map d_points parts ++ left_out) (d_points d)).
Proof. exact c11_unstratified. Qed.
Print Assumptions C11_unstratified.

Example C11_unstratified_ex : data_ok ex5 /\
  exists parts, splitSample [4; 2; 3; 0; 1]%nat ex5 2 false true = Ok parts /\
     map (fun P => map p_id (d_points P)) parts = [[5; 3]; [4; 1]].
Proof. exact c11_unstratified_ex. Qed.

(** C12: splitByClasses returns, in class order, the points of each class in their original order. *)
Theorem C12_splitByClasses : forall (T : Type) (d : data T) (keepIndex : bool),
  data_ok d ->
  exists parts, splitByClasses d keepIndex = Ok parts /\ length parts = length (d_classes d) /\
    forall i c, nth_error (d_classes d) i = Some c -> exists P, nth_error parts i = Some P /\
      map content (d_points P) = map content (filter (fun p => p_y p =? c) (d_points d)) /\
      (keepIndex = true -> d_points P = filter (fun p => p_y p =? c) (d_points d)) /\
      (keepIndex = false -> map p_id (d_points P) = map (fun j => Z.of_nat (S j)) (seq 0 (size P))) /\
      class_ok P /\ d_size P = size P.
Proof. exact c12_splitByClasses. Qed.
Print Assumptions C12_splitByClasses.

Example C12_splitByClasses_ex : data_ok ex5 /\ exists parts, splitByClasses ex5 true = Ok parts /\
     map (fun P => map p_id (d_points P)) parts = [[1; 3; 5]; [2; 4]].
Proof. exact c12_splitByClasses_ex. Qed.

(** C13: shuffle permutes the points and nothing else; the index becomes the identity. *)
Theorem C13_shuffle : forall (T : Type) (d : data T) (perm : list nat),
  data_ok d -> Permutation perm (seq 0 (size d)) ->
  exists d', shuffle perm d = Ok d' /\ data_ok d' /\ Permutation (d_points d') (d_points d) /\
    d_fnames d' = d_fnames d /\ d_cnames d' = d_cnames d /\ d_classes d' = d_classes d /\ d_dist d' = d_dist d /\
    d_size d' = d_size d /\ d_dim d' = d_dim d /\
    firstn (size d) (d_index d') = map Z.of_nat (seq 0 (size d)).
Proof. exact c13_shuffle. Qed.
Print Assumptions C13_shuffle.

Example C13_shuffle_ex : data_ok ex3 /\ Permutation [2; 0; 1]%nat (seq 0 (size ex3)) /\
  exists d', shuffle [2; 0; 1]%nat ex3 = Ok d' /\ map p_id (d_points d') = [3; 1; 2].
Proof. exact c13_shuffle_ex. Qed.

(** C14: classesCopy into an empty dataset copies, in order, exactly the points with a listed label. *)
Theorem C14_classesCopy : forall (T : Type) (src : data T) (cls : list Z),
  let r := classesCopy data_empty src cls in
  d_points r = filter (fun p => memZ (p_y p) cls) (d_points src) /\ d_size r = size r /\
  d_classes r = cls /\ d_fnames r = d_fnames src.
Proof. exact c14_classesCopy. Qed.
Print Assumptions C14_classesCopy.

(** C14: the class counters of the result are not filled. *)
Theorem C14_counts_refuted : exists (src : data Z) (cls : list Z), data_ok src /\ ~ class_ok (classesCopy data_empty src cls).
Proof. exact c14_counts_refuted. Qed.
Print Assumptions C14_counts_refuted.

(** C69: the visiting index of a dataset built by insertions enumerates the points once. *)
Theorem C69_index_inserts : forall (T : Type) (pts : list (point T)) (n : nat) (keepIndex : bool),
  (forall p, In p pts -> length (p_x p) = n) -> Z.of_nat (length pts) < 2 ^ 63 ->
  exists d, ins_all keepIndex pts data_empty = Ok d /\ size d = length pts /\ d_index d = map Z.of_nat (seq 0 (size d)).
Proof. exact c69_index_inserts. Qed.
Print Assumptions C69_index_inserts.

(** C69: after one removal and two insertions the index holds a position twice and omits the last point. *)
Theorem C69_index_refuted : exists (d1 d2 d3 : data Z) (p : point Z), data_ok ex3 /\
  removePoint ex3 3 = Ok (d1, true) /\ insertPoint d1 p false = Ok (d2, true) /\ insertPoint d2 p false = Ok (d3, true) /\
  size d3 = 4%nat /\ firstn 4 (d_index d3) = [0; 1; 2; 2].
Proof. exact c69_index_refuted. Qed.
Print Assumptions C69_index_refuted.

