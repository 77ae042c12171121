(** Model of the nearest-neighbour classifier, the distance matrix and the nearest-neighbour regressor.
    /repo/subprojects/ufjfmltk-classifier/include/ufjfmltk/classifier/KNNClassifier.hpp,
    .../ufjfmltk-core/include/ufjfmltk/core/DistanceMatrix.hpp, .../ufjfmltk-regressor/include/ufjfmltk/regressor/KNNRegressor.hpp.

    The metric is any real function of two points (a metric whose value is not a number is left out). *)
From Coq Require Import ZArith Bool List Reals.
From Verif Require Import Base M_Data Loop.
Import ListNotations.
Local Open Scope nat_scope.

(** std::nth_element(begin, begin+k, end, less) on the vector [idx]: any rearrangement the standard allows, given by the oracle
    [nth_el]. The iterator begin+k past the end is undefined. KNNClassifier.hpp:83-110, KNNRegressor.hpp:34-60. *)
Definition nth_oracle := (nat -> nat -> bool) -> nat -> list nat -> list nat.
(** The call with begin()+k: KNNClassifier.hpp:83-110. *)
Definition nth_element (nth_el : nth_oracle) (less : nat -> nat -> bool) (k : nat) (idx : list nat) : outcome (list nat) :=
  if Nat.ltb (length idx) k then UB else Ok (nth_el less k idx).

(** KNNClassifier.hpp:114-124: how many of the first k indices have label [c]. *)
Definition frequency (pts : list (point R)) (near : list nat) (c : Z) : outcome nat :=
  ofold (fun f id => let* p := vget pts id in Ok (if Z.eqb (p_y p) c then S f else f)) near 0.
(** KNNClassifier.hpp:126-144: the first class of largest frequency: (frequency, index). *)
Fixpoint best_class (freq : Z -> outcome nat) (classes : list Z) (i bf bi : nat) : outcome (nat * nat) :=
  match classes with
  | [] => Ok (bf, bi)
  | c :: r => let* f := freq c in if Nat.ltb bf f then best_class freq r (S i) f i else best_class freq r (S i) bf bi
  end.
(** KNNClassifier.hpp:129-146: pred_prob after the loop; [s] is 0.0001 and [e] is 1E-7. max_prob stays 0 when no class was counted. *)
Definition pred_prob (s e : R) (k nclasses freq : nat) : R :=
  let max_prob := if Nat.eqb freq 0 then 0%R else ((INR freq + s) / (INR k + INR nclasses * s))%R in
  if Rlt_dec e (1 - max_prob) then 1%R else max_prob.
(** KNNClassifier.hpp:114-148. *)
Definition vote (d : data R) (k : nat) (idx : list nat) : outcome (nat * Z) :=
  let* b := best_class (frequency (d_points d) (firstn k idx)) (d_classes d) 0 0 0 in
  let* c := vget (d_classes d) (snd b) in
  Ok (fst b, c).

(** KNNClassifier.hpp:62-86, 114-148 without precomputed distances: frequency and class. *)
Definition knn_evaluate (dist : list R -> list R -> R) (nth_el : nth_oracle) (d : data R) (k : nat) (q : list R) : outcome (nat * Z) :=
  if Nat.eqb (dim d) (length q) then
    if Nat.eqb (length (d_points d)) (d_size d) then
      let ds := map (fun p => dist q (p_x p)) (d_points d) in
      let* idx := nth_element nth_el (fun i j => if Rlt_dec (nth i ds 0%R) (nth j ds 0%R) then true else false) k (seq 0 (d_size d)) in
      vote d k idx
    else UB      (* the transform writes size() distances for points().size() points *)
  else Abort.

(** Entry j of row i: matrix and rows are Points (Point.hpp:52), whose operator[] asserts the index (Point.hpp:247-255). *)
Definition pat {A} (v : list A) (i : nat) : outcome A := match nth_error v i with Some x => Ok x | None => Abort end.
(** rows[i][j] with the asserts of Point.hpp:247-255. *)
Definition pget (m : list (list R)) (i j : nat) : outcome R := let* r := pat m i in pat r j.
(** rows[i][j] = v, Point.hpp:252-255. *)
Definition pset (m : list (list R)) (i j : nat) (v : R) : outcome (list (list R)) :=
  let* _ := pget m i j in mset m i j v.
(** Entry [m[i][j]] with indices computed as id - 1 of size_t type (an id of 0 or less wraps around, far out of range). *)
Definition idx_of (id : Z) : outcome nat := if Z.ltb 0 id then Ok (Z.to_nat (id - 1)) else Abort.
(** KNNClassifier.hpp:87-94: with a full matrix of distances; the entry of the point [q] (with identifier [qid]) and of training point i. *)
Definition pre_dist (m : list (list R)) (d : data R) (qid : Z) (i : nat) : outcome R :=
  let* p := vget (d_points d) i in
  let* a := idx_of qid in
  let* b := idx_of (p_id p) in
  pget m a b.
(** The comparator may compare any two indices, so all entries must be readable (nth_element does not say which it compares; for a single
    point or k = n it may compare none). KNNClassifier.hpp:87-94, 114-148. *)
Definition knn_evaluate_pre (m : list (list R)) (nth_el : nth_oracle) (d : data R) (k : nat) (q : list R) (qid : Z) : outcome (nat * Z) :=
  if Nat.eqb (dim d) (length q) then
    let* ds := map_outcome (pre_dist m d qid) (seq 0 (d_size d)) in
    let* idx := nth_element nth_el (fun i j => if Rlt_dec (nth i ds 0%R) (nth j ds 0%R) then true else false) k (seq 0 (d_size d)) in
    vote d k idx
  else Abort.
(** KNNClassifier.hpp:95-110: the comparator used with a triangular matrix; [ids i] is the position (id - 1) of training point i,
    [idp] that of the query, [tri i j] (j <= i) the stored distance. *)
Definition diag_less (tri : nat -> nat -> R) (ids : nat -> nat) (idp : nat) (i j : nat) : bool :=
  let id1 := ids i in
  let id2 := ids j in
  if Nat.eqb idp id1 || Nat.eqb idp id2 then false
  else if Rlt_dec (tri (Nat.max idp id1) (Nat.min idp id1)) (tri (Nat.max idp id2) (Nat.min idp id2)) then true else false.
(** Evaluation with a triangular matrix. As above every entry the comparator may read must be readable. KNNClassifier.hpp:95-110, 114-148. *)
Definition knn_evaluate_diag (m : list (list R)) (nth_el : nth_oracle) (d : data R) (k : nat) (q : list R) (qid : Z) : outcome (nat * Z) :=
  if Nat.eqb (dim d) (length q) then
    let* idp := idx_of qid in
    let* ids := map_outcome (fun i => let* p := vget (d_points d) i in idx_of (p_id p)) (seq 0 (d_size d)) in
    let* _ := map_outcome (fun id => if Nat.eqb idp id then Ok 0%R else pget m (Nat.max idp id) (Nat.min idp id)) ids in
    let* idx := nth_element nth_el (diag_less (fun a b => nth b (nth a m []) 0%R) (fun i => nth i ids 0) idp) k (seq 0 (d_size d)) in
    vote d k idx
  else Abort.

(** ** DistanceMatrix.hpp:38-59. Each worker handles a block of rows [idx]: it first replaces rows[idx] by zeros, then writes the entries of
    the row of data(idx).Id()-1. The blocks may run in any order; [order] is the order in which the rows are handled (interleaving inside two rows is left out). *)
Definition dm_row (dist : list R -> list R -> R) (diagonal : bool) (d : data R) (m : list (list R)) (idx : nat) : outcome (list (list R)) :=
  let n := d_size d in
  let* _ := pat m idx in
  let* m0 := vupd idx (fun _ => repeat 0%R (if diagonal then S idx else n)) m in
  let* p := vget (d_points d) idx in
  ofold (fun m j =>
    let* q := vget (d_points d) j in
    let* a := idx_of (p_id p) in
    let* b := idx_of (p_id q) in
    pset m a b (dist (p_x p) (p_x q)))
    (seq 0 idx ++ (if diagonal then [] else seq (S idx) (n - S idx))) m0.
(** DistanceMatrix.hpp:38-59; [order] is the order in which the rows are computed by the threads. *)
Definition distance_matrix (dist : list R -> list R -> R) (diagonal : bool) (order : list nat) (d : data R) : outcome (list (list R)) :=
  ofold (dm_row dist diagonal d) order (repeat [] (d_size d)).

(** ** The classifier object: KNNClassifier.hpp:22-58 (algorithm "brute"; [kn_m], [kn_diag] are the stored BaseMatrix, DistanceMatrix.hpp:9-31). *)
Record knn := mkKnn { kn_k : nat; kn_data : data R; kn_pre : bool; kn_diag : bool; kn_m : list (list R) }.
(** KNNClassifier.hpp:38-41: no precomputed distances, empty matrix. *)
Definition knn_make (d : data R) (k : nat) : knn := mkKnn k d false false [].
(** KNNClassifier.hpp:49-52. *)
Definition set_precomputed (o : knn) (diagonal : bool) (m : list (list R)) : knn := mkKnn (kn_k o) (kn_data o) true diagonal m.
(** KNNClassifier.hpp:54-58: raises the flag and returns the matrix; the matrix is not stored. *)
Definition precompute_distances (dist : list R -> list R -> R) (diagonal : bool) (order : list nat) (o : knn) (d : data R) : outcome (knn * list (list R)) :=
  let* m := distance_matrix dist diagonal order d in
  Ok (mkKnn (kn_k o) (kn_data o) true (kn_diag o) (kn_m o), m).
(** KNNClassifier.hpp:62-149: which of the three ways of comparing is used. *)
Definition knn_eval (dist : list R -> list R -> R) (nth_el : nth_oracle) (o : knn) (q : list R) (qid : Z) : outcome (nat * Z) :=
  if kn_pre o then
    if kn_diag o then knn_evaluate_diag (kn_m o) nth_el (kn_data o) (kn_k o) q qid
    else knn_evaluate_pre (kn_m o) nth_el (kn_data o) (kn_k o) q qid
  else knn_evaluate dist nth_el (kn_data o) (kn_k o) q.
