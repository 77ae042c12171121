(** Sharing of points: mltk::Data holds shared_ptr<Point>; here a dataset is a list of addresses into a heap of points plus its other members.
    /repo/subprojects/ufjfmltk-core/include/ufjfmltk/core/Data.hpp. The members other than the points are computed by the value-level functions of M_Data
    on what the dataset reads from the heap; this file adds which pointers are kept, shared or fresh and which points are written in place. Points are never freed. *)
From Coq Require Import ZArith Bool String List.
From Verif Require Import Base M_Data M_Hist Loop.
Import ListNotations.
Local Open Scope nat_scope.

Section Heap.
Context {T : Type}.

(** The points, by address. Data.hpp:78-108: the objects m_points points to. *)
Definition heap := list (point T).
(** A dataset object: m_points (Data.hpp:144) and the other members; [h_meta] carries no points. *)
Record hdata := mkH { h_refs : list nat; h_meta : data T }.

(** The other members of Data (Data.hpp:78-108) with other points. *)
Definition with_points (pts : list (point T)) (d : data T) : data T :=
  mkData pts (d_fnames d) (d_index d) (d_cnames d) (d_classes d) (d_dist d) (d_size d) (d_dim d) (d_isempty d) (d_normalized d) (d_cdist d) (d_class d).
(** The members of Data (Data.hpp:78-108) without the points. *)
Definition strip (d : data T) : data T := with_points [] d.

(** What the dataset reads: Data::operator[], points() (Data.hpp:505-507, 1683-1691). *)
Definition view (hp : heap) (h : hdata) : outcome (data T) :=
  let* pts := map_outcome (vget hp) (h_refs h) in Ok (with_points pts (h_meta h)).
(** A dataset whose points are all fresh. make_shared for every point (Data.hpp:1550-1585). *)
Definition alloc (hp : heap) (d : data T) : heap * hdata :=
  (hp ++ d_points d, mkH (seq (length hp) (length (d_points d))) (strip d)).
(** Data.hpp:1550-1585 and the copy constructor 2101-2103: every point is a new make_shared<Point>. *)
Definition h_copy (hp : heap) (src : hdata) : outcome (heap * hdata) :=
  let* d := view hp src in Ok (alloc hp (copy d)).
(** Data.hpp:1704-1723, operator=: the vector of pointers is copied; cdist_computed is not assigned. *)
Definition h_assign (dst src : hdata) : hdata :=
  let m := h_meta src in
  mkH (h_refs src) (mkData (d_points m) (d_fnames m) (d_index m) (d_cnames m) (d_classes m) (d_dist m) (d_size m) (d_dim m) (d_isempty m) (d_normalized m)
                           (d_cdist (h_meta dst)) (d_class m)).
(** Data.hpp:1519-1548: classesCopy pushes new points. *)
Definition h_classesCopy (hp : heap) (dst src : hdata) (cls : list Z) : outcome (heap * hdata) :=
  let* d := view hp dst in
  let* s := view hp src in
  let r := classesCopy d s cls in
  let fresh := skipn (length (h_refs dst)) (d_points r) in
  Ok (hp ++ fresh, mkH (h_refs dst ++ seq (length hp) (length fresh)) (strip r)).
(** Data.hpp:1835-1840. *)
Definition h_setClasses (h : hdata) (cls : list Z) : hdata := mkH (h_refs h) (setClasses (h_meta h) cls).

(** A write through the pointer of point i: data[i]->Y() = ..., data(i) = ... (Data.hpp:505-510). *)
Definition h_write (hp : heap) (h : hdata) (i : nat) (f : point T -> point T) : outcome heap :=
  let* r := vget (h_refs h) i in vupd r f hp.

(** Data.hpp:1448-1487: insertPoint(shared_ptr p, keepIndex) keeps the pointer itself, and without keepIndex writes the id through it. *)
Definition h_insert (hp : heap) (h : hdata) (r : nat) (keepIndex : bool) : outcome (heap * hdata * bool) :=
  let* p := vget hp r in
  let* d := view hp h in
  let* res := insertPoint d p keepIndex in
  if snd res then
    let refs := h_refs h ++ [r] in
    let h' := mkH refs (strip (fst res)) in
    if keepIndex then Ok (hp, h', true)
    else let* hp' := h_write hp (mkH refs (h_meta h)) (S (d_size d) - 1) (fun q => mkPoint (p_x q) (p_y q) (Z.of_nat (S (d_size d))) (p_alpha q)) in Ok (hp', h', true)
  else Ok (hp, h, false).
(** Data.hpp:1436-1446: insertPoint(const Data& samples, int index, keepIndex): samples.point(index) is the pointer held by [samples]. Non-negative index. *)
Definition h_insert_from (hp : heap) (h src : hdata) (i : nat) (keepIndex : bool) : outcome (heap * hdata * bool) :=
  let* r := vget (h_refs src) i in
  let* res := h_insert hp h r keepIndex in Ok (fst res, true).

(** Data.hpp:1261-1293: which pointers removePoints keeps (see rp_loop in M_Data for the rest of the loop); [n] is m_size. *)
Fixpoint rp_refs (ids : list Z) (pts : list (point T)) (refs : list nat) (n : nat) : list nat :=
  match pts, refs with
  | po :: rest, r :: rs =>
      if Nat.eqb (find_pos (p_id po) ids) (length ids) then r :: rp_refs ids rest rs n
      else if Nat.eqb n 1 then rs else rp_refs ids rest rs (n - 1)
  | _, _ => []
  end.
(** New contents written through the pointers, in order. Writes through m_points (Data.hpp:505-510). *)
Definition store (hp : heap) (rps : list (nat * point T)) : outcome heap :=
  ofold (fun hp rp => vupd (fst rp) (fun _ => snd rp) hp) rps hp.

(** One call on the dataset (the operations of M_Hist). A point to insert is a new one; see [h_insert_from] for one that is held elsewhere.
    removeFeatures (Data.hpp:1367-1434) edits the coordinates in place; the pointers of the dataset are taken to be distinct there. *)
Definition h_step (hp : heap) (h : hdata) (o : op T) : outcome (heap * hdata) :=
  match o with
  | InsertOp p k => let* res := h_insert (hp ++ [p]) h (length hp) k in Ok (fst res)
  | RemoveOp i =>
      let* d := view hp h in
      let* res := removePoint d i in
      if snd res then
        let* f := find_id i (d_size d) (d_points d) in
        match f with Some (k, _) => Ok (hp, mkH (remove_at k (h_refs h)) (strip (fst res))) | None => UB end
      else Ok (hp, h)
  | RemoveManyOp ids =>
      let* d := view hp h in
      let* res := removePoints d ids in
      Ok (hp, mkH (rp_refs (isort Z.leb ids) (d_points d) (h_refs h) (d_size d)) (strip (fst res)))
  | ShuffleOp perm =>
      let* d := view hp h in
      let* d' := shuffle perm d in
      let* refs := permute perm (h_refs h) in Ok (hp, mkH refs (strip d'))
  | RemoveFeaturesOp fs =>
      let* d := view hp h in
      let* res := removeFeatures d fs in
      let* hp' := store hp (combine (h_refs h) (d_points (fst res))) in Ok (hp', mkH (h_refs h) (strip (fst res)))
  | RelabelOp i v =>
      let* d := view hp h in
      let* res := updatePointValue d i v in
      if snd res then let* hp' := h_write hp h i (fun p => mkPoint (p_x p) v (p_id p) (p_alpha p)) in Ok (hp', mkH (h_refs h) (strip (fst res)))
      else Ok (hp, h)
  | RecountOp => let* d := view hp h in let* d' := computeClassesDistribution d in Ok (hp, mkH (h_refs h) (strip d'))
  | ResetIndexOp => let* d := view hp h in Ok (hp, mkH (h_refs h) (strip (resetIndex d)))
  end.
(** Two datasets in one heap; [true] addresses the first. A history of calls of public mutators (Data.hpp:1182-1487). *)
Fixpoint h_run (hp : heap) (a b : hdata) (hist : list (bool * op T)) : outcome (heap * hdata * hdata) :=
  match hist with
  | [] => Ok (hp, a, b)
  | (true, o) :: r => let* (hp', a') := h_step hp a o in h_run hp' a' b r
  | (false, o) :: r => let* (hp', b') := h_step hp b o in h_run hp' a b' r
  end.
End Heap.
Arguments heap : clear implicits.
Arguments hdata : clear implicits.
