(** Model of mltk::Data<T>
    (/repo/subprojects/ufjfmltk-core/include/ufjfmltk/core/Data.hpp), function by function.

    Conventions and simplifications (file-wide):
    - [T], the feature type, is a parameter; [Alpha] (a double) is stored in the same type.
    - the label [Y] (a double) is an integer [Z] here: classification data with integral labels.
    - ids are [Z] (size_t in the code; never negative in the code).
    - a shared_ptr<Point> is modelled by the point's value; sharing is modelled separately in M_Heap.v.
    - console output, dataset_name, time_mult, pos_class, neg_class and atEnd are not modelled here.
    - [type] is reduced to the answer of isClassification() (Data.hpp:198). *)
From Coq Require Import ZArith Bool String List.
Import ListNotations.
From Verif Require Import Base.
Open Scope Z_scope.

(** Point.hpp:41-49, 71-76 (fields X, y, alpha, id of mltk::Point). *)
Record point (T : Type) : Type := mkPoint {
  p_x : list T;
  p_y : Z;
  p_id : Z;
  p_alpha : T }.
Arguments mkPoint {T}.
Arguments p_x {T}.
Arguments p_y {T}.
Arguments p_id {T}.
Arguments p_alpha {T}.

(** Data.hpp:78-108 (fields of mltk::Data). *)
Record data (T : Type) : Type := mkData {
  d_points : list (point T);      (* m_points *)
  d_fnames : list Z;              (* fnames *)
  d_index : list Z;               (* index *)
  d_cnames : list string;         (* class_names *)
  d_classes : list Z;             (* m_classes *)
  d_dist : list Z;                (* class_distribution (size_t, modulo 2^64) *)
  d_size : nat;                   (* m_size *)
  d_dim : nat;                    (* m_dim *)
  d_isempty : bool;               (* is_empty *)
  d_normalized : bool;            (* normalized *)
  d_cdist : bool;                 (* cdist_computed *)
  d_class : bool }.               (* isClassification() *)
Arguments mkData {T}.
Arguments d_points {T}.
Arguments d_fnames {T}.
Arguments d_index {T}.
Arguments d_cnames {T}.
Arguments d_classes {T}.
Arguments d_dist {T}.
Arguments d_size {T}.
Arguments d_dim {T}.
Arguments d_isempty {T}.
Arguments d_normalized {T}.
Arguments d_cdist {T}.
Arguments d_class {T}.

Section Model.
Context {T : Type}.

(** Data.hpp:162 and 78-108: the default constructor. *)
Definition data_empty : data T :=
  mkData [] [] [] [] [] [] 0%nat 0%nat true false false true.

(** Data.hpp:208: size(). *)
Definition size (d : data T) : nat := length (d_points d).

(** Data.hpp:213: dim(). *)
Definition dim (d : data T) : nat :=
  match d_points d with [] => O | p :: _ => length (p_x p) end.

(** [std::iota(v.begin(), v.end(), a)] on a vector of length [n]. Used at Data.hpp:754-755. *)
Definition iota (a : Z) (n : nat) : list Z := map (fun i => a + Z.of_nat i) (seq 0 n).

(** Data.hpp:559-578: Data(size, dim, val); [alpha0] is Point's default alpha (0.0). *)
Definition data_make (n dm : nat) (val alpha0 : T) : data T :=
  mkData (map (fun i => mkPoint (repeat val dm) 0 (Z.of_nat i + 1) alpha0) (seq 0 n))
         (iota 1 dm) (iota 0 n) [] [] [] n dm
         (if Nat.ltb 0 n then false else true) false false true.

(** The class bookkeeping part of Data::insertPoint, Data.hpp:1468-1478.
    [ylast] is m_points[m_size-1]->Y(), [y] is p->Y(). *)
Definition count_class (y ylast : Z) (d : data T) : outcome (data T) :=
  let pos := find_pos y (d_classes d) in
  if Nat.eqb pos (length (d_classes d)) then
    Ok (mkData (d_points d) (d_fnames d) (d_index d)
               (d_cnames d ++ [string_of_Z ylast]) (d_classes d ++ [ylast]) (d_dist d ++ [1])
               (d_size d) (d_dim d) (d_isempty d) (d_normalized d) (d_cdist d) (d_class d))
  else
    let* dist := vupd pos (fun c => wrap64 (c + 1)) (d_dist d) in
    Ok (mkData (d_points d) (d_fnames d) (d_index d) (d_cnames d) (d_classes d) dist
               (d_size d) (d_dim d) (d_isempty d) (d_normalized d) (d_cdist d) (d_class d)).

(** Data.hpp:1448-1487: insertPoint(shared_ptr<Point>, keepIndex), p non-null. *)
Definition insertPoint (d : data T) (p : point T) (keepIndex : bool) : outcome (data T * bool) :=
  if Nat.ltb 0 (size d) && negb (Nat.eqb (length (p_x p)) (dim d)) then Ok (d, false)
  else
    let fn := match p_x p with [] => d_fnames d | _ => iota 1 (length (p_x p)) end in
    let pts := d_points d ++ [p] in
    let sz := S (d_size d) in
    let dm := if Nat.eqb (d_dim d) 0 then length (p_x p) else d_dim d in
    let d1 := mkData pts fn (d_index d) (d_cnames d) (d_classes d) (d_dist d) sz dm
                     false (d_normalized d) (d_cdist d) (d_class d) in
    let* d2 :=
      if d_class d1 then
        if Nat.eqb (find_pos (p_y p) (d_classes d1)) (length (d_classes d1)) then
          let* pl := vget pts (sz - 1) in count_class (p_y p) (p_y pl) d1
        else count_class (p_y p) (p_y p) d1
      else Ok d1 in
    let* pts' :=
      if keepIndex then Ok pts
      else vupd (sz - 1) (fun q => mkPoint (p_x q) (p_y q) (Z.of_nat sz) (p_alpha q)) pts in
    Ok (mkData pts' (d_fnames d2) (d_index d2 ++ [Z.of_nat (length pts) - 1])
               (d_cnames d2) (d_classes d2) (d_dist d2) (d_size d2) (d_dim d2)
               (d_isempty d2) (d_normalized d2) (d_cdist d2) (d_class d2), true).

(** Data.hpp:1436-1446: insertPoint(const Data&, int index, keepIndex).
    [_index > samples.size() - 1] compares in size_t: an empty [samples] gives 2^64-1, and a
    negative index is converted to a huge value. *)
Definition insertPoint_from (d s : data T) (idx : Z) (keepIndex : bool) : outcome (data T * bool) :=
  if Z.ltb (wrap64 (Z.of_nat (size s) - 1)) (wrap64 idx) then Ok (d, false)
  else
    let* p := (if Z.ltb idx 0 then UB else vget (d_points s) (Z.to_nat idx)) in
    let* r := insertPoint d p keepIndex in
    Ok (fst r, true).

(** The index update of removePoint / removePoints, Data.hpp:1190-1198 and 1276-1284:
    for j in 0..n-1, if j >= pid then index[j-1] = index[j] - 1. *)
Definition shift_step (pid : Z) (acc : outcome (list Z)) (j : nat) : outcome (list Z) :=
  let* l := acc in
  if Z.leb pid (Z.of_nat j) then
    match j with
    | O => UB
    | S j' => let* v := vget l j in vupd j' (fun _ => v - 1) l
    end
  else Ok l.
(** Data.hpp:1190-1198 (removePoint) and 1276-1284 (removePoints): the loop over the positions. *)
Definition shift_index (pid : Z) (n : nat) (l : list Z) : outcome (list Z) :=
  match l with
  | [] => Ok []
  | _ => fold_left (shift_step pid) (seq 0 n) (Ok (vresize 0 n l))
  end.

(** First position i < n with m_points[i]->Id() == pid (Data.hpp:1201-1207); [None]: no such point. *)
Fixpoint find_id (pid : Z) (n : nat) (l : list (point T)) : outcome (option (nat * point T)) :=
  match n with
  | O => Ok None
  | S n' =>
    match l with
    | [] => UB
    | q :: l' => if Z.eqb (p_id q) pid then Ok (Some (O, q))
                 else let* r := find_id pid n' l' in
                      Ok (match r with Some (i, q') => Some (S i, q') | None => None end)
    end
  end.

(** Data.hpp:1182-1212: removePoint(pid). [y] is an uninitialised int when no point has that id. *)
Definition removePoint (d : data T) (pid : Z) : outcome (data T * bool) :=
  if Nat.eqb (d_size d) 1 then Ok (d, false)
  else
    let* lastp := (match d_size d with O => UB | S k => vget (d_points d) k end) in
    if Z.ltb (p_id lastp) pid || Z.leb pid 0 then Ok (d, false)
    else
      let* idx := shift_index pid (d_size d) (d_index d) in
      let* f := find_id pid (d_size d) (d_points d) in
      match f with
      | None => UB
      | Some (i, q) =>
        let* dist := vupd (find_pos (p_y q) (d_classes d)) (fun c => wrap64 (c - 1)) (d_dist d) in
        Ok (mkData (remove_at i (d_points d)) (d_fnames d) idx (d_cnames d) (d_classes d) dist
                   (d_size d - 1) (d_dim d) (d_isempty d) (d_normalized d) (d_cdist d) (d_class d), true)
      end.

(** Data.hpp:1251-1294: removePoints(ids). State of the loop over the points. *)
Record rp_state := mkRp { rp_index : list Z; rp_dist : list Z; rp_size : nat; rp_notfound : list bool }.

(** Data.hpp:1261-1293. [m_size--] on 0 would wrap around; no point can be left then unless
    m_size and m_points disagree, which is reported as UB here. *)
Fixpoint rp_loop (ids classes : list Z) (pts : list (point T)) (s : rp_state)
  : outcome (list (point T) * rp_state) :=
  match pts with
  | [] => Ok ([], s)
  | po :: rest =>
    let i := find_pos (p_id po) ids in
    if Nat.eqb i (length ids) then
      let* r := rp_loop ids classes rest s in Ok (po :: fst r, snd r)
    else
      let* nf := vupd i (fun _ => false) (rp_notfound s) in
      let* idx := shift_index (p_id po) (rp_size s) (rp_index s) in
      if Nat.eqb (rp_size s) 1 then Ok (rest, mkRp idx (rp_dist s) (rp_size s) nf)
      else
        let* dist := vupd (find_pos (p_y po) classes) (fun c => wrap64 (c - 1)) (rp_dist s) in
        match rp_size s with
        | O => UB
        | S k => rp_loop ids classes rest (mkRp idx dist k nf)
        end
  end.

(** Data.hpp:1251-1294, with the vector of flags it returns. *)
Definition removePoints (d : data T) (ids0 : list Z) : outcome (data T * list bool) :=
  let ids := isort Z.leb ids0 in
  let* r := rp_loop ids (d_classes d) (d_points d)
              (mkRp (d_index d) (d_dist d) (d_size d) (repeat true (length ids))) in
  let s := snd r in
  Ok (mkData (fst r) (d_fnames d) (rp_index s) (d_cnames d) (d_classes d) (rp_dist s)
             (rp_size s) (d_dim d) (d_isempty d) (d_normalized d) (d_cdist d) (d_class d), rp_notfound s).

(** Data.hpp:1726-1738: clear(). class_distribution is not cleared. *)
Definition clear (d : data T) : data T :=
  mkData [] [] [] [] [] (d_dist d) 0%nat 0%nat true false false (d_class d).

(** Data.hpp:1550-1585: copy(), copy(const Data&) and the copy constructor 2101-2103. *)
Definition copy (d : data T) : data T :=
  mkData (map (fun p => mkPoint (p_x p) (p_y p) (p_id p) (p_alpha p)) (d_points d))
         (d_fnames d) (d_index d) (d_cnames d) (d_classes d) (d_dist d)
         (size d) (dim d) (d_isempty d) (d_normalized d) (d_cdist d) (d_class d).

(** Inner loop of insertFeatures over the feature names, Data.hpp:1319-1333.
    Walks j = 0..m_dim-1 with cursor [offset] into the sorted request (here: the remaining request);
    returns the selected (value, name) pairs. *)
Fixpoint if_walk (n : nat) (fn : list Z) (xs : list T) (req : list Z) : outcome (list (T * Z)) :=
  match n with
  | O => Ok []
  | S n' =>
    match req with
    | [] => (* offset == fsize: fnames[j] is not read *)
        let fn' := match fn with [] => [] | _ :: r => r end in
        let xs' := match xs with [] => [] | _ :: r => r end in
        if_walk n' fn' xs' []
    | f :: req' =>
      match fn with
      | [] => UB
      | g :: fn' =>
        if Z.eqb g f then
          match xs with
          | [] => UB
          | x :: xs' => let* r := if_walk n' fn' xs' req' in Ok ((x, g) :: r)
          end
        else if_walk n' fn' (match xs with [] => [] | _ :: r => r end) req
      end
    end
  end.

(** Data.hpp:1313-1340: the loop over the points; [None]: s != fsize for some point. *)
Fixpoint if_points (n : nat) (dm : nat) (fn req : list Z) (keepIndex : bool)
         (pts : list (point T)) (out : data T) (names : list Z)
  : outcome (data T * option (list Z)) :=
  match n with
  | O => Ok (out, Some names)
  | S n' =>
    match pts with
    | [] => UB
    | q :: rest =>
      let* w := if_walk dm fn (p_x q) req in
      if Nat.eqb (length w) (length req) then
        let* r := insertPoint out (mkPoint (map fst w) (p_y q) (p_id q) (p_alpha q)) keepIndex in
        if_points n' dm fn req keepIndex rest (fst r) (map snd w)
      else Ok (clear out, None)
    end
  end.

(** Data.hpp:1296-1346: insertFeatures(ins_feat, keepIndex). *)
Definition insertFeatures (d : data T) (ins : list Z) (keepIndex : bool) : outcome (data T) :=
  match ins with
  | [] => Ok (copy d)
  | _ =>
    let req := isort Z.leb ins in
    if Nat.ltb (d_dim d) (length ins) then Ok data_empty
    else
      let out := mkData [] [] [] [] [] [] 0%nat (length ins) true false false true in
      let* r := if_points (d_size d) (d_dim d) (d_fnames d) req keepIndex (d_points d) out
                          (repeat 0 (length ins)) in
      match snd r with
      | None => Ok (fst r)
      | Some names =>
        let o := fst r in
        Ok (mkData (d_points o) names (d_index o) (d_cnames o) (d_classes o) (d_dist o)
                   (d_size o) (d_dim o) (d_isempty o) (d_normalized o) (d_cdist o) (d_class o))
      end
  end.

(** [l] permuted: position i of the result is position (nth i perm) of [l]. std::shuffle at Data.hpp:1348-1352. *)
Definition permute {A : Type} (perm : list nat) (l : list A) : outcome (list A) :=
  fold_right (fun i acc => let* r := acc in let* x := vget l i in Ok (x :: r)) (Ok []) perm.

(** [for i < n: index[i] = i] (Data.hpp:1353-1355). *)
Definition reset_prefix (n : nat) (l : list Z) : outcome (list Z) :=
  fold_left (fun acc i => let* r := acc in vupd i (fun _ => Z.of_nat i) r) (seq 0 n) (Ok l).

(** Data.hpp:1348-1356: shuffle(seed). [perm] is the permutation chosen by std::shuffle. *)
Definition shuffle (perm : list nat) (d : data T) : outcome (data T) :=
  let* pts := permute perm (d_points d) in
  let* idx := reset_prefix (d_size d) (d_index d) in
  Ok (mkData pts (d_fnames d) idx (d_cnames d) (d_classes d) (d_dist d)
             (d_size d) (d_dim d) (d_isempty d) (d_normalized d) (d_cdist d) (d_class d)).

(** Data.hpp:1386-1398: exist[i] for feature name f; names past the end of fnames are UB. *)
Fixpoint feat_exists (f : Z) (dm : nat) (fn : list Z) : outcome bool :=
  match dm with
  | O => Ok false
  | S dm' =>
    if Z.ltb (-1) f then
      match fn with
      | [] => UB
      | g :: fn' => if Z.eqb f g then Ok true else feat_exists f dm' fn'
      end
    else feat_exists f dm' (match fn with [] => [] | _ :: r => r end)
  end.

(** Data.hpp:1388-1398: every feature asked for, with its flag exist. *)
Fixpoint exist_flags (feats : list Z) (dm : nat) (fn : list Z) : outcome (list (Z * bool)) :=
  match feats with
  | [] => Ok []
  | f :: r => let* b := feat_exists f dm fn in
              let* t := exist_flags r dm fn in Ok ((f, b) :: t)
  end.

(** Data.hpp:1406: while(k < rsize && !exist[k]) k++. *)
Fixpoint skip_absent (l : list (Z * bool)) : list (Z * bool) :=
  match l with
  | (f, false) :: r => skip_absent r
  | _ => l
  end.

(** Data.hpp:1404-1417: the two-cursor deletion in one point. [fn] is fnames from position j. *)
Fixpoint rf_point (fs : list (Z * bool)) (fn : list Z) (xs : list T) : outcome (list T) :=
  match xs with
  | [] => Ok []
  | x :: xs' =>
    match skip_absent fs with
    | [] => Ok xs
    | (f, b) :: r =>
      match fn with
      | [] => UB
      | g :: fn' =>
        if Z.eqb g f then rf_point r fn' xs'
        else let* t := rf_point ((f, b) :: r) fn' xs' in Ok (x :: t)
      end
    end
  end.

(** Data.hpp:1420-1431: erase the first equal name, decrement m_dim (each time one is found). *)
Fixpoint remove_first (f : Z) (l : list Z) : option (list Z) :=
  match l with
  | [] => None
  | g :: r => if Z.eqb g f then Some r
              else match remove_first f r with Some r' => Some (g :: r') | None => None end
  end.
(** Data.hpp:1421-1431: the loop over the features asked for. *)
Fixpoint rf_names (feats : list Z) (fn : list Z) (dm : nat) : list Z * nat :=
  match feats with
  | [] => (fn, dm)
  | f :: r => match remove_first f fn with
              | Some fn' => rf_names r fn' (dm - 1)
              | None => rf_names r fn dm
              end
  end.

(** A loop over a vector that fills another one (Data.hpp:1401-1418 and elsewhere). *)
Fixpoint map_outcome {A B : Type} (f : A -> outcome B) (l : list A) : outcome (list B) :=
  match l with
  | [] => Ok []
  | x :: r => let* y := f x in let* t := map_outcome f r in Ok (y :: t)
  end.

(** Data.hpp:1367-1434: removeFeatures(feats). [m_dim--] below 0 would wrap (only when fnames is
    longer than m_dim); truncated at 0 here. *)
Definition removeFeatures (d : data T) (feats0 : list Z) : outcome (data T * bool) :=
  match feats0 with
  | [] => Ok (d, true)
  | _ =>
    if Nat.eqb (length (d_fnames d)) 1 then Ok (d, false)
    else
      let feats := isort Z.leb feats0 in
      let* fs := exist_flags feats (d_dim d) (d_fnames d) in
      let* pts := map_outcome (fun q =>
          let* x := rf_point fs (d_fnames d) (p_x q) in
          Ok (mkPoint x (p_y q) (p_id q) (p_alpha q))) (d_points d) in
      let '(fn, dm) := rf_names feats (d_fnames d) (d_dim d) in
      Ok (mkData pts fn (d_index d) (d_cnames d) (d_classes d) (d_dist d)
                 (d_size d) dm (d_isempty d) (d_normalized d) (d_cdist d) (d_class d), true)
  end.

(** Data.hpp:1358-1365: removeFeatures(feats, fsize) const (fsize = -1: all of feats). *)
Definition removeFeatures_copy (d : data T) (feats : list Z) (fsize : option nat) : outcome (data T) :=
  let n := match fsize with None => length feats | Some k => k end in
  if Nat.ltb (length feats) n then UB
  else let* r := removeFeatures (copy d) (firstn n feats) in Ok (fst r).

(** Data.hpp:1519-1548: classesCopy(_data, classes) into [d]. *)
Definition classesCopy (d src : data T) (cls : list Z) : data T :=
  let sel := filter (fun p => existsb (Z.eqb (p_y p)) cls) (d_points src) in
  mkData (d_points d ++ map (fun p => mkPoint (p_x p) (p_y p) (p_id p) (p_alpha p)) sel)
         (d_fnames src) (d_index src) (d_cnames d) cls (d_dist d)
         (length sel) (dim src) (d_isempty src) (d_normalized src) false (d_class src).

(** Data.hpp:1842-1852: computeClassesDistribution(). *)
Fixpoint tally (classes : list Z) (pts : list (point T)) (dist : list Z) : outcome (list Z) :=
  match pts with
  | [] => Ok dist
  | p :: r => let* dist' := vupd (find_pos (p_y p) classes) (fun c => wrap64 (c + 1)) dist in
              tally classes r dist'
  end.
(** Data.hpp:1842-1852. *)
Definition computeClassesDistribution (d : data T) : outcome (data T) :=
  if d_cdist d then Ok d
  else
    let* dist := tally (d_classes d) (d_points d) (repeat 0 (length (d_classes d))) in
    Ok (mkData (d_points d) (d_fnames d) (d_index d) (d_cnames d) (d_classes d) dist
               (d_size d) (d_dim d) (d_isempty d) (d_normalized d) (d_cdist d) (d_class d)).

(** Data.hpp:1759-1762: resetIndex(). *)
Definition resetIndex (d : data T) : data T :=
  mkData (d_points d) (d_fnames d) (iota 0 (length (d_points d))) (d_cnames d) (d_classes d) (d_dist d)
         (d_size d) (d_dim d) (d_isempty d) (d_normalized d) (d_cdist d) (d_class d).

(** Data.hpp:1753-1756: setIndex. *)
Definition setIndex (d : data T) (idx : list Z) : data T :=
  mkData (d_points d) (d_fnames d) idx (d_cnames d) (d_classes d) (d_dist d)
         (d_size d) (d_dim d) (d_isempty d) (d_normalized d) (d_cdist d) (d_class d).

(** Data.hpp:1835-1840: setClasses. *)
Definition setClasses (d : data T) (cls : list Z) : data T :=
  mkData (d_points d) (d_fnames d) (d_index d) (d_cnames d) cls (vresize 0 (length cls) (d_dist d))
         (d_size d) (d_dim d) (d_isempty d) (d_normalized d) false (d_class d).
End Model.

(** [std::set_difference] on sorted ranges (multiset semantics). *)
Section SetDiff.
Context {A : Type} (ltb : A -> A -> bool).
(** std::set_difference, used at Data.hpp:1622-1628, on sorted input; here over any comparison. *)
Fixpoint set_difference (l1 : list A) : list A -> list A :=
  match l1 with
  | [] => fun _ => []
  | x :: r1 =>
    fix go (l2 : list A) : list A :=
      match l2 with
      | [] => l1
      | y :: r2 =>
        if ltb x y then x :: set_difference r1 l2
        else if ltb y x then go r2
        else set_difference r1 r2
      end
  end.
End SetDiff.

Section Model2.
Context {T : Type}.

(** Data.hpp:1597-1643: join(data). Requires m_points to hold at least m_size points
    (otherwise null pointers appear, reported as UB). m_dim is not updated. *)
Definition join (d s : data T) : outcome (data T) :=
  if Nat.ltb (dim s) (d_dim d) then Abort
  else if Nat.ltb (length (d_points d)) (d_size d) then UB
  else
    let pts := firstn (d_size d) (d_points d)
               ++ map (fun p => mkPoint (p_x p) (p_y p) (p_id p) (p_alpha p)) (d_points s) in
    let diff := set_difference Z.ltb (isort Z.leb (d_classes s)) (isort Z.leb (d_classes d)) in
    let diffn := set_difference String.ltb (isort String.leb (d_cnames s)) (isort String.leb (d_cnames d)) in
    let classes := d_classes d ++ diff in
    let* d1 := computeClassesDistribution
      (mkData pts (d_fnames d) (iota 0 (length pts)) (d_cnames d ++ diffn) classes
              (repeat 0 (length classes)) (d_size d + length (d_points s)) (d_dim d)
              (d_isempty d) (d_normalized d) (d_cdist d) (d_class d)) in
    Ok (mkData (d_points d1) (match d_fnames d with [] => d_fnames s | _ => d_fnames d end)
               (d_index d1) (d_cnames d1) (d_classes d1) (d_dist d1) (d_size d1) (d_dim d1)
               (d_isempty d1) (d_normalized d1) (d_cdist d1) (d_class d1)).

(** [std::to_string(double)] on an integral value: six decimals. Data.hpp:1867, 1872. *)
Definition string_of_label (y : Z) : string := (string_of_Z y ++ ".000000")%string.

(** [label_map[key]] on a std::map<string,int> built from (to_string(int label), position):
    a missing key is created with value 0. *)
Fixpoint map_lookup (key : string) (m : list (string * nat)) : nat :=
  match m with
  | [] => O
  | (k, v) :: r => if String.eqb key k then v else map_lookup key r
  end.

(** Data.hpp:1879-1885: the distribution loop over the multimap. *)
Fixpoint fill_parts (k : nat) (keepIndex : bool) (label_map : list (string * nat))
         (objs : list (point T)) (fillIndex : list nat) (parts : list (data T))
  : outcome (list (data T)) :=
  match objs with
  | [] => Ok parts
  | p :: rest =>
    let slot := map_lookup (string_of_label (p_y p)) label_map in
    let* c := vget fillIndex slot in
    let i := Nat.modulo c k in
    let* fi := vupd slot S fillIndex in
    let* part := vget parts i in
    let* r := insertPoint part p keepIndex in
    let* parts' := vupd i (fun _ => fst r) parts in
    fill_parts k keepIndex label_map rest fi parts'
  end.

(** Data.hpp:1890-1899: the unstratified filling loops, as the sequence of (part, point position)
    assignments i = 0..k-1, j = 0..new_size-1, counter = running number. *)
Fixpoint fill_plain (jobs : list nat) (keepIndex : bool) (pts : list (point T)) (total : nat)
         (counter : nat) (parts : list (data T)) : outcome (list (data T)) :=
  match jobs with
  | [] => Ok parts
  | i :: rest =>
    let* p := vget pts counter in
    let* part := vget parts i in
    let* r := insertPoint part p keepIndex in
    let* parts' := vupd i (fun _ => fst r) parts in
    if Nat.eqb (S counter) total then Ok parts'
    else fill_plain rest keepIndex pts total (S counter) parts'
  end.

(** Data.hpp:1854-1901: splitSample(split_size, stratified, keepIndex, seed). [perm] is the outcome
    of std::shuffle. split_size = 0 divides by zero. Labels are integral (see header). *)
Definition splitSample (perm : list nat) (d : data T) (k : nat) (stratified keepIndex : bool)
  : outcome (list (data T)) :=
  let parts := repeat (@data_empty T) k in
  if Nat.eqb k 0 then UB
  else
    let new_size := Nat.div (size d) k in
    let* dd := shuffle perm (copy d) in
    if d_class d && stratified then
      let objs := isort (fun p q => String.leb (string_of_label (p_y p)) (string_of_label (p_y q)))
                        (d_points dd) in
      let label_map := combine (map string_of_Z (d_classes dd)) (seq 0 (length (d_classes dd))) in
      fill_parts k keepIndex label_map objs (repeat O k) parts
    else
      fill_plain (flat_map (fun i => repeat i new_size) (seq 0 k)) keepIndex (d_points dd) (size d) 0 parts.

(** Data.hpp:1980-2008: updatePointValue(idx, value), integral value. When the class is new the code
    keeps using [class_pos], the end iterator obtained before push_back: undefined behaviour. *)
Definition updatePointValue (d : data T) (i : nat) (v : Z) : outcome (data T * bool) :=
  if Nat.leb (d_size d) i then Ok (d, false)
  else
    let* q := vget (d_points d) i in
    let set_y := fun p : point T => mkPoint (p_x p) v (p_id p) (p_alpha p) in
    let* pts := vupd i set_y (d_points d) in
    if d_class d then
      let pos := find_pos v (d_classes d) in
      if Nat.eqb pos (length (d_classes d)) then UB
      else
        let opos := find_pos (p_y q) (d_classes d) in
        let* dist1 := vupd pos (fun c => wrap64 (c + 1)) (d_dist d) in
        let* dist2 := vupd opos (fun c => wrap64 (c - 1)) dist1 in
        let* c := vget dist2 opos in
        if Z.eqb c 0 then
          if Nat.ltb opos (length (d_classes d)) && Nat.ltb opos (length (d_cnames d)) then
            Ok (mkData pts (d_fnames d) (d_index d) (remove_at opos (d_cnames d))
                       (remove_at opos (d_classes d)) (remove_at opos dist2)
                       (d_size d) (d_dim d) (d_isempty d) (d_normalized d) (d_cdist d) (d_class d), true)
          else UB
        else
          Ok (mkData pts (d_fnames d) (d_index d) (d_cnames d) (d_classes d) dist2
                     (d_size d) (d_dim d) (d_isempty d) (d_normalized d) (d_cdist d) (d_class d), true)
    else
      Ok (mkData pts (d_fnames d) (d_index d) (d_cnames d) (d_classes d) (d_dist d)
                 (d_size d) (d_dim d) (d_isempty d) (d_normalized d) (d_cdist d) (d_class d), true).

(** Data.hpp:2010-2028: splitByClasses(keepIndex). *)
Fixpoint sbc_loop (keepIndex : bool) (classes : list Z) (pts : list (point T)) (parts : list (data T))
  : outcome (list (data T)) :=
  match pts with
  | [] => Ok parts
  | p :: rest =>
    let i := find_pos (p_y p) classes in
    let* part := vget parts i in
    let* r := insertPoint part p keepIndex in
    let* parts' := vupd i (fun _ => fst r) parts in
    sbc_loop keepIndex classes rest parts'
  end.
(** Data.hpp:2010-2028. *)
Definition splitByClasses (d : data T) (keepIndex : bool) : outcome (list (data T)) :=
  let dd := copy d in
  let* parts := sbc_loop keepIndex (d_classes dd) (d_points dd)
                         (repeat (@data_empty T) (length (d_classes d))) in
  map_outcome computeClassesDistribution parts.

(** Data.hpp:2068-2099: selectFeatures(feats, size). The cursor loop 2075-2082: [None] = assert fails.
    Returns (positions for all of feats, number of invalid (zero) entries). feats are size_t. *)
Fixpoint sf_zeros (feats : list Z) : nat :=
  match feats with f :: r => if Z.ltb f 1 then S (sf_zeros r) else O | [] => O end.
(** Data.hpp:2068-2099: the walk over fnames for the features asked for. *)
Fixpoint sf_walk (fn : list Z) (pos : nat) (feats : list Z) : option (list nat) :=
  match feats with
  | [] => Some []
  | f :: r =>
    match fn with
    | [] => None
    | g :: fn' =>
      if Z.eqb g f then match sf_walk fn' (S pos) r with Some l => Some (pos :: l) | None => None end
      else sf_walk fn' (S pos) feats
    end
  end.
(** Data.hpp:2068-2099: the positions found and how many. *)
Definition sf_positions (fn : list Z) (feats : list Z) : option (list nat * nat) :=
  (* the loop does not even start when fnames is empty *)
  match fn, feats with
  | [], _ :: _ => None
  | _, _ =>
    let z := sf_zeros feats in
    match sf_walk fn 0 (skipn z feats) with
    | Some l => Some (repeat O z ++ l, z)
    | None => None
    end
  end.
(** Data.hpp:2068-2099: the new point made from a point. *)
Definition sf_point (pos : list nat) (n : nat) (y0 id0 : Z) (alpha0 : T) (q : point T) : outcome (point T) :=
  let* xs := map_outcome (fun i => let* j := vget pos i in vget (p_x q) j) (seq 0 n) in
  Ok (if Nat.eqb n 0 then mkPoint xs y0 id0 alpha0 else mkPoint xs (p_y q) (p_id q) (p_alpha q)).
(** [y0], [id0], [alpha0]: the default label, id and alpha of a new Point (Point.hpp), kept when the
    copying loop body never runs. [sz = None] is size = -1. *)
Fixpoint sf_insert (pts : list (point T)) (out : data T) : outcome (data T) :=
  match pts with
  | [] => Ok out
  | p :: r => let* o := insertPoint out p true in sf_insert r (fst o)
  end.
(** Data.hpp:2068-2099. *)
Definition selectFeatures (y0 id0 : Z) (alpha0 : T) (d : data T) (feats0 : list Z) (sz : option nat)
  : outcome (data T) :=
  let feats := isort Z.leb feats0 in
  match sf_positions (d_fnames d) feats with
  | None => Abort
  | Some (pos, inv) =>
    let sz' := match sz with None => length feats | Some k => k end in
    if Nat.ltb sz' inv then Abort (* size_t underflow: allocation fails *) else
    let* pts := map_outcome (sf_point pos (sz' - inv) y0 id0 alpha0) (d_points d) in
    sf_insert pts data_empty
  end.
End Model2.
