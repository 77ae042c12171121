(** Model of dataset comparison, assignment and of the views of a dataset:
    /repo/subprojects/ufjfmltk-core/include/ufjfmltk/core/Data.hpp:1550-1585, 1704-1723, 1769-1808, 2106-2139.
    [eqb] is the comparison of two feature values. time_mult is never set anywhere in the library, so it takes no part. *)
From Coq Require Import ZArith Ascii Bool String List.
From Verif Require Import Base M_Data M_Str.
Import ListNotations.
Open Scope Z_scope.

(** Data.hpp:78-108: a dataset with the names of its positive and negative class, which M_Data.v leaves out. *)
Record dset (T : Type) : Type := mkDset { ds_data : data T; ds_pos : string; ds_neg : string }.
Arguments mkDset {T}.
Arguments ds_data {T}.
Arguments ds_pos {T}.
Arguments ds_neg {T}.

(** Data.hpp:98, 162: what the default constructor makes. *)
Definition ds_fresh {T : Type} : dset T := mkDset data_empty "1" "-1".

(** operator== of two std::vectors. Used at Data.hpp:1794-1795 and Point.hpp:712-714. *)
Fixpoint vec_eqb {A : Type} (eqb : A -> A -> bool) (a b : list A) : bool :=
  match a, b with
  | [], [] => true
  | x :: a', y :: b' => eqb x y && vec_eqb eqb a' b'
  | _, _ => false
  end.

Section Eq.
Context {T : Type} (eqb : T -> T -> bool).

(** Point.hpp:712-714: operator== of points compares the features only. *)
Definition point_eqb (p q : point T) : bool := vec_eqb eqb (p_x p) (p_x q).

(** Data.hpp:1788-1792: the loop runs over the counts of *this and reads those of rhs. *)
Fixpoint dist_loop (a b : list Z) : outcome bool :=
  match a with
  | [] => Ok true
  | x :: a' => match b with [] => UB | y :: b' => if Z.eqb x y then dist_loop a' b' else Ok false end
  end.

(** Data.hpp:1769-1803: operator==. The loops at 1775-1786 run after their sizes have been found equal. *)
Definition ds_eq (a b : dset T) : outcome bool :=
  let d := ds_data a in let e := ds_data b in
  if negb (vec_eqb point_eqb (d_points d) (d_points e)) then Ok false else
  if negb (vec_eqb Z.eqb (d_classes d) (d_classes e)) then Ok false else
  let* same := dist_loop (d_dist d) (d_dist e) in
  if negb same then Ok false else
  Ok (vec_eqb Z.eqb (d_fnames d) (d_fnames e) && vec_eqb Z.eqb (d_index d) (d_index e) &&
      Nat.eqb (length (d_points d)) (d_size e) && Nat.eqb (d_dim d) (d_dim e) &&
      String.eqb (ds_pos a) (ds_pos b) && String.eqb (ds_neg a) (ds_neg b) &&
      Bool.eqb (d_isempty d) (d_isempty e) && Bool.eqb (d_normalized d) (d_normalized e)).

(** Data.hpp:1805-1808: operator!=. *)
Definition ds_ne (a b : dset T) : outcome bool := let* r := ds_eq b a in Ok (negb r).

(** Data.hpp:1557-1585: copy(const Data&) into [dst]; the names of the two classes are not among what is copied. *)
Definition ds_copy_into (dst src : dset T) : dset T := mkDset (copy (ds_data src)) (ds_pos dst) (ds_neg dst).
(** Data.hpp:1550-1555, 2100-2103: copy() and the copy constructor. *)
Definition ds_copy (src : dset T) : dset T := ds_copy_into ds_fresh src.
(** Data.hpp:1704-1723: operator=. cdist_computed is not assigned. The points are shared (M_Heap.v), here their values. *)
Definition ds_assign (dst src : dset T) : dset T :=
  let d := ds_data src in
  mkDset (mkData (d_points d) (d_fnames d) (d_index d) (d_cnames d) (d_classes d) (d_dist d) (d_size d) (d_dim d)
                 (d_isempty d) (d_normalized d) (d_cdist (ds_data dst)) (d_class d)) (ds_pos src) (ds_neg src).
(** Data.hpp:1725-1738: clear(), which leaves the names of the two classes. *)
Definition ds_clear (a : dset T) : dset T := mkDset (clear (ds_data a)) (ds_pos a) (ds_neg a).
End Eq.

Section Views.
Context {T : Type}.

(** Data.hpp:2106-2112: getFeature(idx), a position. Point.hpp:247-255 asserts idx < size(); a negative int is a huge size_t. *)
Definition getFeature (d : data T) (idx : Z) : outcome (list T) :=
  map_outcome (fun i => let* p := vget (d_points d) i in
                        if ((0 <=? idx) && (idx <? Z.of_nat (length (p_x p))))%bool
                        then vget (p_x p) (Z.to_nat idx) else Abort) (seq 0 (d_size d)).
(** Data.hpp:2115-2126: getLabels(), labels(). *)
Definition getLabels (d : data T) : outcome (list Z) :=
  map_outcome (fun i => let* p := vget (d_points d) i in Ok (p_y p)) (seq 0 (d_size d)).
(** Data.hpp:2129-2132: apply(f); [f] is the effect of the user's function on the point it is given. *)
Definition apply (f : point T -> point T) (d : data T) : data T :=
  mkData (map f (d_points d)) (d_fnames d) (d_index d) (d_cnames d) (d_classes d) (d_dist d) (d_size d) (d_dim d)
         (d_isempty d) (d_normalized d) (d_cdist d) (d_class d).
End Views.

(** Data.hpp:2134-2139: discover_dataset_name. tokens.back() of no tokens is undefined. *)
Definition dataset_name (path : str) : outcome str :=
  match tokenize path "/" with
  | None => Abort
  | Some [] => UB
  | Some (t :: ts) =>
      match tokenize (last (t :: ts) t) "." with
      | None => Abort
      | Some [] => Ok []
      | Some (u :: _) => Ok u
      end
  end.
