(** Specification vocabulary for mltk::Data. Only fields of the dataset and standard-library
    notions (In, NoDup, count_occ, Permutation) are used. *)
From Coq Require Import ZArith Bool String Sorted Permutation List.
From Verif Require Import Base M_Data.
Import ListNotations.
Open Scope Z_scope.

Section Spec.
Context {T : Type}.

(** Labels of a list of points, and how often label [c] occurs. *)
Definition labels (pts : list (point T)) : list Z := map p_y pts.
Definition label_count (c : Z) (pts : list (point T)) : Z :=
  Z.of_nat (count_occ Z.eq_dec (labels pts) c).

(** The class bookkeeping of a classification dataset is right. *)
Record class_ok (d : data T) : Prop := {
  co_class  : d_class d = true;
  co_nodup  : NoDup (d_classes d);
  co_listed : forall p, In p (d_points d) -> In (p_y p) (d_classes d);
  co_len    : length (d_dist d) = length (d_classes d);
  co_count  : forall i c, nth_error (d_classes d) i = Some c ->
                          nth_error (d_dist d) i = Some (label_count c (d_points d)) }.

(** Well-formed dataset: sizes, dimensions and names agree with the points. *)
Record data_ok (d : data T) : Prop := {
  ok_size   : d_size d = length (d_points d);
  ok_class  : class_ok d;
  ok_names  : length (d_cnames d) = length (d_classes d);
  ok_index  : (length (d_points d) <= length (d_index d))%nat;
  ok_dim    : forall p, In p (d_points d) -> length (p_x p) = d_dim d;
  ok_fnames : length (d_fnames d) = d_dim d;
  ok_sorted : StronglySorted Z.lt (d_fnames d);
  ok_fpos   : forall f, In f (d_fnames d) -> 0 < f;
  ok_empty  : d_points d = [] -> d_dim d = O;
  ok_cap    : Z.of_nat (length (d_points d)) < 2 ^ 63 }.

(** The same point with another id. *)
Definition with_id (i : Z) (p : point T) : point T := mkPoint (p_x p) (p_y p) i (p_alpha p).

(** Everything observable about a point except its id. *)
Definition content (p : point T) : list T * Z * T := (p_x p, p_y p, p_alpha p).

(** The values of the features (named [names], in order) whose name satisfies [keep]. *)
Definition keep_features (keep : Z -> bool) (names : list Z) (xs : list T) : list T :=
  map snd (filter (fun nx => keep (fst nx)) (combine names xs)).

(** Membership as a boolean. *)
Definition memZ (x : Z) (l : list Z) : bool := existsb (Z.eqb x) l.
End Spec.
