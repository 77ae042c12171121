(** Specification vocabulary for C99-C101: what two datasets share when they compare equal. *)
From Coq Require Import ZArith Ascii Bool String List.
From Verif Require Import M_Data M_Eq.
Import ListNotations.

(** The feature values, row by row. *)
Definition rows {T : Type} (d : data T) : list (list T) := map p_x (d_points d).

(** Everything two equal datasets have in common. Labels, ids, alphas and names of the classes are not in this list. *)
Record same_table {T : Type} (a b : dset T) : Prop := {
  st_rows : rows (ds_data a) = rows (ds_data b);
  st_classes : d_classes (ds_data a) = d_classes (ds_data b);
  st_dist : d_dist (ds_data a) = d_dist (ds_data b);
  st_fnames : d_fnames (ds_data a) = d_fnames (ds_data b);
  st_index : d_index (ds_data a) = d_index (ds_data b);
  st_dim : d_dim (ds_data a) = d_dim (ds_data b);
  st_empty : d_isempty (ds_data a) = d_isempty (ds_data b);
  st_norm : d_normalized (ds_data a) = d_normalized (ds_data b);
  st_pos : ds_pos a = ds_pos b;
  st_neg : ds_neg a = ds_neg b }.

(** The comparison of feature values is equality (for doubles: no NaN, and 0 = -0). *)
Definition decides {A : Type} (eqb : A -> A -> bool) : Prop := forall x y, eqb x y = true <-> x = y.

(** [s] is empty or ends with the character [c]. *)
Definition ends_with (c : ascii) (s : list ascii) : Prop := s = [] \/ exists u, s = u ++ [c].
(** [s] is empty or starts with the character [c]. *)
Definition starts_with (c : ascii) (s : list ascii) : Prop := s = [] \/ exists u, s = c :: u.
