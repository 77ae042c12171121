(** Model of the variance of a clustering: /repo/subprojects/ufjfmltk-clusterer/include/ufjfmltk/clusterer/KMeans.hpp:192-209, over the reals.
    [None] is a value that is not a number: the mean of an empty cluster, if it were read. *)
From Coq Require Import ZArith List Reals Bool.
From Verif Require Import Base M_Data Loop M_Kmeans.
Import ListNotations.
Local Open Scope nat_scope.

(** KMeans.hpp:203-204: one member's contribution; operator() of a dataset is unchecked (Data.hpp:510). *)
Definition var_member (d : data R) (mean : option (list R)) (v : option R) (id : Z) : outcome (option R) :=
  if Z.ltb id 0 then UB else
  let* p := vget (d_points d) (Z.to_nat id) in
  Ok match v, mean with
     | Some a, Some m => Some (a + fold_left (fun s q => s + (fst q - snd q) * (fst q - snd q)) (combine (p_x p) m) 0)%R
     | _, _ => None
     end.
(** KMeans.hpp:195-205: one cluster. *)
Definition var_cluster (d : data R) (v : option R) (cl : list Z) : outcome (option R) :=
  let* s := ofold (add_point d) cl (repeat 0%R (dim d)) in
  ofold (var_member d (center_div s (length cl))) cl v.
(** KMeans.hpp:192-209: clusters_variance. *)
Definition clusters_variance (d : data R) (clusters : list (list Z)) : outcome (option R) := ofold (var_cluster d) clusters (Some 0%R).
