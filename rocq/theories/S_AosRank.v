(** Specification of the ranking of the features in AOS. *)
From Coq Require Import ZArith Bool List Reals.
From Verif Require Import M_Data L_Vec S_Stat.
Import ListNotations.
Local Open Scope R_scope.

(** Every label is 1 or -1, and both occur. *)
Definition two_labels (d : data R) : Prop :=
  (forall p, In p (d_points d) -> p_y p = 1%Z \/ p_y p = (-1)%Z) /\ (exists p, In p (d_points d) /\ p_y p = 1%Z) /\ (exists p, In p (d_points d) /\ p_y p = (-1)%Z).
(** Sum of the squares of the differences of feature [j] to its mean over the points labelled [y], and its population variance there. *)
Definition label_scatter (d : data R) (y : Z) (j : nat) : R :=
  sumn (length (members d (Z.eqb y))) (fun i => Rsqr (nz (nth i (map p_x (members d (Z.eqb y))) []) j - label_mean d (Z.eqb y) j)).
Definition label_var (d : data R) (y : Z) (j : nat) : R := label_scatter d y j / INR (length (members d (Z.eqb y))).
(** Distance between the means of the two classes without feature [f]. *)
Definition gap_without (d : data R) (f : Z) : R := sqrt (sum_over (length (d_fnames d)) (other d f) (centre_gap d)).
(** Largest distance of a point to the centroid without feature [f]. *)
Definition radius_without (d : data R) (f : Z) (r : R) : Prop :=
  let far i := sqrt (from_centre d (length (d_points d)) (length (d_fnames d)) (other d f) i) in
  (forall i, (i < length (d_points d))%nat -> far i <= r) /\ exists i, (i < length (d_points d))%nat /\ r = far i.
(** What std::sort asks of a comparison on a set. *)
Definition weak_order {A : Type} (P : A -> Prop) (lt : A -> A -> bool) : Prop :=
  (forall a, P a -> lt a a = false) /\
  (forall a b c, P a -> P b -> P c -> lt a b = true -> lt b c = true -> lt a c = true) /\
  (forall a b c, P a -> P b -> P c -> lt a b = false -> lt b a = false -> lt b c = false -> lt c b = false -> lt a c = false /\ lt c a = false).
