(** Specification of nearest neighbours. *)
From Coq Require Import ZArith Bool List Reals Permutation.
From Verif Require Import Base M_Data M_Knn.
Import ListNotations.
Local Open Scope nat_scope.

(** [N] is a set of [k] of the indices below [n] at least as near as all others. *)
Definition k_nearest (n k : nat) (far : nat -> R) (N : list nat) : Prop :=
  NoDup N /\ length N = k /\ (forall a, In a N -> a < n) /\
  forall a b, In a N -> b < n -> ~ In b N -> (far a <= far b)%R.
(** How many indices of [N] have label [c]. *)
Definition votes (label : nat -> Z) (N : list nat) (c : Z) : nat := count_occ Z.eq_dec (map label N) c.
(** [c] is the first class of the list with the most votes. *)
Definition first_plurality (classes : list Z) (count : Z -> nat) (c : Z) : Prop :=
  exists before after, classes = before ++ c :: after /\ (forall b, In b before -> count b < count c) /\ (forall a, In a after -> count a <= count c).

(** Strict weak order on the elements of a list. *)
Definition strict_weak (less : nat -> nat -> bool) (l : list nat) : Prop :=
  (forall a, In a l -> less a a = false) /\
  (forall a b c, In a l -> In b l -> In c l -> less a b = true -> less b c = true -> less a c = true) /\
  (forall a b c, In a l -> In b l -> In c l -> less a b = false -> less b a = false -> less b c = false -> less c b = false -> less a c = false /\ less c a = false).
(** What the C++ standard guarantees of nth_element. *)
Definition nth_ok (nth_el : nth_oracle) : Prop :=
  forall less k l, strict_weak less l -> k <= length l ->
    Permutation l (nth_el less k l) /\
    forall a b, In a (firstn k (nth_el less k l)) -> In b (skipn k (nth_el less k l)) -> less b a = false.

Definition label_at (d : data R) (i : nat) : Z := nth i (map p_y (d_points d)) 0%Z.
Definition point_at (d : data R) (i : nat) : list R := nth i (map p_x (d_points d)) [].
(** Point number i (from 0) has identifier i + 1. *)
Definition ids_from_one (D : data R) : Prop := forall i p, nth_error (d_points D) i = Some p -> p_id p = (Z.of_nat i + 1)%Z.
(** The entry of a matrix at the position given by two identifiers. *)
Definition entry (m : list (list R)) (a b : Z) : option R :=
  match nth_error m (Z.to_nat (a - 1)) with Some r => nth_error r (Z.to_nat (b - 1)) | None => None end.
