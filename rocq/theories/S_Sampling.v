(** Specification of sampling. *)
From Coq Require Import ZArith List.
From Verif Require Import M_Data S_Data.
Import ListNotations.
Local Open Scope nat_scope.
(** Points of class [c], without their ids, in order. *)
Definition class_contents {T} (d : data T) (c : Z) : list (list T * Z * T) := map content (filter (fun p => Z.eqb (p_y p) c) (d_points d)).
(** The share of class [c] in a sample of [m] points: floor(m * count / size), at least one. *)
Definition share {T} (d : data T) (m : nat) (c : Z) : nat := Nat.max 1 (length (class_contents d c) * m / length (d_points d)).
(** A random stream: draws lie in the range asked for, 0..b. *)
Definition in_range (rnd : nat -> nat -> nat) : Prop := forall t b, rnd t b <= b.
(** The contents drawn when draw number [t] on picks, class after class, [q] of the listed contents, numbered up to q - 1. *)
Fixpoint drawn {A} (rnd : nat -> nat -> nat) (t : nat) (qs : list nat) (groups : list (list A)) : list (option A) :=
  match qs, groups with
  | q :: qs', g :: gs => map (fun j => nth_error g (rnd (t + j) (q - 1))) (seq 0 q) ++ drawn rnd (t + q) qs' gs
  | _, _ => []
  end.
(** A sample of [m] points with replacement, by the random stream [rnd]. *)
Definition sample_of {T} (rnd : nat -> nat -> nat) (d : data T) (m : nat) (cs : list (list T * Z * T)) : Prop :=
  map Some cs = drawn rnd 0 (map (share d m) (d_classes d)) (map (class_contents d) (d_classes d)).
