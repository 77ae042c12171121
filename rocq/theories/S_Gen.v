(** Specification of the generators. *)
From Coq Require Import ZArith List Reals Permutation.
From Verif Require Import M_Data.
Import ListNotations.
Local Open Scope nat_scope.

(** [n] is the ceiling of [x]. *)
Definition is_ceil (x : R) (n : nat) : Prop := (INR n - 1 < x <= INR n)%R.
(** [y] is the label of class number [i] (from 0) of [k]: -1 and 1 for two classes, 1..k otherwise. *)
Definition class_label (k i : nat) (y : Z) : Prop := i < k /\ (k = 2 /\ i = 0 /\ y = (-1)%Z \/ k = 2 /\ i = 1 /\ y = 1%Z \/ k <> 2 /\ y = (Z.of_nat i + 1)%Z).
(** The number of points with a label. *)
Definition with_label {T} (d : data T) (y : Z) : nat := length (filter (fun p => Z.eqb (p_y p) y) (d_points d)).
(** Ids 1..n and index 0..n-1, in order. *)
Definition fresh_numbers {T} (d : data T) : Prop :=
  map p_id (d_points d) = map (fun i => Z.of_nat (S i)) (seq 0 (length (d_points d))) /\ d_index d = map Z.of_nat (seq 0 (length (d_points d))).
(** No shuffle, or one of [n] positions. *)
Definition perm_ok (perm : option (list nat)) (n : nat) : Prop := match perm with None => True | Some p => Permutation p (seq 0 n) end.
(** A point of the cloud of center number [c]: coordinate j is a draw of mean center_j and of the deviation of that center. *)
Definition from_center (nrm : R -> R -> nat -> R) (centers : list (list R)) (stds : list R) (m c : nat) (x : list R) : Prop :=
  exists center std t, nth_error centers c = Some center /\ nth_error stds c = Some std /\ length x = m /\ forall j v, nth_error x j = Some v -> exists a, nth_error center j = Some a /\ v = nrm a std (t + j).
