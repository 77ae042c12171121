(** Specification of SMOTE. *)
From Coq Require Import ZArith Bool List Reals Permutation Sorted.
From Verif Require Import M_Data.
Import ListNotations.
Local Open Scope R_scope.

(** [c] is the first class with the fewest points. *)
Definition points_of (d : data R) (c : Z) : list (point R) := filter (fun p => Z.eqb (p_y p) c) (d_points d).
Definition least_frequent (d : data R) (c : Z) : Prop :=
  exists before after, d_classes d = before ++ c :: after /\
    (forall c', In c' before -> (length (points_of d c) < length (points_of d c'))%nat) /\ (forall c', In c' after -> (length (points_of d c) <= length (points_of d c'))%nat).
(** A number in position [i] is among the [k] smallest different non-zero values. *)
Definition among_least (k : nat) (vals : list R) (v : R) : Prop :=
  In v vals /\ v <> 0 /\ exists smaller, (length smaller < k)%nat /\ forall u, In u vals -> u <> 0 -> u < v -> In u smaller.
(** The number of different non-zero values. *)
Definition distinct_nonzero (vals : list R) (n : nat) : Prop := exists vs, NoDup vs /\ length vs = n /\ forall v, In v vs <-> In v vals /\ v <> 0.
(** The point reached from [z] by moving the fraction [a] of the way from [w] to [z], further on. *)
Definition beyond (z w : list R) (a : R) : list R := map (fun p => fst p + a * (fst p - snd p)) (combine z w).
(** The point at the fraction [t] of the segment from [z] to [w]. *)
Definition on_segment (z w x : list R) : Prop := exists t, 0 <= t <= 1 /\ x = map (fun p => fst p + t * (snd p - fst p)) (combine z w).
(** A sort by distance. *)
Definition sorts_by_distance (srt : list (nat * R) -> list (nat * R)) : Prop :=
  forall l, Permutation (srt l) l /\ StronglySorted (fun a b => snd a <= snd b) (srt l).
(** The artificial point [s] comes from the minority point [z]: [near] is one of its nearest minority points, at position [i] among the minority points;
    [other] is the point at position [i] of the whole dataset, and [s] lies beyond [z] seen from [other], by one of the drawn fractions [al]. *)
Definition smote_from (al : nat -> R) (dist : list R -> list R -> R) (k : nat) (d : data R) (c : Z) (z s : point R) : Prop :=
  exists i near other t, nth_error (points_of d c) i = Some near /\
    among_least k (map (fun p => dist (p_x z) (p_x p)) (points_of d c)) (dist (p_x z) (p_x near)) /\
    nth_error (d_points d) i = Some other /\ p_x s = beyond (p_x z) (p_x other) (al t) /\ p_y s = c.
