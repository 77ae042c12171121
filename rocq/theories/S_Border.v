(** Specification of borderline SMOTE. *)
From Coq Require Import ZArith Bool List Reals Sorted.
From Verif Require Import M_Data S_Smote.
Import ListNotations.
Local Open Scope nat_scope.

(** [c] is the first class with the most points. *)
Definition most_frequent (d : data R) (c : Z) : Prop :=
  exists before after, d_classes d = before ++ c :: after /\
    (forall c', In c' before -> length (points_of d c') < length (points_of d c)) /\ (forall c', In c' after -> length (points_of d c') <= length (points_of d c)).
(** The distance from [z] to the point at position [i]. *)
Definition away (dist : list R -> list R -> R) (pts : list (point R)) (z : list R) (i : nat) : R := dist z (p_x (nth i pts (mkPoint [] 0%Z 0%Z 0%R))).
(** [ns]: positions of [m] points at the [m] smallest different non-zero distances from [z], nearest first. *)
Definition nearest (dist : list R -> list R -> R) (m : nat) (pts : list (point R)) (z : list R) (ns : list nat) : Prop :=
  length ns = m /\ (forall i, In i ns -> i < length pts /\ away dist pts z i <> 0%R) /\
  StronglySorted (fun i j => (away dist pts z i < away dist pts z j)%R) ns /\
  forall i j, i < length pts -> In j ns -> away dist pts z i <> 0%R -> (away dist pts z i < away dist pts z j)%R -> exists j', In j' ns /\ away dist pts z j' = away dist pts z i.
(** How many of the points at the positions [ns] have label [c]. *)
Definition votes (pts : list (point R)) (c : Z) (ns : list nat) : nat := length (filter (fun i => Z.eqb (p_y (nth i pts (mkPoint [] 0%Z 0%Z 0%R))) c) ns).
(** At least half of the neighbours (rounded down), but not all, are of the majority. *)
Definition dangerous (pts : list (point R)) (maj : Z) (m : nat) (ns : list nat) : bool := Nat.leb (m / 2) (votes pts maj ns) && Nat.ltb (votes pts maj ns) m.
(** The elements of the list whose number, counted from 1, is one of [ids]. *)
Definition numbered {A : Type} (ids : list Z) (l : list A) : list A := map snd (filter (fun ip => existsb (Z.eqb (Z.of_nat (fst ip))) ids) (combine (seq 1 (length l)) l)).
