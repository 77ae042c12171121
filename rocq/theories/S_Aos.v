(** Specification of the admissible ordered search. *)
From Coq Require Import ZArith Bool List Reals Permutation Sorted.
From Verif Require Import Base L_Vec M_Data S_Data M_Pq S_Pq S_Fs M_Aos.
Import ListNotations.
Local Open Scope nat_scope.

(** All features but those of [f]. *)
Definition without (f : list Z) (n : Z) : bool := negb (existsb (Z.eqb n) f).
(** In decreasing order. *)
Definition desc (f : list Z) : Prop := StronglySorted Z.gt f.
(** A set of features of [names], as the nodes list it, of at most [k]. *)
Definition choice (names : list Z) (k : nat) (f : list Z) : Prop := desc f /\ incl f names /\ length f <= k.
(** Every training on a selection of the features of [d] gives one weight per feature, not all 0, and, when it succeeds, a positive margin. *)
Definition able (d : data R) (tr : nat -> data R -> bool * (list R * R)) : Prop :=
  forall n keep e, restricted keep d e -> d_fnames e <> [] ->
    length (fst (snd (tr n e))) = length (d_fnames e) /\ (exists x, In x (fst (snd (tr n e))) /\ x <> 0%R) /\ (fst (tr n e) = true -> (0 < snd (snd (tr n e)))%R).
(** Two choices of at most [k] features that differ in size by two or more are never in the same row of the table. *)
Definition apart (len : nat) (names : list Z) (k : nat) : Prop :=
  forall f f', choice names k f -> choice names k f' -> 1 <= length f -> length f + 2 <= length f' -> ~ same_row len f f'.
(** No row of the table has more choices of at most [k] features than places. *)
Definition roomy (len width : nat) (names : list Z) (k : nat) : Prop :=
  forall fs, NoDup fs -> (forall f, In f fs -> choice names k f) -> (forall f f', In f fs -> In f' fs -> same_row len f f') -> length fs <= width.
(** A bound on the turns of the search below a node with [k] levels to go. *)
Fixpoint turns (b k : nat) : nat := match k with 0 => 1 | S j => 2 + b * turns b j end.
(** The number of levels the search may go down: those asked for, but one feature stays, and at most 99999. *)
Definition levels (d : data R) (c : aos_cfg) : nat := Z.to_nat (Z.min (Z.min (a_depth c) (Z.of_nat (length (d_fnames d)) - 1)) 99999).
(** The number of children of a node: those asked for, but at most one per feature of [d], and at most 99999. *)
Definition children (d : data R) (c : aos_cfg) : nat := Nat.min (Nat.min (a_breadth c) (Z.to_nat 99999)) (length (d_fnames d)).
(** A search that is set up properly: a dataset of two features or more, a classifier as above, a sort of the weights that only moves them, g_margin not positive
    (it is 0 unless given), room in the queue, a table in which feature sets that differ in size by two or more do not meet, and rows long enough. *)
Definition searchable (d : data R) (c : aos_cfg) (srt : data R -> list (Z * R) -> list (Z * R)) (tr : nat -> data R -> bool * (list R * R)) : Prop :=
  data_ok d /\ d_points d <> [] /\ 2 <= length (d_fnames d) /\ able d tr /\ (forall e l, Permutation (srt e l) l) /\ (a_gm c <= 0)%R /\ 1 <= a_cap c /\ 1 <= a_len c /\
  apart (a_len c) (d_fnames d) (S (levels d c)) /\ roomy (a_len c) (a_width c) (d_fnames d) (S (levels d c)).
(** Every training succeeds. *)
Definition willing (d : data R) (tr : nat -> data R -> bool * (list R * R)) : Prop := forall k keep e, restricted keep d e -> fst (tr k e) = true.
(** The features of [e], each with its weight. *)
Definition weighed (e : data R) (w : list R) : list (Z * R) := map (fun i => (nth i (d_fnames e) 0%Z, nth i w 0%R)) (seq 0 (length (d_fnames e))).
(** On every selection of the features of [d] the sort leaves the features in decreasing order of [key]. *)
Definition ranked (d : data R) (key : data R -> Z * R -> R) (srt : data R -> list (Z * R) -> list (Z * R)) : Prop :=
  forall keep e w, restricted keep d e -> StronglySorted (fun a b => (key e b <= key e a)%R) (srt e (weighed e w)).
(** The absolute weight of a feature. *)
Definition by_weight (e : data R) (x : Z * R) : R := Rabs (snd x).
(** The datasets obtained from [d] by taking away one feature after the other, each time one of greatest [key] (the absolute weight, for one); training number [k] is on the [k]-th. *)
Inductive heaviest (key : data R -> Z * R -> R) (tr : nat -> data R -> bool * (list R * R)) (d : data R) : nat -> data R -> Prop :=
| heaviest_0 : heaviest key tr d 0 d
| heaviest_S k e i e' : heaviest key tr d k e -> i < length (d_fnames e) ->
    (forall j, j < length (d_fnames e) -> (key e (nth j (d_fnames e) 0%Z, nth j (fst (snd (tr k e))) 0) <= key e (nth i (d_fnames e) 0%Z, nth i (fst (snd (tr k e))) 0))%R) ->
    restricted (without [nth i (d_fnames e) 0%Z]) e e' -> heaviest key tr d (S k) e'.
(** The length of [w] without its [i]-th coordinate, relative to the whole, times the margin: the margin left when the [i]-th feature is projected away. *)
Definition shadow (w : list R) (i : nat) (margin : R) : R :=
  (sqrt (sumn (length w) (fun k => if Nat.eqb k i then 0 else nz w k * nz w k)) / sqrt (sumn (length w) (fun k => nz w k * nz w k)) * margin)%R.
(** Every training succeeds, with one weight per feature, not all 0, and a margin of 0 or less. *)
Definition flat (d : data R) (tr : nat -> data R -> bool * (list R * R)) : Prop :=
  forall n keep e, restricted keep d e -> d_fnames e <> [] ->
    fst (tr n e) = true /\ length (fst (snd (tr n e))) = length (d_fnames e) /\ (exists x, In x (fst (snd (tr n e))) /\ x <> 0%R) /\ (snd (snd (tr n e)) <= 0)%R.
