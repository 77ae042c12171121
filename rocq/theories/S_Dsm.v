(** Specification of the choice of subspaces by quality and diversity. *)
From Coq Require Import ZArith Bool List Reals.
From Verif Require Import M_Data L_Vec S_Stat.
Import ListNotations.
Local Open Scope R_scope.

(** Pearson's correlation of f and g over n points. *)
Definition correlation (n : nat) (f g : nat -> R) : R := scatter n f g / sqrt (scatter n f f * scatter n g g).
(** The share of the subspaces that contain the feature at position [c]. *)
Definition share (subs : list (list Z)) (c : nat) : R := INR (length (filter (fun r => existsb (Z.eqb (Z.of_nat c)) r) subs)) / INR (length subs).
(** What decides between features: correlation with the labels (times n/(n-1)) and how few subspaces have the feature. *)
Definition merit (d : data R) (labels : list R) (alpha : R) (subs : list (list Z)) (c : nat) : R :=
  alpha * (INR (length labels) / (INR (length labels) - 1)) * correlation (length labels) (fun i => at_ d i c) (nz labels) + (1 - alpha) / 2 * (1 - share subs c).
(** [c] is the first of the best features that subspace [r] does not have. *)
Definition first_best (m : nat) (w : nat -> R) (r : list Z) (c : nat) : Prop :=
  (c < m)%nat /\ ~ In (Z.of_nat c) r /\
  forall c', (c' < m)%nat -> ~ In (Z.of_nat c') r -> w c' <= w c /\ ((c' < c)%nat -> w c' < w c).
(** Entry [i] of subspace [j] replaced. *)
Definition replaced (subs : list (list Z)) (j i : nat) (v : Z) (subs' : list (list Z)) : Prop :=
  exists above a x b below, subs = above ++ (a ++ x :: b) :: below /\ subs' = above ++ (a ++ v :: b) :: below /\ length above = j /\ length a = i.
(** The greedy choice, in the order [steps] of (entry, subspace). *)
Inductive greedy (m : nat) (w : list (list Z) -> nat -> R) : list (nat * nat) -> list (list Z) -> list (list Z) -> Prop :=
| greedy_end subs : greedy m w [] subs subs
| greedy_step i j steps subs c mid last : first_best m (w subs) (nth j subs []) c -> replaced subs j i (Z.of_nat c) mid -> greedy m w steps mid last ->
    greedy m w ((i, j) :: steps) subs last.
(** All entries of all [k] subspaces, entry by entry. *)
Definition rounds (n k : nat) : list (nat * nat) := flat_map (fun i => map (fun j => (i, j)) (seq 0 k)) (seq 0 n).
(** [k] subspaces of [n] different positions below [m]. *)
Definition subspaces_ok (m n k : nat) (subs : list (list Z)) : Prop :=
  length subs = k /\ Forall (fun r => length r = n /\ NoDup r /\ Forall (fun x => (0 <= x < Z.of_nat m)%Z) r) subs.
(** Not all the values are equal. *)
Definition varies (n : nat) (f : nat -> R) : Prop := exists i j, (i < n)%nat /\ (j < n)%nat /\ f i <> f j.
