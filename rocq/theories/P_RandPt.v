(** Property theorems: C133: randomly initialised points.
    Each is closed by the lemma of the same (lower-case) name in T_RandPt.v. *)
From Coq Require Import ZArith List Lia Reals Lra Bool.
From Verif Require Import Base M_Data M_Random M_RandPt.
From Verif Require Import T_RandPt.
Import ListNotations.
Local Open Scope R_scope.

(** C133: the point has the size asked for, label 0, and values in [0, 1); its id and alpha are kept. *)
Theorem C133_values : forall (G : Type) (seedg : Z -> G) (next : G -> G) (draw : R -> R -> G -> R * G) (dev seed : Z) (n : nat) (p : point R) (s : rstate),
  (forall g, 0 <= fst (draw 0 1 g) < 1) -> let q := fst (rand_resize seedg next draw dev seed n p s) in
  length (p_x q) = n /\ p_y q = 0%Z /\ p_id q = p_id p /\ p_alpha q = p_alpha p /\ (forall v, In v (p_x q) -> 0 <= v < 1).
Proof. exact c133_values. Qed.
Print Assumptions C133_values.

(** C133: random_init(p, seed) is the same with the size p has, and random_init(lo, hi, size, seed) makes a new point with values in [lo, hi). *)
Theorem C133_same_size : forall (G : Type) (seedg : Z -> G) (next : G -> G) (draw : R -> R -> G -> R * G) (dev seed : Z) (p : point R) (s : rstate),
  (forall g, 0 <= fst (draw 0 1 g) < 1) -> let q := fst (rand_point seedg next draw dev seed p s) in
  length (p_x q) = length (p_x p) /\ p_y q = 0%Z /\ p_id q = p_id p /\ p_alpha q = p_alpha p /\ (forall v, In v (p_x q) -> 0 <= v < 1) /\
  p_x q = p_x (fst (rand_resize seedg next draw dev seed (length (p_x p)) p s)).
Proof. exact c133_same_size. Qed.
Print Assumptions C133_same_size.

Theorem C133_new : forall (G : Type) (seedg : Z -> G) (next : G -> G) (draw : R -> R -> G -> R * G) (dev seed : Z) (lo hi : R) (n : nat) (s : rstate),
  (forall g, lo <= fst (draw lo hi g) < hi) -> let q := fst (rand_new seedg next draw dev seed lo hi n s) in
  length (p_x q) = n /\ p_y q = 0%Z /\ p_id q = 0%Z /\ (forall v, In v (p_x q) -> lo <= v < hi).
Proof. exact c133_new. Qed.
Print Assumptions C133_new.

(** C133: with a seed other than 0 and other than the one in force, in whatever state, the values are those of the seed. *)
Theorem C133_reproducible : forall (G : Type) (seedg : Z -> G) (next : G -> G) (draw : R -> R -> G -> R * G) (dev dev' seed : Z) (n : nat) (p p' : point R) (s s' : rstate),
  seed <> 0%Z -> rs_param s <> seed -> rs_param s' <> seed ->
  p_x (fst (rand_resize seedg next draw dev seed n p s)) = p_x (fst (rand_resize seedg next draw dev' seed n p' s')) /\
  snd (rand_resize seedg next draw dev seed n p s) = snd (rand_resize seedg next draw dev' seed n p' s').
Proof. exact c133_reproducible. Qed.
Print Assumptions C133_reproducible.

(** C133: so the second of two calls repeats the first when a call with another seed came in between. *)
Theorem C133_between : forall (G : Type) (seedg : Z -> G) (next : G -> G) (draw : R -> R -> G -> R * G) (dev seed other : Z) (n m : nat) (p q : point R) (s : rstate),
  seed <> 0%Z -> other <> seed -> rs_param s <> seed ->
  let s1 := snd (rand_resize seedg next draw dev seed n p s) in let s2 := snd (rand_resize seedg next draw dev other m q s1) in
  p_x (fst (rand_resize seedg next draw dev seed n p s2)) = p_x (fst (rand_resize seedg next draw dev seed n p s)).
Proof. exact c133_between. Qed.
Print Assumptions C133_between.

(** C133: but two calls in a row with one seed do not: the second point continues the sequence, the two are the halves of one point of twice the size. *)
Theorem C133_again_refuted : forall (G : Type) (seedg : Z -> G) (next : G -> G) (draw : R -> R -> G -> R * G) (dev seed : Z) (n m : nat) (p q : point R) (s : rstate),
  let s1 := snd (rand_resize seedg next draw dev seed n p s) in
  p_x (fst (rand_resize seedg next draw dev seed (n + m) p s)) = p_x (fst (rand_resize seedg next draw dev seed n p s)) ++ p_x (fst (rand_resize seedg next draw dev seed m q s1)).
Proof. exact c133_again_refuted. Qed.
Print Assumptions C133_again_refuted.

Example C133_values_ex : (forall g, 0 <= fst (tdraw 0 1 g) < 1) /\ p_y (fst (rand_resize Z.to_nat S tdraw 9 7 2 (mkPoint [] 3%Z 4%Z 0) (r_start Z.to_nat 5))) = 0%Z.
Proof. exact c133_values_ex. Qed.

Example C133_same_size_ex : (forall g, 0 <= fst (tdraw 0 1 g) < 1) /\ length (p_x (mkPoint [1; 2] 3%Z 4%Z 0)) = 2%nat.
Proof. exact c133_same_size_ex. Qed.

Example C133_new_ex : forall g, 0 <= fst (tdraw 0 1 g) < 1.
Proof. exact c133_new_ex. Qed.

Example C133_reproducible_ex : 7%Z <> 0%Z /\ rs_param (r_start Z.to_nat 5) <> 7%Z /\ rs_param (mkRs 3 3 8%nat) <> 7%Z.
Proof. exact c133_reproducible_ex. Qed.

Example C133_between_ex : 7%Z <> 0%Z /\ 8%Z <> 7%Z /\ rs_param (r_start Z.to_nat 5) <> 7%Z.
Proof. exact c133_between_ex. Qed.

Example C133_again_refuted_ex : p_x (fst (rand_resize Z.to_nat S tdraw 9 7 1 (mkPoint [] 3%Z 4%Z 0) (r_start Z.to_nat 5))) <>
  p_x (fst (rand_resize Z.to_nat S tdraw 9 7 1 (mkPoint [] 3%Z 4%Z 0) (snd (rand_resize Z.to_nat S tdraw 9 7 1 (mkPoint [] 3%Z 4%Z 0) (r_start Z.to_nat 5))))).
Proof. exact c133_again_refuted_ex. Qed.

