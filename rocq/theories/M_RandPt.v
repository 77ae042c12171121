(** Model of the random points: /repo/subprojects/ufjfmltk-core/include/ufjfmltk/core/Point.hpp:565-610, on top of the generator of M_Random (Random.cpp:12-39).
    The value a new distribution(lo, hi) takes from a generator state is a parameter; coordinates are reals. Single-threaded calls only; seeds fit in unsigned int. *)
From Coq Require Import ZArith List Reals.
From Verif Require Import Base M_Data M_Random.
Import ListNotations.
Local Open Scope nat_scope.

Section Rand.
Context {G : Type} (seedg : Z -> G) (next : G -> G) (draw : R -> R -> G -> R * G).
(** Random.cpp:33-38: floatInRange. *)
Definition r_float (lo hi : R) (s : rstate (G := G)) : R * rstate (G := G) := let (v, g) := draw lo hi (rs_gen s) in (v, mkRs (rs_param s) (rs_seed s) g).
(** Point.hpp:570-572: the loop over the coordinates. *)
Fixpoint r_floats (n : nat) (lo hi : R) (s : rstate (G := G)) : list R * rstate (G := G) :=
  match n with
  | O => ([], s)
  | S k => let (v, s1) := r_float lo hi s in let (vs, s2) := r_floats k lo hi s1 in (v :: vs, s2)
  end.
(** Point.hpp:565-575: random_init(p, size, seed); the point keeps its id and alpha. *)
Definition rand_resize (dev seed : Z) (n : nat) (p : point R) (s : rstate (G := G)) : point R * rstate (G := G) :=
  let (xs, s2) := r_floats n 0 1 (fst (r_init seedg next dev seed s)) in (mkPoint xs 0%Z (p_id p) (p_alpha p), s2).
(** Point.hpp:601-610: random_init(p, seed); the size is kept. *)
Definition rand_point (dev seed : Z) (p : point R) (s : rstate (G := G)) : point R * rstate (G := G) :=
  let (xs, s2) := r_floats (length (p_x p)) 0 1 (fst (r_init seedg next dev seed s)) in (mkPoint xs 0%Z (p_id p) (p_alpha p), s2).
(** Point.hpp:589-599 (and 577-587 with 0 and 1): random_init(lo, hi, size, seed): a new point, of id 0 and alpha 0. *)
Definition rand_new (dev seed : Z) (lo hi : R) (n : nat) (s : rstate (G := G)) : point R * rstate (G := G) :=
  let (xs, s2) := r_floats n lo hi (fst (r_init seedg next dev seed s)) in (mkPoint xs 0%Z 0%Z 0%R, s2).
End Rand.
