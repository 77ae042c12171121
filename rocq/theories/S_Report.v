(** Specification vocabulary for the reports of kfold and kkfold. *)
From Coq Require Import ZArith Bool List Reals.
From Verif Require Import M_Data.
Import ListNotations.

(** The (label, answer) pairs of the test points of a list of (training, test) pairs, each classifier being trained on its training part. *)
Definition answers {T C} (train : data T -> C) (evaluate : C -> point T -> Z) (pairs : list (data T * data T)) : list (Z * Z) :=
  flat_map (fun p => map (fun x => (p_y x, evaluate (train (fst p)) x)) (d_points (snd p))) pairs.
(** Number of pairs with a property. *)
Definition num (f : Z * Z -> bool) (l : list (Z * Z)) : nat := length (filter f l).
(** The four outcomes; -1 is the negative label. *)
Definition true_pos (a : Z * Z) : bool := negb (Z.eqb (fst a) (-1)) && Z.eqb (fst a) (snd a).
Definition false_pos (a : Z * Z) : bool := Z.eqb (fst a) (-1) && negb (Z.eqb (fst a) (snd a)).
Definition true_neg (a : Z * Z) : bool := Z.eqb (fst a) (-1) && Z.eqb (fst a) (snd a).
Definition false_neg (a : Z * Z) : bool := negb (Z.eqb (fst a) (-1)) && negb (Z.eqb (fst a) (snd a)).
(** The sum over j = 1, ..., n of g j, on numbers and on reals. *)
Definition upto (n : nat) (g : nat -> nat) : nat := list_sum (map g (seq 1 n)).
Definition rupto (n : nat) (g : nat -> R) : R := fold_right Rplus 0%R (map g (seq 1 n)).
(** The share of [f] among [f] and [g]. *)
Definition share (f g : Z * Z -> bool) (l : list (Z * Z)) : R := (INR (num f l) / INR (num f l + num g l))%R.
