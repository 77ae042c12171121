(** Specification of the decision function and of perceptron training in double precision. *)
From Coq Require Import ZArith Bool List Permutation Reals.
From Flocq Require Import Core BinarySingleNaN.
From Verif Require Import Base M_Data L_Vec M_Perc M_F64.
Import ListNotations.
Local Open Scope R_scope.

(** The real number a double stands for, and the doubles that stand for one. *)
Definition rv (x : b64) : R := B2R x.
Definition fin (x : b64) : Prop := is_finite x = true.
(** The j-th number of a list. *)
Definition at64 (v : list b64) (j : nat) : R := rv (nth j v fzero).
(** The decision value in exact arithmetic, and the sum of the absolute values of its terms. *)
Definition exact_value (n : nat) (w x : list b64) (b : b64) : R := rv b + sumn n (fun j => at64 w j * at64 x j).
Definition magnitude (n : nat) (w x : list b64) (b : b64) : R := Rabs (rv b) + sumn n (fun j => Rabs (at64 w j * at64 x j)).
(** Half the distance from 1 to the next double, 2^-53, and the smallest positive double, 2^-1074. *)
Definition half_ulp : R := bpow radix2 (-53).
Definition tiny : R := bpow radix2 (-1074).
(** How far the computed decision value may be from the exact one. *)
Definition error_bound (n : nat) (a : R) : R := 2 * (INR n + 1) * half_ulp * a + INR n * tiny.
(** An integer. *)
Definition whole (r : R) : Prop := exists z : Z, r = IZR z.
(** A dataset of doubles as a dataset of reals. *)
Definition in_reals (d : data b64) : data R :=
  mkData (map (fun p => mkPoint (map rv (p_x p)) (p_y p) (p_id p) (rv (p_alpha p))) (d_points d)) (d_fnames d) (d_index d) (d_cnames d) (d_classes d) (d_dist d)
    (d_size d) (d_dim d) (d_isempty d) (d_normalized d) (d_cdist d) (d_class d).
(** All coordinates are integers of absolute value at most [m]. *)
Definition whole_data (m : Z) (d : data b64) : Prop :=
  forall p x, In p (d_points d) -> In x (p_x p) -> fin x /\ exists z : Z, rv x = IZR z /\ (Z.abs z <= m)%Z.
(** All points have the dimension of the first; the index is a permutation of the positions; labels are 1 and -1. *)
Definition even64 (d : data b64) : Prop := forall p, In p (d_points d) -> length (p_x p) = dim d.
Definition two_labels (d : data b64) : Prop := forall p, In p (d_points d) -> p_y p = 1%Z \/ p_y p = (-1)%Z.
(** The index lists every position of the dataset once. *)
Definition all_once (d : data b64) : Prop := Permutation (d_index d) (map Z.of_nat (seq 0 (size d))).
(** The double-precision state and the state over the reals agree on the weights, the bias, the number of updates and the mistakes of the last pass. *)
Definition agree (s : fstate) (t : pstate) : Prop :=
  Forall fin (fs_w s) /\ map rv (fs_w s) = ps_w t /\ fin (fs_b s) /\ rv (fs_b s) = ps_b t /\ fs_ctot s = ps_ctot t /\ fs_e s = ps_e t.
