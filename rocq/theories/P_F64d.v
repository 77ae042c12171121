(** Property theorems: C143: distances in double precision.
    Each is closed by the lemma of the same (lower-case) name in T_F64d.v. *)
From Coq Require Import SpecFloat ZArith Bool List Reals Lia Lra Psatz.
From Flocq Require Import Core BinarySingleNaN Plus_error Relative.
From Verif Require Import Base ListLib M_Data L_Vec L_Valid Loop M_Perc M_F64 S_F64 L_F64 M_F64d S_F64d L_F64d.
From Verif Require Import T_F64d.
Import ListNotations.
Local Open Scope R_scope.

(** C143: the distance from p to q and the one from q to p are the same double (or end the same way), for all doubles and sizes. *)
Theorem C143_symmetric : forall k p q, dist64 k p q = dist64 k q p.
Proof. exact c143_symmetric. Qed.
Print Assumptions C143_symmetric.

(** C143: between points of finite coordinates and the same size a distance is never not-a-number and never negative. *)
Theorem C143_nonneg : forall k p q, finite64 p -> finite64 q -> length p = length q -> exists r, dist64 k p q = Ok r /\ nonneg64 r.
Proof. exact c143_nonneg. Qed.
Print Assumptions C143_nonneg.

(** C143: the Manhattan distance is 0 exactly between points that stand for the same numbers. *)
Theorem C143_zero : forall p q, finite64 p -> finite64 q -> length p = length q -> (fmanhattan p q = Ok fzero <-> map rv p = map rv q).
Proof. exact c143_zero. Qed.
Print Assumptions C143_zero.

(** C143: if it does not overflow, the Manhattan distance has a relative error of at most n + 1 roundings. *)
Theorem C143_manhattan : forall p q, finite64 p -> finite64 q -> length p = length q -> (1 + half_ulp) ^ (1 + length p) * exact_l1 p q <= bpow radix2 1023 ->
  exists r, fmanhattan p q = Ok r /\ fin r /\ (1 - half_ulp) ^ (1 + length p) * exact_l1 p q <= rv r <= (1 + half_ulp) ^ (1 + length p) * exact_l1 p q.
Proof. exact c143_manhattan. Qed.
Print Assumptions C143_manhattan.

(** C143: if it does not overflow and no difference is so small that its square is lost, the square of the Euclidean distance has a relative error of at most n + 5 roundings. *)
Theorem C143_euclidean : forall p q, finite64 p -> finite64 q -> length p = length q -> spread p q -> (1 + half_ulp) ^ (5 + length p) * exact_sq p q <= bpow radix2 1023 ->
  exists r, feuclidean p q = Ok r /\ fin r /\ 0 <= rv r /\ (1 - half_ulp) ^ (5 + length p) * exact_sq p q <= rv r * rv r <= (1 + half_ulp) ^ (5 + length p) * exact_sq p q.
Proof. exact c143_euclidean. Qed.
Print Assumptions C143_euclidean.

(** C143: so two points whose exact distances differ by more than the rounding errors are ordered by the computed distances as they should be. *)
Theorem C143_order : forall p q1 q2, finite64 p -> finite64 q1 -> finite64 q2 -> length p = length q1 -> length p = length q2 -> spread p q1 -> spread p q2 ->
  (1 + half_ulp) ^ (5 + length p) * exact_sq p q2 <= bpow radix2 1023 -> (1 + half_ulp) ^ (5 + length p) * exact_sq p q1 < (1 - half_ulp) ^ (5 + length p) * exact_sq p q2 ->
  exists r1 r2, feuclidean p q1 = Ok r1 /\ feuclidean p q2 = Ok r2 /\ fin r1 /\ fin r2 /\ rv r1 < rv r2 /\ flt r1 r2 = true.
Proof. exact c143_order. Qed.
Print Assumptions C143_order.

(** C143: what is computed as Chebyshev distance is at least 2^-1022, also between a point and itself; otherwise it is the largest rounded difference. *)
Theorem C143_chebyshev_refuted : forall p q, finite64 p -> finite64 q -> length p = length q -> (forall j, (j < length p)%nat -> Rabs (at64 p j - at64 q j) <= bpow radix2 1023) ->
  exists r, fchebyshev p q = Ok r /\ fin r /\ bpow radix2 (-1022) <= rv r /\ (forall j, (j < length p)%nat -> (1 - half_ulp) * Rabs (at64 p j - at64 q j) <= rv r) /\
    (rv r = bpow radix2 (-1022) \/ exists j, (j < length p)%nat /\ rv r <= (1 + half_ulp) * Rabs (at64 p j - at64 q j)).
Proof. exact c143_chebyshev_refuted. Qed.
Print Assumptions C143_chebyshev_refuted.

(** C143: points whose coordinates all differ by at most 2^-538 are at Euclidean distance 0. *)
Theorem C143_underflow_refuted : forall p q, finite64 p -> finite64 q -> length p = length q -> (forall j, (j < length p)%nat -> Rabs (at64 p j - at64 q j) <= bpow radix2 (-538)) -> feuclidean p q = Ok fzero.
Proof. exact c143_underflow_refuted. Qed.
Print Assumptions C143_underflow_refuted.

(** C143: finite points can be at infinite distance in all three. *)
Theorem C143_overflow_refuted : exists p q, finite64 p /\ finite64 q /\ length p = length q /\ forall k, dist64 k p q = Ok (B754_infinity false).
Proof. exact c143_overflow_refuted. Qed.
Print Assumptions C143_overflow_refuted.

(** C143: the triangle inequality fails by rounding: 1, -2^-54 and -3 2^-54 on a line. *)
Theorem C143_triangle_refuted : forall k, k = Man \/ k = Che -> exists p q s a b c, finite64 p /\ finite64 q /\ finite64 s /\ dist64 k p q = Ok a /\ dist64 k q s = Ok b /\ dist64 k p s = Ok c /\ fin a /\ fin b /\ fin c /\ rv a + rv b < rv c.
Proof. exact c143_triangle_refuted. Qed.
Print Assumptions C143_triangle_refuted.

(** C143: the hypotheses hold of (3, 0) and (0, 4), at distance 5; (3, 0) is at Chebyshev distance 2^-1022 from itself. *)
Example C143_euclidean_ex : let p := [f2 3 0; f2 0 0] in let q := [f2 0 0; f2 4 0] in
  finite64 p /\ finite64 q /\ spread p q /\ (1 + half_ulp) ^ (5 + length p) * exact_sq p q <= bpow radix2 1023 /\ (1 + half_ulp) ^ (5 + length p) * exact_l1 p q <= bpow radix2 1023 /\
  feuclidean p q = Ok (f2 5 0) /\ fmanhattan p q = Ok (f2 7 0) /\ fchebyshev p p = Ok fmin_normal.
Proof. exact c143_euclidean_ex. Qed.

(** C143: two different points at Euclidean distance 0: 2^-600 and 0. *)
Example C143_underflow_refuted_ex : finite64 [f2 1 (-600)] /\ f2 1 (-600) <> fzero /\ feuclidean [f2 1 (-600)] [fzero] = Ok fzero.
Proof. exact c143_underflow_refuted_ex. Qed.

