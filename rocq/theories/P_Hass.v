(** Property theorems: The Hassanat distance on points with coordinates of any sign (C28).
    Each is closed by the lemma of the same (lower-case) name in T_Hass.v. *)
From Coq Require Import ZArith Bool List Reals Lra Lia Psatz.
From Verif Require Import Base ListLib M_Data M_Point S_Point L_Vec L_Point T_Metric.
From Verif Require Import T_Hass.
Import ListNotations.
Local Open Scope R_scope.

(** C28: on points of any sign the Hassanat functor is defined and symmetric, lies between zero and the number of coordinates,
    and is zero exactly when the coordinates that differ are at most zero in both points. *)
Theorem C28_hassanat_signs : forall (tiny : R) (p q : vec), length p = length q ->
  exists r, distance tiny Hassanat p q = Ok (Some r) /\ distance tiny Hassanat q p = Ok (Some r) /\ 0 <= r <= INR (length p) /\
    (r = 0 <-> forall i x y, nth_error p i = Some x -> nth_error q i = Some y -> x = y \/ (x <= 0 /\ y <= 0)).
Proof. exact c28_hassanat_signs. Qed.
Print Assumptions C28_hassanat_signs.

Example C28_hassanat_signs_ex : length [1; -2] = length [3; 1/2].
Proof. exact c28_hassanat_signs_ex. Qed.

(** C28: so different points can be at distance zero. *)
Theorem C28_hassanat_negative_refuted : forall tiny : R, exists p q : vec, length p = length q /\ p <> q /\ distance tiny Hassanat p q = Ok (Some 0).
Proof. exact c28_hassanat_negative_refuted. Qed.
Print Assumptions C28_hassanat_negative_refuted.

(** C28: and below zero the coordinate does not matter: against a positive coordinate every negative one is equally far. *)
Theorem C28_hassanat_flat : forall tiny x y : R, x < 0 -> 0 < y -> distance tiny Hassanat [x] [y] = Ok (Some (2 * y / (1 + 2 * y))).
Proof. exact c28_hassanat_flat. Qed.
Print Assumptions C28_hassanat_flat.

Example C28_hassanat_flat_ex : -3 < 0 /\ 0 < 2.
Proof. exact c28_hassanat_flat_ex. Qed.

