(** Specification of normalisation. *)
From Coq Require Import ZArith List Reals.
From Verif Require Import M_Data S_Ens.
Import ListNotations.
Local Open Scope R_scope.
(** |v|^p for p > 0. *)
Definition absp (p v : R) : R := if Req_EM_T v 0 then 0 else Rpower (Rabs v) p.
(** The sum of the |v|^p: the p-norm to the power p. *)
Definition normp (p : R) (x : list R) : R := sum (map (absp p) x).
(** [q] is [o] with the constant feature 1 appended, scaled by a positive number to p-norm one. *)
Definition normalised (p : R) (o q : point R) : Prop :=
  p_y q = p_y o /\ p_id q = p_id o /\ p_alpha q = p_alpha o /\ (exists c, 0 < c /\ p_x q = map (Rmult c) (p_x o ++ [1])) /\ normp p (p_x q) = 1.
