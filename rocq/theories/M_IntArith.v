(** Model of the operators of int points with a double: /repo/subprojects/ufjfmltk-core/include/ufjfmltk/core/Point.hpp:371-497, 742-858, evaluated to a new point. Doubles are reals. *)
From Coq Require Import ZArith Bool List Reals.
From Verif Require Import Base Loop M_Data M_Mod M_IntStat.
Import ListNotations.
Local Open Scope Z_scope.

(** Conversion of a double to int: towards zero, undefined out of range. *)
Definition cut (r : R) : outcome Z := icheck (rtrunc r).
(** Division of ints; undefined for 0, and when the quotient is no int. *)
Definition idiv (x m : Z) : outcome Z := if Z.eqb m 0 then UB else icheck (Z.quot x m).
(** Point.hpp:760-763 (p + s), 378-384 (p += s): computed in double, then converted (ExprOps.hpp:56-58). *)
Definition iadd_d (p : list Z) (s : R) : outcome (list Z) := map_outcome (fun x => cut (IZR x + s)) p.
(** Point.hpp:825-828 (p * s), 457-463 (p *= s). *)
Definition imul_d (p : list Z) (s : R) : outcome (list Z) := map_outcome (fun x => cut (IZR x * s)) p.
(** Point.hpp:790-793 (p - s): of the operators only the one for an int fits, the number is converted first. *)
Definition isub_d (p : list Z) (s : R) : outcome (list Z) := let* c := cut s in map_outcome (fun x => icheck (x - c)) p.
(** Point.hpp:843-846 (p / s): likewise. *)
Definition idiv_d (p : list Z) (s : R) : outcome (list Z) := let* c := cut s in map_outcome (fun x => idiv x c) p.
(** p -= s, Point.hpp:423-429: computed in double. *)
Definition isub_assign (p : list Z) (s : R) : outcome (list Z) := map_outcome (fun x => cut (IZR x - s)) p.
(** p /= s, Point.hpp:491-497; an infinite quotient and 0/0 cannot be converted. *)
Definition idiv_assign (p : list Z) (s : R) : outcome (list Z) := map_outcome (fun x => if Req_EM_T s 0 then UB else cut (IZR x / s)) p.
