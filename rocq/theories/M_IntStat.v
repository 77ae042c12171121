(** Model of the statistics of int points: /repo/subprojects/ufjfmltk-core/include/ufjfmltk/core/Statistics.hpp:101-105, 117-121, 140-144, 176-180 with T = int (M_Stat.v has T = double).
    The conversion of a 64-bit number to double is exact here; std::pow(x, 2) is. *)
From Coq Require Import ZArith Bool List Reals.
From Verif Require Import Base Loop M_Data.
Import ListNotations.
Local Open Scope Z_scope.

(** An int result; signed overflow is undefined. *)
Definition icheck (z : Z) : outcome Z := if Z.leb (- 2 ^ 31) z && Z.leb z (2 ^ 31 - 1) then Ok z else UB.
(** Point.hpp:285-293: sum() in int. *)
Definition isum (l : list Z) : outcome Z := ofold (fun s v => icheck (s + v)) l 0.
(** Statistics.hpp:101-105: an int divided by a size_t is converted to it, modulo 2^64, and the quotient is that of whole numbers. *)
Definition imean (x : list Z) : outcome Z :=
  match x with
  | [] => Abort
  | _ => let* s := isum x in Ok ((s mod 2 ^ 64) / Z.of_nat (length x))
  end.
(** p - mean(p): the operator for int points takes an int (Point.hpp:790-793), so the mean is converted (undefined if it is no int), then subtracted (ExprOps.hpp:104-107). *)
Definition idev (x : list Z) : outcome (list Z) := let* m := imean x in let* c := icheck m in map_outcome (fun v => icheck (v - c)) x.
(** Statistics.hpp:140-144. *)
Definition ivar (x : list Z) : outcome Z :=
  let* d := idev x in
  let* q := map_outcome (fun v => icheck (v * v)) d in
  let* s := isum q in
  Ok ((s mod 2 ^ 64) / Z.of_nat (length x)).
(** Statistics.hpp:117-121. *)
Definition istd (x : list Z) : outcome R := let* v := ivar x in Ok (sqrt (IZR v)).
(** Statistics.hpp:176-180; the divisor is a double; [None]: 0/0. *)
Definition icovar (x y : list Z) : outcome (option R) :=
  if Nat.eqb (length x) (length y) then
    let* d := idev x in
    let* e := idev y in
    let* q := map_outcome (fun p => icheck (fst p * snd p)) (combine d e) in
    let* s := isum q in
    Ok (if Nat.eqb (length y) 1 then None else Some (IZR s / (INR (length y) - 1))%R)
  else Abort.
