(** Model of the norms and the normalisation of points: /repo/subprojects/ufjfmltk-core/include/ufjfmltk/core/Point.hpp:516-519, 650-676.
    Numbers of type double are reals, and infinite; std::pow is exact. *)
From Coq Require Import ZArith Bool List Reals.
From Verif Require Import Base Loop M_Data M_Norm M_Mod.
Import ListNotations.

(** A double that is not negative: a number or infinite. *)
Inductive ext := Fin (r : R) | Inf.
(** std::pow(x, p) for x not negative and p not 0. *)
Definition cpow (x : ext) (p : R) : ext :=
  match x with
  | Fin x => if Rlt_dec 0 x then Fin (Rpower x p) else if Rlt_dec 0 p then Fin 0 else Inf
  | Inf => if Rlt_dec 0 p then Inf else Fin 0
  end.
(** operator+ on such numbers. *)
Definition eadd (a b : ext) : ext := match a, b with Fin a, Fin b => Fin (a + b) | _, _ => Inf end.
(** Point.hpp:655: mltk::pow(mltk::abs(x), p).sum() (285-293, ExprOps.hpp:180-191). *)
Definition pow_sum (p : R) (x : list R) : ext := fold_left (fun s v => eadd s (cpow (Fin (Rabs v)) p)) x (Fin 0).
(** Point.hpp:543-550, 652-654: the largest absolute value, starting at [tiny], numeric_limits<double>::min(), which is positive. *)
Definition max_abs (tiny : R) (x : list R) : R := fold_left (fun m v => if Rlt_dec m (Rabs v) then Rabs v else m) x tiny.
(** Point.hpp:650-656 (and 516-519); NORM_LINF is 0 (Utils.hpp:20). *)
Definition pnorm (tiny : R) (p : Z) (x : list R) : ext := if Z.eqb p 0 then Fin (max_abs tiny x) else cpow (pow_sum (IZR p) x) (1 / IZR p).
(** Point.hpp:662-667, double points, q > 0; [None]: 0/0. *)
Definition pnormalize_q (q : R) (x : list R) : list (option R) :=
  match cpow (pow_sum q x) (1 / q) with
  | Fin n => map (fun v => if Req_EM_T n 0 then None else Some (v / n)%R) x
  | Inf => map (fun _ => Some 0%R) x
  end.
(** Point.hpp:669-676: the point returned, and the vector given afterwards. *)
Definition vnormalize_q (q : R) (x : list R) : list (option R) * list (option R) := let r := pnormalize_q q x in (r, r).
(** Point.hpp:664 on an int point: the powers and their sum are ints. *)
Definition ipow_sum (q : nat) (x : list Z) : outcome Z :=
  ofold (fun s v => let c := (Z.abs v ^ Z.of_nat q)%Z in if Z.ltb (2 ^ 31 - 1) c then UB else if Z.ltb (2 ^ 31 - 1) (s + c) then UB else Ok (s + c)%Z) x 0%Z.
(** Point.hpp:662-667, int points (q an integer, at least 1): the quotients (Point.hpp:492-497) are converted to int, undefined for 0/0. *)
Definition inormalize (q : nat) (x : list Z) : outcome (list Z) :=
  let* s := ipow_sum q x in
  let n := rpow (IZR s) (1 / INR q) in
  map_outcome (fun v => if Req_EM_T n 0 then UB else Ok (rtrunc (IZR v / n))) x.
