(** Model of the remainder of a point and a number: /repo/subprojects/ufjfmltk-core/include/ufjfmltk/core/{ExprOps,Point}.hpp, evaluated to a new point (M_Point.v, M_Lazy.v have the laziness).
    Of the combinations of element types those that compile: int points with an int or a double, and double points with an int (for a double point and a double two
    specialisations of A_Mod fit and neither is the more special one). Numbers of type double are reals. *)
From Coq Require Import ZArith Bool List Reals.
From Verif Require Import Base Loop M_Data.
Import ListNotations.
Local Open Scope Z_scope.

(** ExprOps.hpp:198-200: [%] on 32-bit ints; undefined for a zero divisor, and when the quotient is not an int. *)
Definition imod (x m : Z) : outcome Z := if Z.eqb m 0 then UB else if Z.eqb x (- 2 ^ 31) && Z.eqb m (-1) then UB else Ok (Z.rem x m).
(** Rounding towards zero. *)
Definition rtrunc (x : R) : Z := if Rle_dec 0 x then Int_part x else - Int_part (- x).
(** ExprOps.hpp:208-210, 218-220: std::fmod; [None]: not a number. *)
Definition fmod (x y : R) : option R := if Req_EM_T y 0 then None else Some (x - IZR (rtrunc (x / y)) * y)%R.
(** Point.hpp:723-727, ExprOps.hpp:193-201: an int point and an int. *)
Definition pmod_ii (p : list Z) (m : Z) : outcome (list Z) := map_outcome (fun x => imod x m) p.
(** Point.hpp:729-733, ExprOps.hpp:203-211: an int point and a double; the result is converted to int, undefined for a value that is not a number. *)
Definition pmod_id (p : list Z) (m : R) : outcome (list Z) := map_outcome (fun x => match fmod (IZR x) m with Some r => Ok (rtrunc r) | None => UB end) p.
(** Point.hpp:729-733, ExprOps.hpp:213-221: a double point and an int. *)
Definition pmod_di (p : list R) (m : Z) : list (option R) := map (fun x => fmod x (IZR m)) p.
