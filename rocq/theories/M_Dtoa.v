(** Model of utils::dtoa, /repo/subprojects/ufjfmltk-core/src/Utils.cpp:94-166. A finite double is a rational; the arithmetic of the function (log10, pow,
    division, subtraction) is exact, its rounding in double precision is left out. *)
From Coq Require Import ZArith QArith Qround Ascii Bool String List.
From Verif Require Import Base M_Str.
Import ListNotations.
Local Open Scope nat_scope.

(** A double (Utils.cpp:94). *)
Inductive double := NaN | Inf (negative : bool) | Num (q : Q).
(** pow(10.0, m), Utils.cpp:119, 128. *)
Definition ten (m : Z) : Q := Qpower 10 m.
(** The largest k with 10^k <= n; n >= 1 and less than 10^f (Utils.cpp:111). *)
Fixpoint log_from (f : nat) (n : Q) : Z := match f with O => 0%Z | S f => if Qle_bool 10 n then (1 + log_from f (n / 10))%Z else 0%Z end.
(** m = log10(n), cut towards zero (Utils.cpp:111); the numerator or denominator bounds the number of steps. *)
Definition ilog10 (n : Q) : Z :=
  if Qle_bool 1 n then log_from (Z.to_nat (Z.log2 (Qnum n) + 1)) n else (- log_from (Z.to_nat (Z.log2 (Zpos (Qden n)) + 1)) (/ n))%Z.
(** 1E-9: /repo/subprojects/ufjfmltk-core/include/ufjfmltk/core/Utils.hpp:8. *)
Definition precision : Q := 1 # 1000000000.
(** Utils.cpp:127-137: the digits. After [f] of them the buffer is full. *)
Fixpoint convert (f : nat) (n : Q) (m : Z) : outcome str :=
  if negb (Qle_bool n precision) || Z.leb 0 m then
    match f with
    | O => UB
    | S f =>
        let weight := ten m in
        let d := Qfloor (n / weight) in
        let n' := (n - inject_Z d * weight)%Q in
        let dot := if Z.eqb m 0 && negb (Qle_bool n' 0) then ["."%char] else [] in
        let* r := convert f n' (m - 1) in
        Ok (digit d :: dot ++ r)
    end
  else Ok [].
(** Utils.cpp:138-162: the exponent; m1 is not 0 there. *)
Definition exponent (m1 : Z) : outcome str :=
  let* ds := itos_digits 32 (Z.abs m1) in
  Ok ("e"%char :: (if Z.ltb 0 m1 then "+"%char else "-"%char) :: rev ds).
(** MAX_NUMBER_STRING_SIZE with the terminator: Utils.hpp:9, Utils.cpp:163. *)
Definition in_buffer (s : str) : outcome str := if Nat.ltb (List.length s) 32 then Ok s else UB.
(** Utils.cpp:94-166. *)
Definition dtoa (x : double) : outcome str :=
  match x with
  | NaN => Ok (list_ascii_of_string "nan")
  | Inf _ => Ok (list_ascii_of_string "inf")
  | Num q =>
      if Qeq_bool q 0 then Ok (list_ascii_of_string "0")
      else
        let neg := negb (Qle_bool 0 q) in
        let n := if neg then (- q)%Q else q in
        let m := ilog10 n in
        let useExp := Z.leb 14 m || (neg && Z.leb 9 m) || Z.leb m (-9) in
        let m1 := if useExp then if Z.ltb m 0 then (m - 1)%Z else m else 0%Z in
        let n' := if useExp then (n / ten m1)%Q else n in
        let m' := if useExp then 0%Z else if Z.ltb m 1 then 0%Z else m in
        let* s := convert 32 n' m' in
        let* e := if useExp then exponent m1 else Ok [] in
        in_buffer ((if neg then ["-"%char] else []) ++ s ++ e)
  end.
