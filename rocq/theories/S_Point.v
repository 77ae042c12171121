(** Specification of element-wise point expressions, independent of the evaluation model. *)
From Coq Require Import List Reals.
From Verif Require Import Base M_Point L_Vec.
Import ListNotations.

(** Arithmetic on one coordinate; [None] when the result is not a real number. *)
Definition arith (o : bop) (x y : R) : option R :=
  match o with Add => Some (x + y) | Sub => Some (x - y) | Mul => Some (x * y) | Div => if Req_EM_T y 0 then None else Some (x / y) end%R.
Definition func (o : uop) (x : R) : option R :=
  match o with
  | Log => if Rlt_dec 0 x then Some (ln x) else None
  | Exp => Some (exp x)
  | Abs => Some (Rabs x)
  | Pow1 => Some x
  | Pow2 => Some (x * x)%R
  | PowHalf => if Rle_dec 0 x then Some (sqrt x) else None
  end.
(** Value of an expression at coordinate [i]. *)
Fixpoint den (e : px) (i : nat) : option R :=
  match e with
  | V v => Some (nth i v 0%R)
  | Sc s => Some s
  | B o a b => match den a i, den b i with Some x, Some y => arith o x y | _, _ => None end
  | U o a => match den a i with Some x => func o x | None => None end
  end.
(** Every vector in the expression has dimension [n]. *)
Fixpoint dims (n : nat) (e : px) : Prop :=
  match e with V v => length v = n | Sc _ => True | B _ a b => dims n a /\ dims n b | U _ a => dims n a end.
(** The expression mentions a vector. *)
Fixpoint hasv (e : px) : bool :=
  match e with V _ => true | Sc _ => false | B _ a b => orb (hasv a) (hasv b) | U _ a => hasv a end.
