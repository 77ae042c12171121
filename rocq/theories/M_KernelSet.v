(** Model of giving a kernel object its matrix from outside, and of reading rows.
    /repo/subprojects/ufjfmltk-core/include/ufjfmltk/core/Kernel.hpp:88, 141-157, 159-175, 338-386, over the reals. The calls themselves are those of M_Kernel. *)
From Coq Require Import ZArith Bool List Reals.
From Verif Require Import Base M_Data M_Point L_Vec Loop M_Kernel.
Import ListNotations.

(** Calls on a kernel object: those of M_Kernel, and setKernelMatrix (Kernel.hpp:371-374). *)
Inductive kcall := KCall (o : kop) | KGive (m : list (list R)).
(** One call, Kernel.hpp:88, 159-374. *)
Definition kcalled (pw : R -> R -> R) (k : kernel) (c : kcall) : outcome kernel :=
  match c with KCall o => kapply pw k o | KGive m => Ok (setKernelMatrix m k) end.
(** A history of calls, Kernel.hpp:88, 159-374. *)
Definition kcalls (pw : R -> R -> R) (cs : list kcall) (k : kernel) : outcome kernel := ofold (kcalled pw) cs k.
(** Kernel.hpp:153-156: operator[](idx); an index beyond the matrix fails the assertion. *)
Definition krow (k : kernel) (i : nat) : outcome (list R) := match nth_error (k_K k) i with Some r => Ok r | None => Abort end.
(** Kernel.hpp:141-144: operator()(a, b) on two points: the assertion, then function(). *)
Definition kpair (pw : R -> R -> R) (k : kernel) (a b : point R) : outcome R :=
  if Nat.eqb (length (p_x a)) (length (p_x b)) then kfun pw k a b (length (p_x a)) None else Abort.
(** Kernel.hpp:146-151: operator()(samples, f); a custom kernel without a function fails the assertion. *)
Definition kdata (pw : R -> R -> R) (k : kernel) (d : data R) (f : option custom) : outcome kernel :=
  match k_type k, f with Custom, None => Abort | _, _ => compute pw k d f end.
