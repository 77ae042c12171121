(** Specification vocabulary for the matrix of a kernel object: where it comes from. *)
From Coq Require Import ZArith List Reals.
From Verif Require Import M_Data M_Point L_Vec Loop M_Kernel S_Kernel M_KernelSet.
Import ListNotations.

(** The matrix was given from outside, or is that of a dataset under a kernel type and parameter. *)
Inductive source := Given (m : list (list R)) | Of (d : data R) (t : ktype) (par : R).
(** What a caller has to remember: the source, the type and parameter in force, and whether compute() will be ignored. *)
Record memo := mkMemo { m_src : source; m_type : ktype; m_par : R; m_done : bool }.
(** The effect of a call: setType, setParam and recompute let the next compute() through; a compute() that is let through replaces the matrix and
    shuts out the following ones; a given matrix replaces the matrix and does nothing else. *)
Definition remember (s : memo) (c : kcall) : memo :=
  match c with
  | KGive m => mkMemo (Given m) (m_type s) (m_par s) (m_done s)
  | KCall (KCompute d _) => if m_done s then s else mkMemo (Of d (m_type s) (m_par s)) (m_type s) (m_par s) true
  | KCall (KSetType t) => mkMemo (m_src s) t (m_par s) false
  | KCall (KSetParam p) => mkMemo (m_src s) (m_type s) p false
  | KCall KRecompute => mkMemo (m_src s) (m_type s) (m_par s) false
  | KCall (KH _) | KCall (KHwd _ _) => s
  end.
(** The matrix a source stands for. *)
Definition matrix_of (pw : R -> R -> R) (s : source) : list (list R) :=
  match s with
  | Given m => m
  | Of d t par => table (size d) (fun i j => kval pw t par (fun _ _ _ => 0%R) (dim d) (pt d i) (pt d j))
  end.
(** Datasets computed have points of one dimension; the type is never Custom. *)
Definition usual (c : kcall) : Prop :=
  match c with KCall (KCompute d _) => rect d | KCall (KSetType t) => t <> Custom | _ => True end.
