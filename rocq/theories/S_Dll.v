(** Specification of doubly linked lists in the heap. *)
From Coq Require Import ZArith List Arith.
From Verif Require Import Base M_Dll.
Import ListNotations.
Local Open Scope nat_scope.

Definition first (l : list (addr * Z)) : option addr := match l with [] => None | (a, _) :: _ => Some a end.
Definition last_addr (l : list (addr * Z)) : option addr := first (rev l).
(** The nodes of [l] follow each other from left to right; [p] is the predecessor of the first one. *)
Fixpoint linked (h : heap) (p : option addr) (l : list (addr * Z)) : Prop :=
  match l with
  | [] => True
  | (a, z) :: r => mem h a = Some (mkNode z p (first r)) /\ linked h (Some a) r
  end.
(** [l] is a whole doubly linked list of the heap. *)
Definition dll (h : heap) (l : list (addr * Z)) : Prop := NoDup (map fst l) /\ linked h None l.
(** No node has been handed out at or above [brk]. *)
Definition heap_ok (h : heap) : Prop := forall a, brk h <= a -> mem h a = None.

(** Reference: the list as a sequence; [n] is the address the next node gets. [None]: a pointer to no node of the list (or the head) is used. *)
Fixpoint insert_after (p a : addr) (z : Z) (l : list (addr * Z)) : list (addr * Z) :=
  match l with
  | [] => []
  | (b, y) :: r => if Nat.eqb b p then (b, y) :: (a, z) :: r else (b, y) :: insert_after p a z r
  end.
Fixpoint remove_node (p : addr) (l : list (addr * Z)) : list (addr * Z) :=
  match l with
  | [] => []
  | (b, y) :: r => if Nat.eqb b p then r else (b, y) :: remove_node p r
  end.
Definition is_node (p : addr) (l : list (addr * Z)) : bool := existsb (fun x => Nat.eqb (fst x) p) l.
Fixpoint ref_run (n : addr) (l : list (addr * Z)) (ops : list dop) : option (list (addr * Z)) :=
  match ops with
  | [] => Some l
  | DAppend p z :: r => if is_node p l then ref_run (S n) (insert_after p n z l) r else None
  | DRemove p :: r => if is_node p (tl l) then ref_run n (remove_node p l) r else None
  end.
