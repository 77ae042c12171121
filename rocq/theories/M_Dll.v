(** Model of the doubly linked list of ints: /repo/subprojects/ufjfmltk-classifier/src/int_dll.cpp and int_dll.h.
    The heap maps addresses to nodes; following a pointer to a node that is not allocated (never, or no longer) is undefined
    behaviour. [new] returns the address [brk], which is never handed out again, so a dangling pointer is always noticed. *)
From Coq Require Import ZArith List Arith.
From Verif Require Import Base.
Import ListNotations.
Local Open Scope nat_scope.

(** A pointer int_dll* (int_dll.h:10-13). *)
Definition addr := nat.
(** int_dll.h: the fields of a node. int_dll.h:10-13. *)
Record node := mkNode { n_index : Z; n_prev : option addr; n_next : option addr }.
(** The memory: allocated nodes and the next fresh address (int_dll.cpp:50-80, new). *)
Record heap := mkHeap { mem : addr -> option node; brk : addr }.
(** The memory before the first allocation (int_dll.cpp:50-80). *)
Definition heap_empty : heap := mkHeap (fun _ => None) 0.

(** [p->...] int_dll.cpp:24-99, every use of a pointer. *)
Definition load (h : heap) (p : addr) : outcome node := match mem h p with Some n => Ok n | None => UB end.
(** An assignment to a node or its release (int_dll.cpp:24-99). *)
Definition write (h : heap) (p : addr) (n : option node) : heap := mkHeap (fun a => if Nat.eqb a p then n else mem h a) (brk h).
(** An assignment to a field of a node (int_dll.cpp:24-99). *)
Definition store (h : heap) (p : addr) (f : node -> node) : outcome heap := let* n := load h p in Ok (write h p (Some (f n))).
(** int_dll.cpp:24-80, assignment to prev. *)
Definition set_prev (q : option addr) (n : node) : node := mkNode (n_index n) q (n_next n).
(** int_dll.cpp:24-80, assignment to next. *)
Definition set_next (q : option addr) (n : node) : node := mkNode (n_index n) (n_prev n) q.
(** SMO.hpp:349, 357, assignment to index. *)
Definition set_index (z : Z) (n : node) : node := mkNode z (n_prev n) (n_next n).

(** int_dll.cpp:14-18: new int_dll. *)
Definition dll_new (h : heap) : heap * addr :=
  (mkHeap (fun a => if Nat.eqb a (brk h) then Some (mkNode (-1) None None) else mem h a) (S (brk h)), brk h).
(** [delete p] int_dll.cpp:24-44 and 86-99. *)
Definition dll_delete (h : heap) (p : addr) : outcome heap := let* _ := load h p in Ok (write h p None).

(** int_dll.cpp:24-44: remove(int_dll **node); the caller's pointer is null afterwards. *)
Definition dll_remove (h : heap) (node : option addr) : outcome (heap * option addr) :=
  match node with
  | None => Ok (h, None)
  | Some p =>
      let* n := load h p in
      let* h1 := match n_prev n with Some q => store h q (set_next (n_next n)) | None => Ok h end in
      let* n1 := load h1 p in
      let* h2 := match n_next n1 with Some q => store h1 q (set_prev (n_prev n1)) | None => Ok h1 end in
      let* h3 := dll_delete h2 p in
      Ok (h3, n_prev n)
  end.

(** int_dll.cpp:50-80: append(int_dll *list). *)
Definition dll_append (h : heap) (l : option addr) : outcome (heap * option addr) :=
  match l with
  | None => Ok (h, None)
  | Some p =>
      let* n := load h p in
      let tmp := n_next n in
      let (h1, a) := dll_new h in
      let* h2 := store h1 p (set_next (Some a)) in
      let* h3 := store h2 a (set_prev (Some p)) in
      let* h4 := store h3 a (set_next tmp) in
      let* h5 := match tmp with Some q => store h4 q (set_prev (Some a)) | None => Ok h4 end in
      let* h6 := store h5 a (set_index (-1)) in
      Ok (h6, Some a)
  end.

(** int_dll.cpp:86-99: free(int_dll **head). [None]: the loop has not ended within [fuel] rounds. *)
Fixpoint dll_free (fuel : nat) (h : heap) (l : option addr) : outcome (option heap) :=
  match l with
  | None => Ok (Some h)
  | Some p =>
      match fuel with
      | O => Ok None
      | S f => let* n := load h p in let* h1 := dll_delete h p in dll_free f h1 (n_next n)
      end
  end.

(** Walks along next (SMO.hpp:200-213, 226-232, 385-393, 412-417) and along prev. *)
Fixpoint dll_walk (fuel : nat) (h : heap) (l : option addr) : outcome (option (list (addr * Z))) :=
  match l with
  | None => Ok (Some [])
  | Some p =>
      match fuel with
      | O => Ok None
      | S f => let* n := load h p in let* r := dll_walk f h (n_next n) in
               Ok (match r with Some t => Some ((p, n_index n) :: t) | None => None end)
      end
  end.
(** The same in the direction of prev (int_dll.h:10-13); the code has no such loop, it states the well-formedness of the list. *)
Fixpoint dll_walk_back (fuel : nat) (h : heap) (l : option addr) : outcome (option (list (addr * Z))) :=
  match l with
  | None => Ok (Some [])
  | Some p =>
      match fuel with
      | O => Ok None
      | S f => let* n := load h p in let* r := dll_walk_back f h (n_prev n) in
               Ok (match r with Some t => Some ((p, n_index n) :: t) | None => None end)
      end
  end.

(** A client that holds node pointers: append after a node and label the new node (SMO.hpp:345-361), or remove a node. *)
Inductive dop := DAppend (p : addr) (z : Z) | DRemove (p : addr).
(** One call as the trainer makes it (SMO.hpp:345-361). *)
Definition dstep (h : heap) (o : dop) : outcome heap :=
  match o with
  | DAppend p z => let* r := dll_append h (Some p) in
                   match snd r with Some a => store (fst r) a (set_index z) | None => UB end
  | DRemove p => let* r := dll_remove h (Some p) in Ok (fst r)
  end.
(** A history of calls of the trainer (SMO.hpp:345-361). *)
Fixpoint drun (h : heap) (ops : list dop) : outcome heap :=
  match ops with [] => Ok h | o :: r => let* h1 := dstep h o in drun h1 r end.
