(** Property theorems: Property lemmas for the doubly linked list: C46.
    Each is closed by the lemma of the same (lower-case) name in T_Dll.v. *)
From Coq Require Import ZArith List Arith Lia Bool.
From Verif Require Import Base ListLib M_Dll S_Dll L_Dll.
From Verif Require Import T_Dll.
Import ListNotations.
Local Open Scope nat_scope.

(** C46: append puts a fresh node (index -1) right after the given one and returns it; nothing else changes. *)
Theorem C46_append : forall h l1 p z l2, heap_ok h -> dll h (l1 ++ (p, z) :: l2) ->
  exists h' a, dll_append h (Some p) = Ok (h', Some a) /\ mem h a = None /\ heap_ok h' /\
    dll h' (l1 ++ (p, z) :: (a, (-1)%Z) :: l2) /\
    (forall b, b <> a -> ~ In b (map fst (l1 ++ (p, z) :: l2)) -> mem h' b = mem h b).
Proof. exact c46_append. Qed.
Print Assumptions C46_append.

Example C46_append_ex : heap_ok h2 /\ dll h2 ([] ++ (0, (-1)%Z) :: [(1, 7%Z)]).
Proof. exact c46_append_ex. Qed.

(** C46: remove unlinks exactly the given node, releases it and returns its predecessor. *)
Theorem C46_remove : forall h l1 p z l2, heap_ok h -> dll h (l1 ++ (p, z) :: l2) ->
  exists h', dll_remove h (Some p) = Ok (h', last_addr l1) /\ heap_ok h' /\ mem h' p = None /\ dll h' (l1 ++ l2) /\
    (forall b, ~ In b (map fst (l1 ++ (p, z) :: l2)) -> mem h' b = mem h b).
Proof. exact c46_remove. Qed.
Print Assumptions C46_remove.

Example C46_remove_ex : heap_ok h2 /\ dll h2 ([(0, (-1)%Z)] ++ (1, 7%Z) :: []).
Proof. exact c46_remove_ex. Qed.

(** C46: free releases every node of the list once and touches nothing else; one round per node and a final test suffice. *)
Theorem C46_free : forall h l fuel, dll h l -> length l < fuel ->
  exists h', dll_free fuel h (first l) = Ok (Some h') /\ (forall a, In a (map fst l) -> mem h' a = None) /\ (forall a, ~ In a (map fst l) -> mem h' a = mem h a).
Proof. exact c46_free. Qed.
Print Assumptions C46_free.

Example C46_free_ex : dll h2 [(0, (-1)%Z); (1, 7%Z)].
Proof. exact c46_free_ex. Qed.

(** C46: over every sequence of appends and removals with valid pointers, starting from a new list, no operation goes wrong, the
    heap holds the list the reference prescribes, the walk along next from the head reads it in order, and the walk along prev from its last node reads it in reverse. *)
Theorem C46_history : forall ops l, let (h0, a0) := dll_new heap_empty in
  ref_run 1 [(a0, (-1)%Z)] ops = Some l ->
  exists h, drun h0 ops = Ok h /\ dll h l /\
    (forall fuel, length l < fuel -> dll_walk fuel h (Some a0) = Ok (Some l) /\ dll_walk_back fuel h (last_addr l) = Ok (Some (rev l))).
Proof. exact c46_history. Qed.
Print Assumptions C46_history.

Example C46_history_ex : ref_run 1 [(0, (-1)%Z)] [DAppend 0 7; DAppend 0 8; DAppend 1 9; DRemove 2] = Some [(0, (-1)%Z); (1, 7%Z); (3, 9%Z)].
Proof. exact c46_history_ex. Qed.

(** C46: null pointers are accepted by all three operations. *)
Theorem C46_null : forall h fuel, dll_append h None = Ok (h, None) /\ dll_remove h None = Ok (h, None) /\ dll_free fuel h None = Ok (Some h).
Proof. exact c46_null. Qed.
Print Assumptions C46_null.

