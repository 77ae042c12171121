(** Property theorems: Pruning the priority queue of AOS, and the queue together with the table of visited nodes.
    Each is closed by the lemma of the same (lower-case) name in T_Prune.v. *)
From Coq Require Import ZArith Bool List Reals Permutation Lia Lra.
From Verif Require Import Base ListLib Loop M_Pq S_Pq L_Pq T_Pq.
From Verif Require Import T_Prune.
Import ListNotations.
Local Open Scope nat_scope.

Theorem C112_cut : forall (levelat cut : nat) (gm : R) (st : store) (h : pq) (ps : list nat), length (pq_el h) > pq_size h -> holds h ps -> NoDup ps -> (forall p, In p ps -> live st p) ->
  exists st' h' ps', pq_prune levelat cut gm st h = Ok (st', h') /\ holds h' ps' /\ NoDup ps' /\ (forall p, In p ps' <-> In p ps /\ ~ stale levelat cut gm st p) /\
    (forall p, In p ps -> stale levelat cut gm st p -> nth_error st' p = Some None) /\ (forall p, ~ (In p ps /\ stale levelat cut gm st p) -> nth_error st' p = nth_error st p) /\
    pq_cut h' + length ps' = pq_cut h + length ps.
Proof. exact c112_cut. Qed.
Print Assumptions C112_cut.

Theorem C112_order_refuted : exists st : store, exists h : pq, exists st' : store, exists h' : pq, exists h2 : pq,
  calls 7 st (pq_new 7) (map (fun p => Insert p true) (seq 0 7)) = Ok (repeat (Inserted true) 7, h) /\ pq_prune 1 0 0 st h = Ok (st', h') /\
  holds h' [5; 1; 4; 6] /\ pq_pop st' h' = Ok (Some 5, h2) /\ worth st' 5 80 /\ worth st' 6 85.
Proof. exact c112_order_refuted. Qed.
Print Assumptions C112_order_refuted.

Example C112_cut_ex : length (pq_el cut_q) > pq_size cut_q /\ holds cut_q [0; 1; 2] /\ NoDup [0; 1; 2] /\ (forall p, In p [0; 1; 2] -> live cut_st p) /\ stale 1 0 0 cut_st 0 /\ ~ stale 1 0 0 cut_st 1.
Proof. exact c112_cut_ex. Qed.

