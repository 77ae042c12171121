(** Property theorems: The theorems on the priority queue and the table of visited nodes of AOS.
    Each is closed by the lemma of the same (lower-case) name in T_Pq.v. *)
From Coq Require Import ZArith Bool List Reals Permutation Sorted Lia Lra.
From Verif Require Import Base ListLib Loop M_Pq S_Pq L_Pq.
From Verif Require Import T_Pq.
Import ListNotations.
Local Open Scope nat_scope.

Theorem C110_queue : forall (cap : nat) (st : store) (cs : list call), 1 <= cap -> (forall p f, In (Insert p f) cs -> live st p) ->
  exists a h ps, calls cap st (pq_new cap) cs = Ok (a, h) /\ holds h ps /\ bag cap st [] cs a ps /\ pq_ins h = accepted true cs a /\ pq_reins h = accepted false cs a.
Proof. exact c110_queue. Qed.
Print Assumptions C110_queue.

Theorem C110_sorted : forall (cap : nat) (st : store) (ps : list nat), 1 <= cap -> length ps <= cap -> (forall p, In p ps -> live st p) ->
  exists qs h, calls cap st (pq_new cap) (map (fun p => Insert p true) ps ++ repeat Pop (length ps)) = Ok (repeat (Inserted true) (length ps) ++ map (fun q => Popped (Some q)) qs, h) /\
    Permutation qs ps /\ StronglySorted (fun p q => exists v w, worth st p v /\ worth st q w /\ (w <= v)%R) qs /\ holds h [].
Proof. exact c110_sorted. Qed.
Print Assumptions C110_sorted.

Theorem C110_full_refuted : exists st : store, exists h : pq, exists h' : pq, calls 3 st (pq_new 3) [Insert 0 true; Insert 1 true; Insert 2 true] = Ok ([Inserted true; Inserted true; Inserted true], h) /\
  worth st 1 1 /\ worth st 2 5 /\ worth st 3 4 /\ worth st 4 7 /\ pq_insert 3 st h 3 true = Ok (false, h) /\ pq_insert 3 st h 4 true = Ok (true, h') /\ holds h' [0; 1; 4].
Proof. exact c110_full_refuted. Qed.
Print Assumptions C110_full_refuted.

Example C110_queue_ex : 1 <= 2 /\ (forall p f, In (Insert p f) [Insert 0 true; Insert 1 true; Insert 0 false; Pop; Pop] -> live [Some (nd 1 1 3); Some (nd 2 1 4)] p).
Proof. exact c110_queue_ex. Qed.

Example C110_sorted_ex : 1 <= 4 /\ length [1; 0; 2] <= 4 /\ (forall p, In p [1; 0; 2] -> live [Some (nd 1 1 3); Some (nd 2 1 4); Some (nd 3 1 4)] p).
Proof. exact c110_sorted_ex. Qed.

