(** Property theorems: Counting and freeing the nodes in the queue of AOS, and its largest size.
    Each is closed by the lemma of the same (lower-case) name in T_Pqx.v. *)
From Coq Require Import ZArith Bool List Reals Permutation Lia Lra.
From Verif Require Import Base ListLib Loop M_Pq S_Pq L_Pq T_Pq T_Prune.
From Verif Require Import T_Pqx.
Import ListNotations.
Local Open Scope nat_scope.

(** The nodes held fall into those not trained yet, which are counted, and the others. *)
Theorem C110_projected : forall (st : store) (h : pq) (ps : list nat), holds h ps -> (forall p, In p ps -> live st p) ->
  exists us ts, pq_projected st h = Ok (length us) /\ Permutation ps (us ++ ts) /\ (forall p, In p us -> exists n, nth_error st p = Some (Some n) /\ (n_rgamma n < 0)%R) /\ (forall p, In p ts -> exists n, nth_error st p = Some (Some n) /\ (0 <= n_rgamma n)%R).
Proof. exact c110_projected. Qed.
Print Assumptions C110_projected.

(** The destructor deletes exactly the nodes held; a node held twice is deleted twice. *)
Theorem C110_free : forall (st : store) (h : pq) (ps : list nat), holds h ps -> NoDup ps -> (forall p, In p ps -> live st p) ->
  exists st', pq_free st h = Ok st' /\ (forall p, In p ps -> nth_error st' p = Some None) /\ (forall p, ~ In p ps -> nth_error st' p = nth_error st p).
Proof. exact c110_free. Qed.
Print Assumptions C110_free.

Theorem C110_free_refuted : forall (st : store) (h : pq) (ps : list nat), holds h ps -> ~ NoDup ps -> pq_free st h = UB.
Proof. exact c110_free_refuted. Qed.
Print Assumptions C110_free_refuted.

(** The largest size recorded is the size after some of the calls, and never exceeded. *)
Theorem C110_largest : forall (cap : nat) (st : store) (cs : list call) (a : list answer) (h : pq), calls cap st (pq_new cap) cs = Ok (a, h) ->
  (exists cs1 cs2 a1 h1, cs = cs1 ++ cs2 /\ calls cap st (pq_new cap) cs1 = Ok (a1, h1) /\ pq_size h1 = pq_max h) /\
  forall cs1 cs2 a1 h1, cs = cs1 ++ cs2 -> calls cap st (pq_new cap) cs1 = Ok (a1, h1) -> pq_size h1 <= pq_max h.
Proof. exact c110_largest. Qed.
Print Assumptions C110_largest.

Example C110_projected_ex : holds cut_q [0; 1; 2] /\ (forall p, In p [0; 1; 2] -> live cut_st p).
Proof. exact c110_projected_ex. Qed.

Example C110_free_ex : holds cut_q [0; 1; 2] /\ NoDup [0; 1; 2] /\ (forall p, In p [0; 1; 2] -> live cut_st p).
Proof. exact c110_free_ex. Qed.

Example C110_free_refuted_ex : exists h, calls 2 cut_st (pq_new 2) [Insert 1 true; Insert 1 false] = Ok ([Inserted true; Inserted true], h) /\ holds h [1; 1] /\ ~ NoDup [1; 1].
Proof. exact c110_free_refuted_ex. Qed.

Example C110_largest_ex : exists a h, calls 2 cut_st (pq_new 2) [Insert 1 true; Pop] = Ok (a, h) /\ pq_max h = 1 /\ pq_size h = 0.
Proof. exact c110_largest_ex. Qed.

