(** Property theorems: The priority queue of AOS together with the table of visited nodes.
    Each is closed by the lemma of the same (lower-case) name in T_Both.v. *)
From Coq Require Import ZArith Bool List Reals Permutation Lia Lra.
From Verif Require Import Base ListLib Loop M_Pq S_Pq L_Pq T_Pq T_Prune T_Vis.
From Verif Require Import T_Both.
Import ListNotations.
Local Open Scope nat_scope.

Theorem C113_merge_refuted : forall (len width cap : nat) (a b c : node), 1 <= len -> 2 <= width -> 2 <= cap -> tidy a -> tidy b -> tidy c -> n_fnames a <> n_fnames b -> n_fnames c = n_fnames b ->
  (n_rgamma b < 0)%R -> (n_value b <= n_value a < n_value c)%R ->
  exists st t h st' h', additions [] (vis_new len width) [a; b] = Ok ([true; true], st, t) /\ calls cap st (pq_new cap) [Insert 0 true; Insert 1 true] = Ok ([Inserted true; Inserted true], h) /\
    vis_add (st ++ [Some c]) t 2 = Ok (false, st', t) /\ holds h [0; 1] /\ worth st' 0 (n_value a) /\ worth st' 1 (n_value c) /\ pq_pop st' h = Ok (Some 0, h').
Proof. exact c113_merge_refuted. Qed.
Print Assumptions C113_merge_refuted.

Theorem C113_dangling_refuted : forall (len width cap levelat cut : nat) (gm : R) (n m : node), 1 <= len -> 1 <= width -> 1 <= cap -> tidy n -> tidy m -> same_row len (n_fnames m) (n_fnames n) ->
  n_level n < levelat -> (n_value n < 95 / 100 * gm)%R \/ n_level n + cut <= levelat ->
  exists st t h st' h', additions [] (vis_new len width) [n] = Ok ([true], st, t) /\ calls cap st (pq_new cap) [Insert 0 true] = Ok ([Inserted true], h) /\
    pq_prune levelat cut gm st h = Ok (st', h') /\ vis_add (st' ++ [Some m]) t (length st') = UB.
Proof. exact c113_dangling_refuted. Qed.
Print Assumptions C113_dangling_refuted.

Example C113_merge_refuted_ex : 1 <= 161 /\ 2 <= 100 /\ 2 <= 500 /\ tidy (tn [3]%Z 5) /\ tidy (tn [4]%Z 4) /\ tidy (tn [4]%Z 6) /\ n_fnames (tn [3]%Z 5) <> n_fnames (tn [4]%Z 4) /\ n_fnames (tn [4]%Z 6) = n_fnames (tn [4]%Z 4) /\
  (n_rgamma (tn [4]%Z 4) < 0)%R /\ (n_value (tn [4]%Z 4) <= n_value (tn [3]%Z 5) < n_value (tn [4]%Z 6))%R.
Proof. exact c113_merge_refuted_ex. Qed.

Example C113_dangling_refuted_ex : 1 <= 161 /\ 1 <= 100 /\ 1 <= 500 /\ tidy (tn [7]%Z 5) /\ tidy (tn [6; 3; 2]%Z 4) /\ same_row 161 (n_fnames (tn [6; 3; 2]%Z 4)) (n_fnames (tn [7]%Z 5)) /\ n_level (tn [7]%Z 5) < 2 /\
  ((n_value (tn [7]%Z 5) < 95 / 100 * 0)%R \/ n_level (tn [7]%Z 5) + 0 <= 2).
Proof. exact c113_dangling_refuted_ex. Qed.

(** Otherwise the nodes already there keep what they are worth, so the queue, whose order depends on nothing else, is not affected. *)
Theorem C113_apart : forall (len width : nat) (st : store) (ns : list node) (n : node), 1 <= len -> (forall k, In k (ns ++ [n]) -> tidy k) -> length (nodup (list_eq_dec Z.eq_dec) (map n_fnames (ns ++ [n]))) <= width ->
  ~ In (n_fnames n) (map n_fnames ns) \/ (exists k, In k ns /\ n_fnames k = n_fnames n /\ (n_value n <= n_value k)%R) ->
  exists st' t' st'' t'', additions st (vis_new len width) ns = Ok (firsts [] ns, st', t') /\ additions st (vis_new len width) (ns ++ [n]) = Ok (firsts [] (ns ++ [n]), st'', t'') /\
    length st' = length st + length ns /\ forall p v, p < length st' -> (worth st' p v <-> worth st'' p v).
Proof. exact c113_apart. Qed.
Print Assumptions C113_apart.

Example C113_apart_ex : 1 <= 161 /\ (forall k, In k ([tn [7]%Z 5; tn [6; 3; 2]%Z 4] ++ [tn [7]%Z 4]) -> tidy k) /\ length (nodup (list_eq_dec Z.eq_dec) (map n_fnames ([tn [7]%Z 5; tn [6; 3; 2]%Z 4] ++ [tn [7]%Z 4]))) <= 100 /\
  (~ In (n_fnames (tn [7]%Z 4)) (map n_fnames [tn [7]%Z 5; tn [6; 3; 2]%Z 4]) \/ (exists k, In k [tn [7]%Z 5; tn [6; 3; 2]%Z 4] /\ n_fnames k = n_fnames (tn [7]%Z 4) /\ (n_value (tn [7]%Z 4) <= n_value k)%R)).
Proof. exact c113_apart_ex. Qed.

