(** Property theorems: The table of visited nodes of AOS.
    Each is closed by the lemma of the same (lower-case) name in T_Vis.v. *)
From Coq Require Import ZArith Bool List Reals Permutation Lia Lra.
From Verif Require Import Base ListLib Loop M_Pq S_Pq L_Pq T_Pq T_Prune.
From Verif Require Import T_Vis.
Import ListNotations.
Local Open Scope nat_scope.

Theorem C111_table : forall (len width : nat) (st : store) (ns : list node), 1 <= len -> (forall n, In n ns -> tidy n) -> length (nodup (list_eq_dec Z.eq_dec) (map n_fnames ns)) <= width ->
  exists st' t', additions st (vis_new len width) ns = Ok (firsts [] ns, st', t') /\
    (forall pre n post, ns = pre ++ n :: post -> ~ In (n_fnames n) (map n_fnames pre) -> exists m, In (length st + length pre) (tabled t') /\ nth_error st' (length st + length pre) = Some (Some m) /\ kept n post m) /\
    (forall pre n post, ns = pre ++ n :: post -> In (n_fnames n) (map n_fnames pre) -> nth_error st' (length st + length pre) = Some None /\ ~ In (length st + length pre) (tabled t')) /\
    (forall p, In p (tabled t') -> length st <= p < length st + length ns) /\ NoDup (tabled t') /\ t_count t' = length (tabled t') /\ (forall p, p < length st -> nth_error st' p = nth_error st p).
Proof. exact c111_table. Qed.
Print Assumptions C111_table.

Theorem C111_full_refuted : forall (len width : nat) (st : store) (ns : list node), 1 <= len -> (forall n, In n ns -> tidy n) -> NoDup (map n_fnames ns) -> (forall n m, In n ns -> In m ns -> same_row len (n_fnames n) (n_fnames m)) ->
  length ns = S width -> additions st (vis_new len width) ns = Abort.
Proof. exact c111_full_refuted. Qed.
Print Assumptions C111_full_refuted.

Theorem C111_equal : forall a b : node, tidy a -> tidy b -> exists e, node_equal a b = Ok e /\ (e = true <-> n_fnames a = n_fnames b).
Proof. exact c111_equal. Qed.
Print Assumptions C111_equal.

Theorem C111_weight_refuted : forall w : R, weight_equal w w = false.
Proof. exact c111_weight_refuted. Qed.
Print Assumptions C111_weight_refuted.

Example C111_table_ex : 1 <= 161 /\ (forall n, In n [tn [7] 3; tn [6; 3; 2] 2; tn [7] 4; tn [5] 1; tn [4; 3] 2] -> tidy n)%Z /\ length (nodup (list_eq_dec Z.eq_dec) (map n_fnames [tn [7] 3; tn [6; 3; 2] 2; tn [7] 4; tn [5] 1; tn [4; 3] 2]%Z)) <= 100.
Proof. exact c111_table_ex. Qed.

Example C111_full_refuted_ex : 1 <= 161 /\ (forall n, In n [tn [7] 3; tn [6; 3; 2] 2] -> tidy n)%Z /\ NoDup (map n_fnames [tn [7] 3; tn [6; 3; 2] 2]%Z) /\
  (forall n m, In n [tn [7] 3; tn [6; 3; 2] 2] -> In m [tn [7] 3; tn [6; 3; 2] 2] -> same_row 161 (n_fnames n) (n_fnames m))%Z /\ length [tn [7] 3; tn [6; 3; 2] 2]%Z = 2.
Proof. exact c111_full_refuted_ex. Qed.

Example C111_equal_ex : tidy (tn [7]%Z 3) /\ tidy (tn [6; 3; 2]%Z 2).
Proof. exact c111_equal_ex. Qed.

