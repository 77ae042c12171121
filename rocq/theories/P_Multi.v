(** Property theorems: Property lemmas for the multi-class wrappers: C42, C43, C85.
    Each is closed by the lemma of the same (lower-case) name in T_Multi.v. *)
From Coq Require Import ZArith Bool List Reals Lia Lra.
From Verif Require Import Base ListLib M_Data S_Data Loop M_Heap L_Heap M_Ens S_Ens T_Ens M_Multi S_Multi T_Data T_Heap.
From Verif Require Import T_Multi.
Import ListNotations.
Local Open Scope nat_scope.

(** C43: learner i is trained on all the points, labelled +1 for class i and -1 otherwise, and no dataset that existed before is changed. *)
Theorem C43_train : forall (T : Type) (hp : heap T) (s : hdata T) (d : data T), view hp s = Ok d ->
  exists hp' sets, ova_train hp s = Ok (hp', sets) /\
    Forall2 (fun c h => exists v, view hp' h = Ok v /\ Forall2 (one_against c) (d_points d) (d_points v) /\ d_size v = length (d_points d) /\ d_classes v = [-1; 1]%Z /\ d_fnames v = d_fnames d /\ d_index v = d_index d) (d_classes d) sets /\
    forall other do, view hp other = Ok do -> view hp' other = Ok do.
Proof. exact c43_train. Qed.
Print Assumptions C43_train.

Example C43_train_ex : view hp3 h3 = Ok ex3 /\ d_classes ex3 = [1; -1]%Z.
Proof. exact c43_train_ex. Qed.

Theorem C42_train : forall (T : Type) (hp : heap T) (s : hdata T) (d : data T), view hp s = Ok d ->
  exists hp' pairs sets, ovo_train hp s = Ok (hp', sets) /\ (forall ci cj, In (ci, cj) pairs <-> In ci (d_classes d) /\ In cj (d_classes d) /\ ci <> cj) /\
    Forall2 (fun c h => exists v, view hp' h = Ok v /\ Forall2 (one_against (fst c)) (filter (fun p => Z.eqb (p_y p) (fst c) || Z.eqb (p_y p) (snd c)) (d_points d)) (d_points v) /\ d_classes v = [-1; 1]%Z /\ d_fnames v = d_fnames d) pairs sets /\
    forall other do, view hp other = Ok do -> view hp' other = Ok do.
Proof. exact c42_train. Qed.
Print Assumptions C42_train.

Example C42_train_ex : view hp3 h3 = Ok ex3 /\ ovo_pairs (d_classes ex3) = [(1, -1); (-1, 1)]%Z.
Proof. exact c42_train_ex. Qed.

Theorem C85_ova_refuted : forall (T : Type) (hp hp' : heap T) s d sets, view hp s = Ok d -> ova_train hp s = Ok (hp', sets) ->
  forall h v, In h sets -> view hp' h = Ok v -> counts_are (vresize 0%Z 2 (d_dist d)) v.
Proof. exact c85_ova_refuted. Qed.
Print Assumptions C85_ova_refuted.

Example C85_ova_refuted_ex : exists hp' sets, view hp3 h3 = Ok ex3 /\ ova_train hp3 h3 = Ok (hp', sets) /\ d_dist ex3 = [2; 1]%Z /\ length sets = 2.
Proof. exact c85_ova_refuted_ex. Qed.

Theorem C85_ovo_refuted : forall (T : Type) (hp hp' : heap T) s d sets, view hp s = Ok d -> ovo_train hp s = Ok (hp', sets) ->
  forall h v, In h sets -> view hp' h = Ok v -> counts_are [0; 0]%Z v.
Proof. exact c85_ovo_refuted. Qed.
Print Assumptions C85_ovo_refuted.

Example C85_ovo_refuted_ex : exists hp' sets, view hp3 h3 = Ok ex3 /\ ovo_train hp3 h3 = Ok (hp', sets) /\ length sets = 2.
Proof. exact c85_ovo_refuted_ex. Qed.

(** C85: the class counts of the sets are those of the whole data under its own class list, cut to two: they do not fit the new labels. *)
Theorem C85_counts_refuted : exists (hp hp' : heap Z) s d sets h v, view hp s = Ok d /\ data_ok d /\ ova_train hp s = Ok (hp', sets) /\ nth_error sets 0 = Some h /\ view hp' h = Ok v /\ ~ class_ok v.
Proof. exact c85_counts_refuted. Qed.
Print Assumptions C85_counts_refuted.

(** C43: the class of the learner with the largest value. *)
Theorem C43_evaluate : forall classes values, classes <> [] -> length values = length classes ->
  exists i c v, ova_evaluate classes values = Ok c /\ nth_error classes i = Some c /\ nth_error values i = Some v /\ (forall j x, nth_error values j = Some x -> (x <= v)%R) /\ (forall j x, j < i -> nth_error values j = Some x -> (x < v)%R).
Proof. exact c43_evaluate. Qed.
Print Assumptions C43_evaluate.

Example C43_evaluate_ex : [1; 2]%Z <> [] /\ length [1; 3]%R = length [1; 2]%Z.
Proof. exact c43_evaluate_ex. Qed.

(** C42: the answer is the first class with the most duels won. *)
Theorem C42_evaluate : forall classes says, NoDup classes -> classes <> [] ->
  exists i c, ovo_evaluate classes says = Ok c /\ nth_error classes i = Some c /\ (forall j, j < length classes -> wins (length classes) says j <= wins (length classes) says i) /\ (forall j, j < i -> wins (length classes) says j < wins (length classes) says i).
Proof. exact c42_evaluate. Qed.
Print Assumptions C42_evaluate.

Example C42_evaluate_ex : NoDup [4; 7; 1]%Z /\ [4; 7; 1]%Z <> [].
Proof. exact c42_evaluate_ex. Qed.

Theorem C42_undefeated : forall classes says i c, NoDup classes -> nth_error classes i = Some c -> (forall j, j < length classes -> j <> i -> says i j = true /\ says j i = false) -> ovo_evaluate classes says = Ok c.
Proof. exact c42_undefeated. Qed.
Print Assumptions C42_undefeated.

Example C42_undefeated_ex : NoDup [4; 7; 1]%Z /\ nth_error [4; 7; 1]%Z 1 = Some 7%Z /\ (forall j, j < length [4; 7; 1]%Z -> j <> 1 -> (fun i _ => Nat.eqb i 1) 1 j = true /\ (fun i _ : nat => Nat.eqb i 1) j 1 = false).
Proof. exact c42_undefeated_ex. Qed.

Theorem C42_total : forall (classes : list Z) says, NoDup classes -> exists votes, ovo_votes classes says = Ok votes /\ (forall i, i < length classes -> nth_error votes i = Some (wins (length classes) says i)) /\ list_sum votes = length classes * (length classes - 1).
Proof. exact c42_total. Qed.
Print Assumptions C42_total.

Example C42_total_ex : NoDup [4; 7; 1]%Z.
Proof. exact c42_total_ex. Qed.

