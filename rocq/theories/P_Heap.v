(** Property theorems: Property lemmas about sharing of points: C08, C84.
    Each is closed by the lemma of the same (lower-case) name in T_Heap.v. *)
From Coq Require Import ZArith Bool String List Lia Permutation.
From Verif Require Import Base ListLib M_Data S_Data M_Hist Loop L_Valid L_Data L_Data2 M_Heap L_Heap T_Data.
From Verif Require Import T_Heap.
Import ListNotations.
Local Open Scope nat_scope.

(** C08: a dataset and its copy: in every interleaving of calls on either, each behaves as if it were alone, starting from the same contents. *)
Theorem C08_independent : forall (T : Type) (hp : heap T) (src : hdata T) (d : data T) (hist : list (bool * op T)), view hp src = Ok d -> data_ok d -> NoDup (h_refs src) ->
  allowed_run d (calls_on true hist) -> allowed_run d (calls_on false hist) ->
  exists hp1 cp hp' src' cp' d1 d2, h_copy hp src = Ok (hp1, cp) /\ view hp1 cp = Ok d /\ h_run hp1 src cp hist = Ok (hp', src', cp') /\
    run d (calls_on true hist) = Ok d1 /\ run d (calls_on false hist) = Ok d2 /\ view hp' src' = Ok d1 /\ view hp' cp' = Ok d2.
Proof. exact c08_independent. Qed.
Print Assumptions C08_independent.

(** C08: copying changes nothing that any dataset reads. *)
Theorem C08_copy_reads : forall (T : Type) (hp : heap T) (src : hdata T) (d : data T), view hp src = Ok d -> data_ok d ->
  exists hp1 cp, h_copy hp src = Ok (hp1, cp) /\ view hp1 cp = Ok d /\ forall other do, view hp other = Ok do -> view hp1 other = Ok do.
Proof. exact c08_copy_reads. Qed.
Print Assumptions C08_copy_reads.

Example C08_independent_ex : view hp3 h3 = Ok ex3 /\ data_ok ex3 /\ NoDup (h_refs h3) /\ allowed_run ex3 (calls_on true (map (fun o => (true, o)) hist)) /\ allowed_run ex3 (calls_on false (map (fun o => (true, o)) hist)).
Proof. exact c08_independent_ex. Qed.

Example C08_copy_reads_ex : view hp3 h3 = Ok ex3 /\ data_ok ex3.
Proof. exact c08_copy_reads_ex. Qed.

(** C08: plain assignment shares the points: a new label given through one dataset shows in the other, whose class counts then no longer fit. *)
Theorem C08_assign_shares : forall (T : Type) (hp : heap T) (a dst : hdata T) (d : data T) i q v, view hp a = Ok d -> data_ok d -> NoDup (h_refs a) -> nth_error (d_points d) i = Some q -> In v (d_classes d) -> v <> p_y q ->
  exists hp' a' db p', h_step hp a (RelabelOp i v) = Ok (hp', a') /\ view hp' (h_assign dst a) = Ok db /\ nth_error (d_points db) i = Some p' /\ p_y p' = v /\ ~ class_ok db.
Proof. exact c08_assign_shares. Qed.
Print Assumptions C08_assign_shares.

Example C08_assign_shares_ex : exists q v, view hp3 h3 = Ok ex3 /\ data_ok ex3 /\ nth_error (d_points ex3) 0 = Some q /\ In v (d_classes ex3) /\ v <> p_y q.
Proof. exact c08_assign_shares_ex. Qed.

(** C84: a point of another dataset inserted with keepIndex leaves every dataset as it was. *)
Theorem C84_keep_index : forall (T : Type) (hp : heap T) (h src h' : hdata T) i b hp', h_insert_from hp h src i true = Ok (hp', h', b) -> hp' = hp.
Proof. exact c84_keep_index. Qed.
Print Assumptions C84_keep_index.

Example C84_keep_index_ex : exists h' b hp', h_insert_from hp3 (mkH [] (strip data_empty)) h3 1 true = Ok (hp', h', b).
Proof. exact c84_keep_index_ex. Qed.

(** C84: without keepIndex the id of the point is overwritten in the dataset it comes from: it becomes the new size of the receiving dataset. *)
Theorem C84_renumbered_refuted : forall (T : Type) (hp : heap T) (h src : hdata T) (d s : data T) i p, view hp h = Ok d -> view hp src = Ok s -> data_ok d -> NoDup (h_refs src) -> apart h src ->
  nth_error (d_points s) i = Some p -> (d_points d = [] \/ length (p_x p) = d_dim d) ->
  exists hp' h' s', h_insert_from hp h src i false = Ok (hp', h', true) /\ view hp' src = Ok s' /\ nth_error (d_points s') i = Some (with_id (Z.of_nat (S (length (d_points d)))) p).
Proof. exact c84_renumbered_refuted. Qed.
Print Assumptions C84_renumbered_refuted.

Example C84_renumbered_refuted_ex : exists p, view hp3 (mkH [] (strip data_empty)) = Ok data_empty /\ view hp3 h3 = Ok ex3 /\ @data_ok Z data_empty /\ NoDup (h_refs h3) /\ apart (mkH [] (strip data_empty)) h3 /\
  nth_error (d_points ex3) 1 = Some p /\ d_points (@data_empty Z) = [] /\ p_id p <> 1%Z.
Proof. exact c84_renumbered_refuted_ex. Qed.

