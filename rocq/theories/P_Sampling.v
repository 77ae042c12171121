(** Property theorems: Property lemmas for Data::sampling: C16, C87.
    Each is closed by the lemma of the same (lower-case) name in T_Sampling.v. *)
From Coq Require Import ZArith Bool List Permutation Lia.
From Verif Require Import Base ListLib M_Data S_Data L_Data L_Insert L_Split L_Valid Loop M_Heap L_Heap M_Sampling S_Sampling T_Data T_Heap.
From Verif Require Import T_Sampling.
Import ListNotations.
Local Open Scope nat_scope.

(** C16, with replacement: from every class its share of points is drawn, and nothing that existed is changed. The draws reach only the first [share] points of the class. *)
Theorem C16_replacement : forall (T : Type) rnd fuel (hp : heap T) src d m, in_range rnd -> view hp src = Ok d -> data_ok d -> (forall c, In c (d_classes d) -> In c (labels (d_points d))) -> 0 < m <= length (d_points d) ->
  exists hp' h v picks, sampling rnd fuel hp src m true = Ok (Some (hp', h)) /\ view hp' h = Ok v /\ data_ok v /\ map content (d_points v) = concat picks /\
    Forall2 (fun c pk => length pk = share d m c /\ forall x, In x pk -> In x (firstn (share d m c) (class_contents d c))) (d_classes d) picks /\ sample_of rnd d m (concat picks) /\
    forall other do, view hp other = Ok do -> view hp' other = Ok do.
Proof. exact c16_replacement. Qed.
Print Assumptions C16_replacement.

Theorem C16_hangs_refuted : forall (T : Type) rnd fuel (hp : heap T) src d m, in_range rnd -> view hp src = Ok d -> data_ok d -> (forall c, In c (d_classes d) -> In c (labels (d_points d))) -> 0 < m <= length (d_points d) -> 2 <= length (d_classes d) ->
  sampling rnd fuel hp src m false = Ok None.
Proof. exact c16_hangs_refuted. Qed.
Print Assumptions C16_hangs_refuted.

Example C16_replacement_ex : in_range all_zero /\ view hp3 h3 = Ok ex3 /\ data_ok ex3 /\ (forall c, In c (d_classes ex3) -> In c (labels (d_points ex3))) /\ 0 < 2 <= length (d_points ex3) /\ 2 <= length (d_classes ex3).
Proof. exact c16_replacement_ex. Qed.

(** C16: without replacement on one class, when the call returns the sample is a rearrangement of the first m points. *)
Theorem C16_one_class : forall (T : Type) rnd fuel (hp hp' : heap T) src h d m c, in_range rnd -> view hp src = Ok d -> data_ok d -> d_classes d = [c] -> 0 < m <= length (d_points d) ->
  sampling rnd fuel hp src m false = Ok (Some (hp', h)) -> exists v, view hp' h = Ok v /\ data_ok v /\ Permutation (map content (d_points v)) (firstn m (map content (d_points d))).
Proof. exact c16_one_class. Qed.
Print Assumptions C16_one_class.

Example C16_one_class_ex : exists hp' h, in_range all_zero /\ view (d_points two1) (mkH [0; 1] (strip two1)) = Ok two1 /\ d_classes two1 = [5%Z] /\ sampling all_zero 3 (d_points two1) (mkH [0; 1] (strip two1)) 1 false = Ok (Some (hp', h)).
Proof. exact c16_one_class_ex. Qed.

(** C16: not every point of a class can be drawn: here the second of two points never is, with or without replacement. *)
Theorem C16_eligible_refuted : exists (hp : heap Z) src d q, view hp src = Ok d /\ data_ok d /\ In q (d_points d) /\ forall rnd fuel repl hp' h v, in_range rnd -> sampling rnd fuel hp src 1 repl = Ok (Some (hp', h)) -> view hp' h = Ok v -> ~ In (content q) (map content (d_points v)).
Proof. exact c16_eligible_refuted. Qed.
Print Assumptions C16_eligible_refuted.

(** C87: points drawn twice share their id: the ids of a sample are not distinct. *)
Theorem C87_duplicate_refuted : exists rnd fuel (hp hp' : heap Z) src h d v m, in_range rnd /\ view hp src = Ok d /\ data_ok d /\ sampling rnd fuel hp src m true = Ok (Some (hp', h)) /\ view hp' h = Ok v /\ ~ NoDup (map p_id (d_points v)).
Proof. exact c87_duplicate_refuted. Qed.
Print Assumptions C87_duplicate_refuted.

Theorem C87_ids : forall (T : Type) rnd fuel (hp hp' : heap T) src h m repl, sampling rnd fuel hp src m repl = Ok (Some (hp', h)) ->
  (forall i j r r' p p', nth_error (h_refs h) i = Some r -> nth_error (h_refs h) j = Some r' -> nth_error hp' r = Some p -> nth_error hp' r' = Some p' -> (p_id p = p_id p' <-> r = r')) /\
  forall v, view hp' h = Ok v -> (NoDup (map p_id (d_points v)) <-> NoDup (h_refs h)).
Proof. exact c87_ids. Qed.
Print Assumptions C87_ids.

Example C87_ids_ex : exists hp' h, sampling all_zero 0 (d_points two1) (mkH [0; 1] (strip two1)) 2 true = Ok (Some (hp', h)) /\ h_refs h = [2; 2].
Proof. exact c87_ids_ex. Qed.

(** C16: a sample larger than the dataset is refused (the assertion fails), with and without replacement. *)
Theorem C16_too_many : forall (T : Type) rnd fuel (hp : heap T) src d m repl, view hp src = Ok d -> data_ok d -> length (d_points d) < m -> sampling rnd fuel hp src m repl = Abort.
Proof. exact c16_too_many. Qed.
Print Assumptions C16_too_many.

Example C16_too_many_ex : view hp3 h3 = Ok ex3 /\ data_ok ex3 /\ length (d_points ex3) < 4.
Proof. exact c16_too_many_ex. Qed.

