(** Property theorems: Property lemmas for automatic weighting: C107.
    Each is closed by the lemma of the same (lower-case) name in T_Awv.v. *)
From Coq Require Import ZArith Bool List Reals Lra Lia Psatz Permutation.
From Verif Require Import Base ListLib L_Vec M_Data S_Data M_Point Loop L_Valid M_Valid T_Valid M_Knn L_Knn M_Ens S_Ens T_Ens M_Dsm T_Dsm M_Awv S_Awv.
From Verif Require Import T_Awv.
Import ListNotations.
Local Open Scope R_scope.

(** C107: training returns one of the weight vectors drawn at the start: the first of those with the most right answers on the validation part. No generation ever replaces it. *)
Theorem C107_best : forall (T : Type) gen dev seed m fit ri rr fuel np max_it simplex (d tr te : data T) s,
  data_ok d -> shufflers gen -> unit_draws rr -> awv_train gen dev seed m fit ri rr fuel np max_it simplex d = Ok (Some (tr, te, s)) ->
  exists i w n, (i < np)%nat /\ initial rr m simplex i w /\ fst (a_best s) = map Some w /\ hits m fit tr te w n /\
    (forall j w' n', (j < np)%nat -> initial rr m simplex j w' -> hits m fit tr te w' n' -> (n' <= n)%nat /\ ((j < i)%nat -> (n' < n)%nat)) /\ a_gen s = 0%nat.
Proof. exact c107_best. Qed.
Print Assumptions C107_best.

(** C107: the generations only make the population worse: no position ever holds a vector with more right answers than the one drawn for it. *)
Theorem C107_improves_refuted : forall (T : Type) gen dev seed m fit ri rr fuel np max_it simplex (d tr te : data T) s,
  data_ok d -> shufflers gen -> unit_draws rr -> awv_train gen dev seed m fit ri rr fuel np max_it simplex d = Ok (Some (tr, te, s)) ->
  length (a_pop s) = np /\ forall i w n w' n', initial rr m simplex i w -> hits m fit tr te w n -> nth_error (a_pop s) i = Some (map Some w') -> hits m fit tr te w' n' -> (n' <= n)%nat.
Proof. exact c107_improves_refuted. Qed.
Print Assumptions C107_improves_refuted.

(** C107: the trained ensemble answers the class of largest total weight, with the weights of c107_best. *)
Theorem C107_evaluate : forall (T : Type) gen dev seed m fit ri rr fuel np max_it simplex (d tr te : data T) s,
  data_ok d -> shufflers gen -> unit_draws rr -> awv_train gen dev seed m fit ri rr fuel np max_it simplex d = Ok (Some (tr, te, s)) ->
  exists w, fst (a_best s) = map Some w /\ length w = m /\ forall p, (0 < m)%nat -> (forall i, (i < m)%nat -> In (fit i tr p) (d_classes tr)) ->
    exists c, awv_evaluate m fit tr s p = Ok c /\ first_largest (d_classes tr) (weight_for w (map (fun i => fit i tr p) (seq 0 m))) c.
Proof. exact c107_evaluate. Qed.
Print Assumptions C107_evaluate.

(** C107: with a single member and free weights (no projection), training for two generations or more never ends: all vectors of the second population are equal, so no
    second parent is ever found. *)
Theorem C107_one_member_refuted : forall (T : Type) gen dev seed fit ri rr fuel np max_it (d tr te : data T),
  data_ok d -> shufflers gen -> split gen dev seed d = Ok (tr, te) -> d_points te <> [] -> (forall p, In p (d_points te) -> In (fit 0%nat tr p) (d_classes tr)) ->
  (forall t, 0 < rr t < 1) -> (forall t b, (ri t b <= b)%nat) -> (forall t1 t2 t3, rr t3 + 8 / 10 * (rr t1 - rr t2) <> 0) -> (0 < np)%nat -> (2 <= max_it)%nat ->
  (100 * length (filter (fun p => Z.eqb (fit 0%nat tr p) (p_y p)) (d_points te)) <> length (d_points te))%nat ->
  awv_train gen dev seed 1 fit ri rr fuel np max_it false d = Ok None.
Proof. exact c107_one_member_refuted. Qed.
Print Assumptions C107_one_member_refuted.

Example C107_one_member_refuted_ex : data_ok d10 /\ shufflers genx /\ split genx 0 1 d10 = Ok (fst partsx, snd partsx) /\ d_points (snd partsx) <> [] /\ (forall p, In p (d_points (snd partsx)) -> In (fitx 0%nat (fst partsx) p) (d_classes (fst partsx))) /\
  (forall t, 0 < rrx t < 1) /\ (forall t b, (rix t b <= b)%nat) /\ (forall t1 t2 t3, rrx t3 + 8 / 10 * (rrx t1 - rrx t2) <> 0) /\
  (100 * length (filter (fun p => Z.eqb (fitx 0%nat (fst partsx) p) (p_y p)) (d_points (snd partsx))) <> length (d_points (snd partsx)))%nat.
Proof. exact c107_one_member_refuted_ex. Qed.

(** C107: the seed given to the ensemble does not fix the split: two runs with the same seed can validate on different points. *)
Theorem C107_seed_refuted : exists gen (d : data Z), shufflers gen /\ data_ok d /\ forall seed, exists dev dev' tr te tr' te',
  split gen dev seed d = Ok (tr, te) /\ split gen dev' seed d = Ok (tr', te') /\ exists p, In p (d_points te) /\ ~ In (content p) (map content (d_points te')).
Proof. exact c107_seed_refuted. Qed.
Print Assumptions C107_seed_refuted.

Example C107_best_ex : exists tr te s, data_ok d10 /\ shufflers genx /\ unit_draws rrx /\ awv_train genx 0 1 1 fitx rix rrx 1 4 1 false d10 = Ok (Some (tr, te, s)).
Proof. exact c107_best_ex. Qed.

(** C107: a candidate crosses the best vector with three vectors of the population, pairwise different and different from the best one; it is scaled to length 1 in absolute value, or projected.
    If the crossing has only zeros the candidate has no numbers. *)
Theorem C107_candidate : forall (ri : nat -> nat -> nat) (rr : nat -> R) fuel m simplex (p0 : list R) (pop : list (list R)) t s t', (forall t b, (ri t b <= b)%nat) -> (0 < m)%nat -> length p0 = m -> (forall p, In p pop -> length p = m) ->
  new_sample ri rr fuel m simplex (map Some p0) (map (map Some) pop) t = Ok (Some (s, t')) ->
  exists p1 p2 p3 v, In p1 pop /\ In p2 pop /\ In p3 pop /\ NoDup [p0; p1; p2; p3] /\ crossed m p0 p1 p2 p3 v /\
    if simplex then exists x, simplex_projection (map Rabs v) = Ok x /\ s = map Some x
    else (exists x, scaled v x /\ s = map Some x) \/ ((forall a, In a v -> a = 0) /\ s = map (fun _ => None) v).
Proof. exact c107_candidate. Qed.
Print Assumptions C107_candidate.

Example C107_candidate_ex : exists s, new_sample rix rrx 1 1 false (map Some [rrx 0]) (map (map Some) [[rrx 0]; [rrx 1]; [rrx 2]; [rrx 3]]) 4 = Ok (Some (s, 9%nat)) /\ (forall t b, (rix t b <= b)%nat) /\ (forall p, In p [[rrx 0]; [rrx 1]; [rrx 2]; [rrx 3]] -> length p = 1%nat).
Proof. exact c107_candidate_ex. Qed.

