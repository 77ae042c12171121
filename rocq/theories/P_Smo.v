(** Property theorems: Theorems about SMO.
    Each is closed by the lemma of the same (lower-case) name in T_Smo.v. *)
From Coq Require Import ZArith Bool List Permutation Arith Lia Reals Lra Psatz.
From Verif Require Import Base ListLib M_Data M_Point L_Vec Loop M_Kernel S_Kernel L_Kernel M_Perc S_Perc L_Perc M_Dll S_Dll L_Dll M_Smo S_Smo L_Smo.
From Verif Require Import T_Smo.
Import ListNotations.
Local Open Scope R_scope.

(** C44: after any number of steps the dual variables are feasible. *)
Theorem C44_steps C EPS d K kf h ops : 0 < C -> 0 < EPS -> binary d -> kernel_matrix (size d) K kf -> heap_ok h -> pairs_ok d ops ->
  exists s, take_steps C EPS d K ops (smo_start d h) = Ok s /\ length (sm_alpha s) = size d /\ dual_feasible C d (nz (sm_alpha s)).
Proof. exact (@c44_steps C EPS d K kf h ops). Qed.
Print Assumptions C44_steps.

(** C45: after any number of steps the list, read in both directions from its head, holds exactly the examples with a positive dual variable, each once. *)
Theorem C45_steps C EPS d K kf h ops : 0 < C -> 0 < EPS -> binary d -> kernel_matrix (size d) K kf -> heap_ok h -> pairs_ok d ops ->
  exists s l, take_steps C EPS d K ops (smo_start d h) = Ok s /\ dll (sm_heap s) ((sm_head s, (-1)%Z) :: l) /\ NoDup (map snd l) /\
    (forall z, In z (map snd l) <-> exists i, z = Z.of_nat i /\ (i < size d)%nat /\ 0 < nz (sm_alpha s) i) /\
    (forall a, a <> sm_head s -> ~ In a (map fst l) -> mem (sm_heap s) a = mem h a).
Proof. exact (@c45_steps C EPS d K kf h ops). Qed.
Print Assumptions C45_steps.

(** C73: the cached error of every example strictly between the bounds is its current error. *)
Theorem C73_cache C EPS d K kf h ops : 0 < C -> 0 < EPS -> binary d -> kernel_matrix (size d) K kf -> heap_ok h -> pairs_ok d ops ->
  exists s, take_steps C EPS d K ops (smo_start d h) = Ok s /\
    forall i, (i < size d)%nat -> 0 < nz (sm_alpha s) i -> nz (sm_alpha s) i < C ->
    exists e, nth_error (sm_ld s) i = Some e /\ ld_err e = value_at d kf (nz (sm_alpha s)) (sm_bias s) i - label_at d i.
Proof. exact (@c73_cache C EPS d K kf h ops). Qed.
Print Assumptions C73_cache.

(** C74: the dual objective never decreases. *)
Theorem C74_step C EPS d K kf h ops i j : 0 < C -> 0 < EPS -> binary d -> kernel_matrix (size d) K kf -> dist_nonneg (size d) kf -> heap_ok h -> pairs_ok d ops ->
  (i < size d)%nat -> (j < size d)%nat -> i <> j ->
  exists s s' b, take_steps C EPS d K ops (smo_start d h) = Ok s /\ take_step C EPS d K s i j = Ok (s', b) /\
    0 <= dual_objective d kf (nz (sm_alpha s)) <= dual_objective d kf (nz (sm_alpha s')).
Proof. exact (@c74_step C EPS d K kf h ops i j). Qed.
Print Assumptions C74_step.

Theorem C44_train C TOL EPS rnd d K kf max_epoch h : 0 < C -> 0 < EPS -> binary d -> kernel_matrix (size d) K kf -> heap_ok h ->
  exists s svs b, smo_train C TOL EPS rnd d K max_epoch h = Ok (Some (s, svs, b)) /\ length (sm_alpha s) = size d /\ dual_feasible C d (nz (sm_alpha s)).
Proof. exact (@c44_train C TOL EPS rnd d K kf max_epoch h). Qed.
Print Assumptions C44_train.

Theorem C45_train C TOL EPS rnd d K kf max_epoch h : 0 < C -> 0 < EPS -> binary d -> kernel_matrix (size d) K kf -> heap_ok h ->
  exists s svs b, smo_train C TOL EPS rnd d K max_epoch h = Ok (Some (s, svs, b)) /\ (forall a, mem (sm_heap s) a = mem h a) /\
    svs = length (filter (fun i => if Rlt_dec 0 (nz (sm_alpha s) i) then true else false) (seq 0 (size d))).
Proof. exact (@c45_train C TOL EPS rnd d K kf max_epoch h). Qed.
Print Assumptions C45_train.

Theorem C74_train C TOL EPS rnd d K kf max_epoch h : 0 < C -> 0 < EPS -> binary d -> kernel_matrix (size d) K kf -> dist_nonneg (size d) kf -> heap_ok h ->
  exists s svs b, smo_train C TOL EPS rnd d K max_epoch h = Ok (Some (s, svs, b)) /\ 0 <= dual_objective d kf (nz (sm_alpha s)).
Proof. exact (@c74_train C TOL EPS rnd d K kf max_epoch h). Qed.
Print Assumptions C74_train.

(** C75: what the answer true means. *)
Theorem C75_true C TOL EPS rnd d K kf max_epoch h s svs : 0 < C -> 0 < EPS -> binary d -> kernel_matrix (size d) K kf -> dist_pos (size d) kf -> heap_ok h ->
  smo_train C TOL EPS rnd d K max_epoch h = Ok (Some (s, svs, true)) ->
  forall i, (i < size d)%nat -> optimal_at C TOL d kf (nz (sm_alpha s)) (sm_bias s) i \/
    forall j, (j < size d)%nat -> j <> i -> no_progress C EPS d kf (nz (sm_alpha s)) i j.
Proof. exact (@c75_true C TOL EPS rnd d K kf max_epoch h s svs). Qed.
Print Assumptions C75_true.

Theorem C75_duplicates_refuted : exists C TOL EPS d K kf, 0 < C /\ 0 < TOL < 1 /\ 0 < EPS /\ binary d /\ kernel_matrix (size d) K kf /\ dist_nonneg (size d) kf /\
  exists s svs, smo_train C TOL EPS 0 d K 100 heap_empty = Ok (Some (s, svs, true)) /\
    (forall i, (i < size d)%nat -> ~ optimal_at C TOL d kf (nz (sm_alpha s)) (sm_bias s) i) /\
    exists n, in_box C d (nz (sm_alpha s)) 0 1 n /\ dual_objective d kf (nz (sm_alpha s)) + 1 < dual_objective d kf (moved d (nz (sm_alpha s)) 0 1 n).
Proof. exact c75_duplicates_refuted. Qed.
Print Assumptions C75_duplicates_refuted.

Example C44_ex : exists s, take_steps 1 (/ 1000) smo_two [[1; -3]; [-3; 9]] [(0, 1); (1, 0)]%nat (smo_start smo_two heap_empty) = Ok s /\ length (sm_alpha s) = 2%nat /\ dual_feasible 1 smo_two (nz (sm_alpha s)).
Proof. exact c44_ex. Qed.

Example C45_ex : exists s svs b, smo_train 1 (/ 1000) (/ 1000) 7 smo_two [[1; -3]; [-3; 9]] 100 heap_empty = Ok (Some (s, svs, b)) /\ (forall a, mem (sm_heap s) a = None) /\
    svs = length (filter (fun i => if Rlt_dec 0 (nz (sm_alpha s) i) then true else false) [0; 1]%nat).
Proof. exact c45_ex. Qed.

Example C73_ex : exists s, take_steps 1 (/ 1000) smo_two [[1; -3]; [-3; 9]] [(0, 1)]%nat (smo_start smo_two heap_empty) = Ok s /\ nz (sm_alpha s) 0 = / 8 /\ nz (sm_alpha s) 1 = / 8 /\
  exists e, nth_error (sm_ld s) 0 = Some e /\ ld_err e = value_at smo_two smo_two_k (nz (sm_alpha s)) (sm_bias s) 0 - label_at smo_two 0.
Proof. exact c73_ex. Qed.

Example C74_ex : exists s s' b, take_steps 1 (/ 1000) smo_two [[1; -3]; [-3; 9]] [] (smo_start smo_two heap_empty) = Ok s /\ take_step 1 (/ 1000) smo_two [[1; -3]; [-3; 9]] s 0 1 = Ok (s', b) /\
  0 = dual_objective smo_two smo_two_k (nz (sm_alpha s)) /\ dual_objective smo_two smo_two_k (nz (sm_alpha s')) = / 8.
Proof. exact c74_ex. Qed.

Example C75_true_ex : exists s svs, smo_train 1 (/ 1000) (/ 1000) 0 smo_two [[1; -3]; [-3; 9]] 100 heap_empty = Ok (Some (s, svs, true)) /\ dist_pos (size smo_two) smo_two_k /\
  nz (sm_alpha s) 0 = / 8 /\ optimal_at 1 (/ 1000) smo_two smo_two_k (nz (sm_alpha s)) (sm_bias s) 0.
Proof. exact c75_true_ex. Qed.

