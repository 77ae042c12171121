(** Property theorems: mltk::ThreadPool (C33-C36).
    Each is closed by the lemma of the same (lower-case) name in T_Pool.v. *)
From Coq Require Import ZArith Bool Arith Lia Permutation List.
From Verif Require Import Base M_Pool S_Pool L_Pool.
From Verif Require Import T_Pool.
Import ListNotations.

(** C33: parallelize_loop cuts the range between the two bounds into consecutive non-empty blocks,
    as many as requested but never more than there are indices; every index is in exactly one block. *)
Theorem C33_blocks : forall (first_index index_after_last : Z) (num_blocks threads : nat),
  let lo := Z.min first_index index_after_last in
  let hi := Z.max first_index index_after_last in
  let wanted := if Nat.eqb num_blocks 0 then threads else num_blocks in
  (0 < wanted)%nat ->
  exists bl, loop_blocks first_index index_after_last num_blocks threads = Ok bl /\
    chain lo hi bl /\
    Z.of_nat (length bl) = Z.min (Z.of_nat wanted) (hi - lo) /\
    forall i, length (filter (fun b => Z.leb (fst b) i && Z.ltb i (snd b)) bl) = if Z.leb lo i && Z.ltb i hi then 1%nat else 0%nat.
Proof. exact c33_blocks. Qed.
Print Assumptions C33_blocks.

Example C33_blocks_ex : loop_blocks 10 (-3) 4 8 = Ok [(-3, 0); (0, 3); (3, 6); (6, 10)]%Z /\
  loop_blocks 0 2 5 8 = Ok [(0, 1); (1, 2)]%Z.
Proof. exact c33_blocks_ex. Qed.

(** C33: when parallelize_loop has returned, every block it pushed has been executed. *)
Theorem C33_waits : forall n m s mine, psteps (pool_init n m) s -> In (CParRet mine) (clients s) ->
  forall t, In t mine -> In t (finished s).
Proof. exact c33_waits. Qed.
Print Assumptions C33_waits.

(** C34: in every reachable state, each task handed to the pool is exactly one of: being pushed,
    queued, executing, finished. *)
Theorem C34_conservation : forall n m s, psteps (pool_init n m) s ->
  NoDup (issued s) /\
  Permutation (issued s) (flat_map pend_c (clients s) ++ queue s ++ flat_map run_w (workers s) ++ finished s).
Proof. exact c34_conservation. Qed.
Print Assumptions C34_conservation.

(** C34: tasks start in the order in which they entered the queue, each once. *)
Theorem C34_fifo : forall n m s, psteps (pool_init n m) s ->
  pushed s = started s ++ queue s /\ NoDup (pushed s) /\ (forall t, In t (finished s) -> In t (started s)).
Proof. exact c34_fifo. Qed.
Print Assumptions C34_fifo.

(** C34: the histories only grow: nothing is started twice or taken back. *)
Theorem C34_history : forall s s', psteps s s' ->
  (exists l, pushed s' = pushed s ++ l) /\ (exists l, started s' = started s ++ l) /\ (exists l, finished s' = finished s ++ l).
Proof. exact c34_history. Qed.
Print Assumptions C34_history.

(** C35: when wait_for_tasks returns through its not-paused branch, every task that was in the
    queue's history when it was called has finished. *)
Theorem C35_wait : forall n m s snap k, psteps (pool_init n m) s -> In (CWaitRet snap k false) (clients s) ->
  forall t, In t snap -> In t (finished s).
Proof. exact c35_wait. Qed.
Print Assumptions C35_wait.

(** C35: the task counter counts exactly the tasks being pushed, queued or held by a worker; so a
    zero counter means the pool is idle, and the counter never goes below zero. *)
Theorem C35_counter : forall n m s, psteps (pool_init n m) s ->
  total s = (list_sum (map push2_c (clients s)) + length (queue s) + list_sum (map busy_w (workers s)))%nat.
Proof. exact c35_counter. Qed.
Print Assumptions C35_counter.

(** C35, paused branch: if no worker has passed the pause check and nobody pushes meanwhile, then when
    wait_for_tasks returns while paused no task is being executed. *)
Theorem C35_wait_paused : forall n m i s0 s1 snap k snap' k' p,
  psteps (pool_init n m) s0 -> paused s0 = true ->
  (forall w, In w (workers s0) -> w <> WPop) ->
  (forall c, In c (clients s0) -> push2_c c = 0%nat) ->
  nth_error (clients s0) i = Some (CWait snap k) -> quiets i s0 s1 ->
  nth_error (clients s1) i = Some (CWaitRet snap' k' p) ->
  p = true /\ forall w, In w (workers s1) -> busy_w w = 0%nat.
Proof. exact c35_wait_paused. Qed.
Print Assumptions C35_wait_paused.

(** C35, paused branch in general: the count of running tasks is read in two separate accesses, so with
    another thread pushing, wait_for_tasks can return while paused and a task is executing. *)
Theorem C35_wait_paused_refuted : exists s snap t, psteps (pool_init 1 2) s /\ paused s = true /\
  In (CWaitRet snap KwReturn true) (clients s) /\ In (WRun t) (workers s).
Proof. exact c35_wait_paused_refuted. Qed.
Print Assumptions C35_wait_paused_refuted.

(** C35: the same with a single client, when a worker was past the pause check and the queue length is
    read before the counter. *)
Theorem C35_wait_paused_single_refuted : exists s snap t, psteps (pool_init 1 1) s /\ paused s = true /\
  In (CWaitRet snap KwReturn true) (clients s) /\ In (WRun t) (workers s).
Proof. exact c35_wait_paused_single_refuted. Qed.
Print Assumptions C35_wait_paused_single_refuted.

(** C35: a reachable state in which wait_for_tasks has returned after real work. *)
Example C35_wait_ex : exists s t, psteps (pool_init 1 1) s /\ In (CWaitRet [t] KwReturn false) (clients s) /\ In t (finished s).
Proof. exact c35_wait_ex. Qed.

(** C36: while the pool stays paused and no worker is between its pause check and the queue, no task starts. *)
Theorem C36_pause : forall s s', paused_steps s s' -> paused s = true -> (forall w, In w (workers s) -> w <> WPop) ->
  started s' = started s.
Proof. exact c36_pause. Qed.
Print Assumptions C36_pause.

(** C36: a worker past the check starts a task although the pool is paused. *)
Theorem C36_pause_refuted : exists s s', psteps (pool_init 1 1) s /\ paused s = true /\ started s = [] /\
  paused_steps s s' /\ paused s' = true /\ started s' <> [].
Proof. exact c36_pause_refuted. Qed.
Print Assumptions C36_pause_refuted.

(** C36: after the destructor returned (not paused) every task pushed before it has finished, and with a
    single user thread all workers have ended. *)
Theorem C36_destructor : forall n s snap p, psteps (pool_init n 1) s -> clients s = [CDead snap p] ->
  Forall (eq WExit) (workers s) /\ (p = false -> forall t, In t snap -> In t (finished s)).
Proof. exact c36_destructor. Qed.
Print Assumptions C36_destructor.

(** C36: destroying a paused pool drops the queued tasks. *)
Theorem C36_destructor_paused_refuted : exists s snap, psteps (pool_init 1 1) s /\ clients s = [CDead snap true] /\
  snap <> [] /\ finished s = [].
Proof. exact c36_destructor_paused_refuted. Qed.
Print Assumptions C36_destructor_paused_refuted.

(** C36: reset (single user thread) restores the pause flag, restarts with the requested number of
    workers, and loses no task. *)
Theorem C36_reset : forall n k s0 s1 s2 s3, psteps (pool_init n 1) s0 ->
  clients s0 = [CIdle] ->
  s1 = set_clients (mkPool (total s0) (queue s0) true (running s0) (br s0) (workers s0) (clients s0)
                           (issued s0) (pushed s0) (started s0) (finished s0)) [CWait (pushed s0) (KwReset (paused s0) k)] ->
  inside_call s1 s2 -> clients s2 <> [CIdle] -> pstep s2 s3 -> clients s3 = [CIdle] ->
  paused s3 = paused s0 /\ running s3 = true /\ workers s3 = repeat WLoop k /\
  pushed s3 = pushed s0 /\ started s3 ++ queue s3 = started s0 ++ queue s0.
Proof. exact c36_reset. Qed.
Print Assumptions C36_reset.

Example C36_reset_ex : exists s0 s2 s3, psteps (pool_init 1 1) s0 /\ clients s0 = [CIdle] /\ queue s0 <> [] /\ paused s0 = true /\
  inside_call (set_clients (mkPool (total s0) (queue s0) true (running s0) (br s0) (workers s0) (clients s0)
                           (issued s0) (pushed s0) (started s0) (finished s0)) [CWait (pushed s0) (KwReset (paused s0) 3)]) s2 /\
  clients s2 <> [CIdle] /\ pstep s2 s3 /\ clients s3 = [CIdle].
Proof. exact c36_reset_ex. Qed.

Theorem C35_progress : forall n m s, psteps (pool_init n m) s -> running s = true -> paused s = false ->
  (exists w, In w (workers s) /\ w <> WExit) -> (forall c, In c (clients s) -> push2_c c = 0%nat) ->
  exists s', worker_steps s s' /\ clients s' = clients s /\ total s' = 0%nat /\
             (forall t, In t (pushed s) -> In t (finished s')).
Proof. exact c35_progress. Qed.
Print Assumptions C35_progress.

(** A reachable state with one task finished, one executing and one queued. *)
Example C34_ex : exists s t0 t1 t2, psteps (pool_init 1 1) s /\ finished s = [t0] /\ started s = [t0; t1] /\ workers s = [WRun t1] /\ queue s = [t2].
Proof. exact c34_ex. Qed.

(** A parallelize_loop of two blocks that has returned. *)
Example C33_waits_ex : exists s, psteps (pool_init 1 1) s /\ clients s = [CParRet [(0, 7); (1, 7)]%nat].
Proof. exact c33_waits_ex. Qed.

(** A destructor that returned after running the pending task. *)
Example C36_destructor_ex : exists s t, psteps (pool_init 1 1) s /\ clients s = [CDead [t] false].
Proof. exact c36_destructor_ex. Qed.

(** A paused pool with a task still executing, from which the waiting client does return. *)
Example C35_wait_paused_ex : exists s0 s1 t q snap, psteps (pool_init 1 1) s0 /\ paused s0 = true /\ workers s0 = [WRun t] /\ queue s0 = [q] /\
  clients s0 = [CWait snap KwReturn] /\ quiets 0 s0 s1 /\ clients s1 = [CWaitRet snap KwReturn true].
Proof. exact c35_wait_paused_ex. Qed.

