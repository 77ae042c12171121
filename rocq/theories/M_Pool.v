(** Model of mltk::ThreadPool
    (/repo/subprojects/ufjfmltk-core/include/ufjfmltk/core/ThreadPool.hpp).

    Part 1: the block partition of parallelize_loop, a pure function.
    Part 2: the pool as a small-step machine: any number of client threads and workers, one atomic
    access (atomic variable or critical section of queue_mutex) per step, any interleaving.

    Simplifications: sequentially consistent atomics (the code uses the default ordering); counters
    do not overflow; tasks terminate and do not throw out of the worker (an escaping exception ends
    the process); sleep_or_yield is a stutter; the value returned through a future by submit is not
    modelled. *)
From Coq Require Import ZArith Bool Arith List.
From Verif Require Import Base.
Import ListNotations.

(** ** Part 1 *)

(** ThreadPool.hpp:126-160: the (start, end) pairs pushed by parallelize_loop, in order.
    [threads] is thread_count. Division by num_blocks = 0 is UB. *)
Definition loop_blocks (first_index index_after_last : Z) (num_blocks threads : nat)
  : outcome (list (Z * Z)) :=
  if Z.eqb first_index index_after_last then Ok []
  else
    let the_first := Z.min first_index index_after_last in
    let last := (Z.max first_index index_after_last - 1)%Z in
    let nb := if Nat.eqb num_blocks 0 then threads else num_blocks in
    if Nat.eqb nb 0 then UB
    else
      let total_size := (last - the_first + 1)%Z in
      let bs := Z.div total_size (Z.of_nat nb) in
      let '(bs', nb') := if Z.eqb bs 0 then (1%Z, if Z.ltb 1 total_size then Z.to_nat total_size else 1%nat)
                         else (bs, nb) in
      Ok (map (fun t => ((Z.of_nat t * bs' + the_first)%Z,
                         if Nat.eqb t (nb' - 1) then (last + 1)%Z
                         else ((Z.of_nat t + 1) * bs' + the_first)%Z))
              (seq 0 nb')).

(** ** Part 2 *)

(** A task: a unique number and the group (the parallelize_loop call) it belongs to. ThreadPool.hpp:155-159, 173-181. *)
Definition task : Type := (nat * nat)%type.

(** Program counter of a worker thread, ThreadPool.hpp:384-399. *)
Inductive worker : Type :=
| WLoop                 (* about to read [running] *)
| WCheck                (* about to read [paused] *)
| WPop                  (* [paused] was false; about to call pop_task *)
| WRun (t : task)       (* executing the task *)
| WBody (t : task)      (* user function done; about to do blocks_running-- (ThreadPool.hpp:158) *)
| WDec (t : task)       (* task returned; about to do tasks_total-- *)
| WExit.                (* left the loop *)

(** What a client does after a push. ThreadPool.hpp:149-165, 173-181. *)
Inductive kont : Type :=
| KIdle                                          (* plain push_task / submit: return *)
| KPar (g rem : nat) (mine : list task).         (* inside parallelize_loop: [rem] blocks to push *)

(** What a client does after wait_for_tasks. ThreadPool.hpp:59-67, 204-216. *)
Inductive kwait : Type :=
| KwReturn                                       (* the user called wait_for_tasks *)
| KwReset (was : bool) (n : nat)                 (* inside reset(n) *)
| KwDestroy.                                     (* inside the destructor *)

(** Program counter of a client thread. [snap] is ghost: the tasks in the queue's history when
    wait_for_tasks was called. ThreadPool.hpp:126-165, 173-181, 204-216. *)
Inductive client : Type :=
| CIdle
| CPush1 (t : task) (k : kont)                   (* about to do tasks_total++ (ThreadPool.hpp:176) *)
| CPush2 (t : task) (k : kont)                   (* about to push under queue_mutex (177-180) *)
| CPar (g rem : nat) (mine : list task)          (* top of the block loop / waiting (150-164) *)
| CParRet (mine : list task)                     (* parallelize_loop returned *)
| CWait (snap : list task) (k : kwait)           (* about to read [paused] (294) *)
| CWaitT (snap : list task) (k : kwait)          (* read false; about to read tasks_total (296) *)
| CWaitP (snap : list task) (k : kwait)          (* read true; about to evaluate get_tasks_running() *)
| CWaitPT (snap : list task) (k : kwait) (v : nat)  (* tasks_total read first (85) *)
| CWaitPQ (snap : list task) (k : kwait) (q : nat)  (* queue size read first *)
| CWaitRet (snap : list task) (k : kwait) (p : bool)   (* wait_for_tasks returned; [p]: via the paused branch *)
| CJoin (snap : list task) (k : kwait) (p : bool)      (* running = false done; joining the workers *)
| CRestart (was : bool) (n : nat)                      (* reset: threads joined; about to restore paused *)
| CRestart2 (n : nat)                                  (* reset: paused restored; about to set running *)
| CRestart3 (n : nat)                                  (* reset: running set; about to create threads *)
| CDead (snap : list task) (p : bool).                 (* destructor returned *)

(** The members of the pool (ThreadPool.hpp:404-545), the threads, and ghost histories. *)
Record pool : Type := mkPool {
  total : nat;               (* tasks_total *)
  queue : list task;         (* tasks *)
  paused : bool;
  running : bool;
  br : nat -> nat;           (* blocks_running of each group *)
  workers : list worker;     (* threads *)
  clients : list client;
  (* ghost history *)
  issued : list task;        (* every task ever handed to the pool *)
  pushed : list task;        (* in the order they entered the queue *)
  started : list task;       (* in the order they left it *)
  finished : list task }.    (* whose function has returned *)

(** blocks_running++ of group [g] (ThreadPool.hpp:154). *)
Definition bump (f : nat -> nat) (g : nat) : nat -> nat := fun x => if Nat.eqb x g then S (f x) else f x.
(** blocks_running-- of group [g] (ThreadPool.hpp:158). *)
Definition drop (f : nat -> nat) (g : nat) : nat -> nat := fun x => if Nat.eqb x g then f x - 1 else f x.

(** ThreadPool.hpp:155-160: back in the loop of parallelize_loop, or back at the caller. *)
Definition after_push (t : task) (k : kont) : client :=
  match k with KIdle => CIdle | KPar g rem mine => CPar g rem (mine ++ [t]) end.

(** One step of one thread. ThreadPool.hpp:384-399. *)
Inductive wstep : pool -> worker -> pool -> worker -> Prop :=   (* ThreadPool.hpp:386-398 *)
| W_enter s : running s = true -> wstep s WLoop s WCheck
| W_exit s : running s = false -> wstep s WLoop s WExit
| W_go s : paused s = false -> wstep s WCheck s WPop
| W_hold s : paused s = true -> wstep s WCheck s WLoop
| W_none s : queue s = [] -> wstep s WPop s WLoop
| W_take s t q : queue s = t :: q ->
    wstep s WPop (mkPool (total s) q (paused s) (running s) (br s) (workers s) (clients s)
                         (issued s) (pushed s) (started s ++ [t]) (finished s)) (WRun t)
| W_done s t :
    wstep s (WRun t) (mkPool (total s) (queue s) (paused s) (running s) (br s) (workers s) (clients s)
                             (issued s) (pushed s) (started s) (finished s ++ [t])) (WBody t)
| W_block s t :
    wstep s (WBody t) (mkPool (total s) (queue s) (paused s) (running s) (drop (br s) (snd t)) (workers s) (clients s)
                              (issued s) (pushed s) (started s) (finished s)) (WDec t)
| W_dec s t :
    wstep s (WDec t) (mkPool (total s - 1) (queue s) (paused s) (running s) (br s) (workers s) (clients s)
                             (issued s) (pushed s) (started s) (finished s)) WLoop.

(** ThreadPool.hpp:59-67, 126-165, 173-181, 204-216: one step of a client. *)
Inductive cstep : pool -> client -> pool -> client -> Prop :=
(* push_task / submit *)
| C_push s t : ~ In (fst t) (map fst (issued s)) ->
    cstep s CIdle (mkPool (total s) (queue s) (paused s) (running s) (bump (br s) (snd t)) (workers s) (clients s)
                          (issued s ++ [t]) (pushed s) (started s) (finished s)) (CPush1 t KIdle)
| C_total s t k :
    cstep s (CPush1 t k) (mkPool (S (total s)) (queue s) (paused s) (running s) (br s) (workers s) (clients s)
                                 (issued s) (pushed s) (started s) (finished s)) (CPush2 t k)
| C_queue s t k :
    cstep s (CPush2 t k) (mkPool (total s) (queue s ++ [t]) (paused s) (running s) (br s) (workers s) (clients s)
                                 (issued s) (pushed s ++ [t]) (started s) (finished s)) (after_push t k)
(* parallelize_loop *)
| C_par s g n : cstep s CIdle s (CPar g n [])
| C_par_push s g n mine id : ~ In id (map fst (issued s)) ->
    cstep s (CPar g (S n) mine)
          (mkPool (total s) (queue s) (paused s) (running s) (bump (br s) g) (workers s) (clients s)
                  (issued s ++ [(id, g)]) (pushed s) (started s) (finished s)) (CPush1 (id, g) (KPar g n mine))
| C_par_ret s g mine : br s g = 0 -> cstep s (CPar g 0 mine) s (CParRet mine)
| C_par_wait s g mine : br s g <> 0 -> cstep s (CPar g 0 mine) s (CPar g 0 mine)
| C_par_idle s mine : cstep s (CParRet mine) s CIdle
(* writing the public flag [paused] *)
| C_pause s b : cstep s CIdle (mkPool (total s) (queue s) b (running s) (br s) (workers s) (clients s)
                                      (issued s) (pushed s) (started s) (finished s)) CIdle
(* wait_for_tasks, reset, destructor *)
| C_wait s : cstep s CIdle s (CWait (pushed s) KwReturn)
| C_reset s n : cstep s CIdle (mkPool (total s) (queue s) true (running s) (br s) (workers s) (clients s)
                                      (issued s) (pushed s) (started s) (finished s))
                              (CWait (pushed s) (KwReset (paused s) n))
| C_destroy s : cstep s CIdle s (CWait (pushed s) KwDestroy)
| C_wait_np s snap k : paused s = false -> cstep s (CWait snap k) s (CWaitT snap k)
| C_wait_p s snap k : paused s = true -> cstep s (CWait snap k) s (CWaitP snap k)
| C_waitT_ret s snap k : total s = 0 -> cstep s (CWaitT snap k) s (CWaitRet snap k false)
| C_waitT_again s snap k : total s <> 0 -> cstep s (CWaitT snap k) s (CWait snap k)
| C_waitP_T s snap k : cstep s (CWaitP snap k) s (CWaitPT snap k (total s))
| C_waitP_Q s snap k : cstep s (CWaitP snap k) s (CWaitPQ snap k (length (queue s)))
| C_waitPT_ret s snap k v : v = length (queue s) -> cstep s (CWaitPT snap k v) s (CWaitRet snap k true)
| C_waitPT_again s snap k v : v <> length (queue s) -> cstep s (CWaitPT snap k v) s (CWait snap k)
| C_waitPQ_ret s snap k q : q = total s -> cstep s (CWaitPQ snap k q) s (CWaitRet snap k true)
| C_waitPQ_again s snap k q : q <> total s -> cstep s (CWaitPQ snap k q) s (CWait snap k)
| C_ret s snap p : cstep s (CWaitRet snap KwReturn p) s CIdle
| C_stop s snap k p : k <> KwReturn ->
    cstep s (CWaitRet snap k p) (mkPool (total s) (queue s) (paused s) false (br s) (workers s) (clients s)
                                        (issued s) (pushed s) (started s) (finished s)) (CJoin snap k p)
| C_joined_d s snap p : Forall (eq WExit) (workers s) -> cstep s (CJoin snap KwDestroy p) s (CDead snap p)
| C_joined_r s snap was n p : Forall (eq WExit) (workers s) -> cstep s (CJoin snap (KwReset was n) p) s (CRestart was n)
| C_restore s was n : cstep s (CRestart was n) (mkPool (total s) (queue s) was (running s) (br s) (workers s) (clients s)
                                        (issued s) (pushed s) (started s) (finished s)) (CRestart2 n)
| C_rerun s n : cstep s (CRestart2 n) (mkPool (total s) (queue s) (paused s) true (br s) (workers s) (clients s)
                                        (issued s) (pushed s) (started s) (finished s)) (CRestart3 n).

(** The scheduler picks any worker or any client. Any interleaving (ThreadPool.hpp:331-337 starts the workers). *)
Definition set_workers (s : pool) ws : pool :=
  mkPool (total s) (queue s) (paused s) (running s) (br s) ws (clients s) (issued s) (pushed s) (started s) (finished s).
(** The clients replaced; see [pstep] (ThreadPool.hpp:126-216). *)
Definition set_clients (s : pool) cs : pool :=
  mkPool (total s) (queue s) (paused s) (running s) (br s) (workers s) cs (issued s) (pushed s) (started s) (finished s).

(** One step of any thread (ThreadPool.hpp:126-399). *)
Inductive pstep : pool -> pool -> Prop :=
| P_worker s s' a w w' b : workers s = a ++ w :: b -> wstep s w s' w' ->
    pstep s (set_workers s' (a ++ w' :: b))
| P_client s s' a c c' b : clients s = a ++ c :: b -> cstep s c s' c' ->
    pstep s (set_clients s' (a ++ c' :: b))
(* reset: create_threads (ThreadPool.hpp:204-216, 342-348) replaces the joined threads by [n] new ones;
   two overlapping resets (undefined behaviour in the code) are not given a step here *)
| P_create s a n b : clients s = a ++ CRestart3 n :: b -> Forall (eq WExit) (workers s) ->
    pstep s (set_clients (set_workers s (repeat WLoop n)) (a ++ CIdle :: b)).

(** An execution (ThreadPool.hpp:126-399). *)
Inductive psteps : pool -> pool -> Prop :=
| ps_refl s : psteps s s
| ps_step s1 s2 s3 : psteps s1 s2 -> pstep s2 s3 -> psteps s1 s3.

(** ThreadPool.hpp:53-57: a new pool with [n] workers, used by [m] client threads. *)
Definition pool_init (n m : nat) : pool :=
  mkPool 0 [] false true (fun _ => 0) (repeat WLoop n) (repeat CIdle m) [] [] [] [].
