(** Specification vocabulary for the thread pool. *)
From Coq Require Import ZArith Bool Arith List.
From Verif Require Import Base M_Pool.
Import ListNotations.

(** The tasks a client is in the middle of pushing; whether it has already counted it. *)
Definition pend_c (c : client) : list task :=
  match c with CPush1 t _ | CPush2 t _ => [t] | _ => [] end.
Definition push2_c (c : client) : nat := match c with CPush2 _ _ => 1 | _ => 0 end.
(** The task a worker is executing; whether it still holds a counted task. *)
Definition run_w (w : worker) : list task := match w with WRun t => [t] | _ => [] end.
Definition body_w (w : worker) : list task := match w with WBody t => [t] | _ => [] end.
Definition busy_w (w : worker) : nat := match w with WRun _ | WBody _ | WDec _ => 1 | _ => 0 end.

(** [bl] cuts [lo, hi) into consecutive non-empty blocks. *)
Fixpoint chain (lo hi : Z) (bl : list (Z * Z)) : Prop :=
  match bl with
  | [] => lo = hi
  | (s, e) :: r => s = lo /\ (s < e)%Z /\ chain e hi r
  end.

(** The client is inside wait_for_tasks. *)
Definition waiting (c : client) : Prop :=
  match c with CWait _ _ | CWaitT _ _ | CWaitP _ _ | CWaitPT _ _ _ | CWaitPQ _ _ _ => True | _ => False end.

(** A step of a worker, or of the client at position [i] while it waits: no other client acts. *)
Inductive quiet (i : nat) : pool -> pool -> Prop :=
| Q_worker s s' a w w' b : workers s = a ++ w :: b -> wstep s w s' w' ->
    quiet i s (set_workers s' (a ++ w' :: b))
| Q_client s s' a c c' b : clients s = a ++ c :: b -> length a = i -> waiting c -> cstep s c s' c' ->
    quiet i s (set_clients s' (a ++ c' :: b)).
Inductive quiets (i : nat) : pool -> pool -> Prop :=
| qs_refl s : quiets i s s
| qs_step s1 s2 s3 : quiets i s1 s2 -> quiet i s2 s3 -> quiets i s1 s3.

(** Steps during which the pool stays paused. *)
Inductive paused_steps : pool -> pool -> Prop :=
| pd_refl s : paused_steps s s
| pd_step s1 s2 s3 : paused_steps s1 s2 -> paused s2 = true -> pstep s2 s3 -> paused_steps s1 s3.

(** Steps of the workers only. *)
Inductive worker_steps : pool -> pool -> Prop :=
| wk_refl s : worker_steps s s
| wk_step s1 s2 s3 a w w' b : workers s1 = a ++ w :: b -> wstep s1 w s2 w' ->
    worker_steps (set_workers s2 (a ++ w' :: b)) s3 -> worker_steps s1 s3.

(** Steps in which the single client does not come back to idle. *)
Inductive inside_call : pool -> pool -> Prop :=
| ic_refl s : inside_call s s
| ic_step s1 s2 s3 : inside_call s1 s2 -> clients s2 <> [CIdle] -> pstep s2 s3 -> inside_call s1 s3.
