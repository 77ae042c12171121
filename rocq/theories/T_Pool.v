(** mltk::ThreadPool (C33-C36). *)
From Coq Require Import ZArith Bool Arith Lia Permutation List.
From Verif Require Import Base M_Pool S_Pool L_Pool.
Import ListNotations.

Lemma chain_blocks bs first hi nb : (0 < bs)%Z -> (Z.of_nat (nb - 1) * bs + first < hi)%Z -> (0 < nb)%nat -> forall k t,
  t + k = nb -> 0 < k ->
  chain (Z.of_nat t * bs + first) hi
    (map (fun t => ((Z.of_nat t * bs + first)%Z, if Nat.eqb t (nb - 1) then hi else ((Z.of_nat t + 1) * bs + first)%Z)) (seq t k)).
Proof.
  intros Hb Hl Hn k. induction k as [|k IH]; intros t Ht Hk; [lia|].
  cbn [seq map chain]. split; auto. destruct (Nat.eqb_spec t (nb - 1)) as [e|ne].
  - assert (k = 0) as -> by lia. cbn. subst t. split; auto.
  - split; [lia|]. specialize (IH (S t)). rewrite Nat2Z.inj_succ in IH. unfold Z.succ in IH. apply IH; lia.
Qed.

Lemma chain_count lo hi bl : chain lo hi bl -> forall i,
  (length (filter (fun b => Z.leb (fst b) i && Z.ltb i (snd b)) bl) = if Z.leb lo i && Z.ltb i hi then 1 else 0)%nat /\ (lo <= hi)%Z.
Proof.
  revert lo. induction bl as [|[s e] bl IH]; intros lo H i; cbn [chain] in H.
  - subst. split; [|lia]. cbn. destruct (Z.leb_spec hi i); destruct (Z.ltb_spec i hi); auto; lia.
  - destruct H as (-> & Hlt & H). destruct (IH _ H i) as [E L]. split; [|lia]. cbn [filter fst snd].
    destruct (Z.leb_spec lo i); destruct (Z.ltb_spec i e); cbn [andb length]; rewrite E;
      destruct (Z.leb_spec e i); destruct (Z.ltb_spec i hi); auto; lia.
Qed.

(** C33: parallelize_loop cuts the range between the two bounds into consecutive non-empty blocks,
    as many as requested but never more than there are indices; every index is in exactly one block. *)
Lemma c33_blocks : forall (first_index index_after_last : Z) (num_blocks threads : nat),
  let lo := Z.min first_index index_after_last in
  let hi := Z.max first_index index_after_last in
  let wanted := if Nat.eqb num_blocks 0 then threads else num_blocks in
  (0 < wanted)%nat ->
  exists bl, loop_blocks first_index index_after_last num_blocks threads = Ok bl /\
    chain lo hi bl /\
    Z.of_nat (length bl) = Z.min (Z.of_nat wanted) (hi - lo) /\
    forall i, length (filter (fun b => Z.leb (fst b) i && Z.ltb i (snd b)) bl) = if Z.leb lo i && Z.ltb i hi then 1%nat else 0%nat.
Proof.
  intros f l nb th lo hi wanted Hw. unfold loop_blocks. fold lo hi wanted.
  assert (lo <= hi)%Z as Hlh by (unfold lo, hi; lia).
  match goal with |- exists bl, ?X = Ok bl /\ _ => set (rhs := X) end.
  enough (exists bl, rhs = Ok bl /\ chain lo hi bl /\ Z.of_nat (length bl) = Z.min (Z.of_nat wanted) (hi - lo)) as (bl & E & C & L).
  { exists bl. split; [exact E|]. split; auto. split; auto. intro i. apply (proj1 (chain_count _ _ _ C i)). }
  unfold rhs; clear rhs. destruct (Z.eqb_spec f l) as [e|ne].
  - exists []. split; auto. cbn. unfold lo, hi. lia.
  - assert (lo < hi)%Z as Hlt by (unfold lo, hi; lia).
    destruct (Nat.eqb_spec wanted 0); [lia|]. replace (hi - 1 - lo + 1)%Z with (hi - lo)%Z by lia.
    replace (hi - 1 + 1)%Z with hi by lia.
    set (bs := ((hi - lo) / Z.of_nat wanted)%Z).
    pose proof (Z.div_mod (hi - lo) (Z.of_nat wanted)) as DM. fold bs in DM.
    pose proof (Z.mod_pos_bound (hi - lo) (Z.of_nat wanted)) as MB.
    destruct (Z.eqb_spec bs 0) as [e0|ne0].
    + assert (hi - lo < Z.of_nat wanted)%Z by nia.
      assert ((if Z.ltb 1 (hi - lo) then Z.to_nat (hi - lo) else 1%nat) = Z.to_nat (hi - lo)) as ->.
      { destruct (Z.ltb_spec 1 (hi - lo)); auto. assert (hi - lo = 1)%Z as -> by lia. auto. }
      eexists. split; [reflexivity|]. split.
      * pose proof (chain_blocks 1 lo hi (Z.to_nat (hi - lo))) as X. specialize (X ltac:(lia) ltac:(lia) ltac:(lia) (Z.to_nat (hi - lo)) 0%nat ltac:(lia) ltac:(lia)).
        exact X.
      * rewrite map_length, seq_length. lia.
    + assert (0 < bs)%Z by (assert (0 <= bs)%Z by (apply Z.div_pos; lia); lia).
      eexists. split; [reflexivity|]. split.
      * pose proof (chain_blocks bs lo hi wanted) as X. specialize (X ltac:(lia) ltac:(nia) ltac:(lia) wanted 0%nat ltac:(lia) ltac:(lia)). exact X.
      * rewrite map_length, seq_length. nia.
Qed.

Lemma c33_blocks_ex : loop_blocks 10 (-3) 4 8 = Ok [(-3, 0); (0, 3); (3, 6); (6, 10)]%Z /\
  loop_blocks 0 2 5 8 = Ok [(0, 1); (1, 2)]%Z.
Proof. split; reflexivity. Qed.

(** C33: when parallelize_loop has returned, every block it pushed has been executed. *)
Lemma c33_waits : forall n m s mine, psteps (pool_init n m) s -> In (CParRet mine) (clients s) ->
  forall t, In t mine -> In t (finished s).
Proof. intros n m s mine H Hc t Ht. pose proof (psteps_inv _ _ (init_inv n m) H) as I. exact (i_cl _ I _ Hc _ Ht). Qed.

(** C34: in every reachable state, each task handed to the pool is exactly one of: being pushed,
    queued, executing, finished. *)
Lemma c34_conservation : forall n m s, psteps (pool_init n m) s ->
  NoDup (issued s) /\
  Permutation (issued s) (flat_map pend_c (clients s) ++ queue s ++ flat_map run_w (workers s) ++ finished s).
Proof.
  intros n m s H. pose proof (psteps_inv _ _ (init_inv n m) H) as [N P F R T B C]. split.
  - eapply NoDup_map_inv; eauto.
  - apply (Permutation_count_occ task_dec). intro t. rewrite P, F, !count_occ_app, R. lia.
Qed.

(** C34: tasks start in the order in which they entered the queue, each once. *)
Lemma c34_fifo : forall n m s, psteps (pool_init n m) s ->
  pushed s = started s ++ queue s /\ NoDup (pushed s) /\ (forall t, In t (finished s) -> In t (started s)).
Proof.
  intros n m s H. pose proof (psteps_inv _ _ (init_inv n m) H) as [N P F R T B C]. split; auto. split.
  - apply NoDup_map_inv in N. rewrite (NoDup_count_occ task_dec) in *. intro t. specialize (N t). specialize (P t). lia.
  - intros t Ht. apply cnt_In. apply cnt_In in Ht. rewrite R. lia.
Qed.

(** C34: the histories only grow: nothing is started twice or taken back. *)
Lemma c34_history : forall s s', psteps s s' ->
  (exists l, pushed s' = pushed s ++ l) /\ (exists l, started s' = started s ++ l) /\ (exists l, finished s' = finished s ++ l).
Proof.
  intros s s' H. induction H as [s|s1 s2 s3 H (IH1 & IH2 & IH3) H2].
  - repeat split; exists []; rewrite app_nil_r; auto.
  - destruct IH1 as (l1 & E1). destruct IH2 as (l2 & E2). destruct IH3 as (l3 & E3).
    assert ((exists l, pushed s3 = pushed s2 ++ l) /\ (exists l, started s3 = started s2 ++ l) /\ (exists l, finished s3 = finished s2 ++ l)) as (F1 & F2 & F3).
    { destruct H2 as [s s' a w w' b E W|s s' a c c' b E W|s a k b E W].
      - destruct W; cbn; repeat split; solve [eexists; reflexivity | exists []; rewrite app_nil_r; reflexivity].
      - destruct W; cbn; repeat split; solve [eexists; reflexivity | exists []; rewrite app_nil_r; reflexivity].
      - cbn; repeat split; exists []; rewrite app_nil_r; reflexivity. }
    destruct F1 as (k1 & ->). destruct F2 as (k2 & ->). destruct F3 as (k3 & ->).
    rewrite E1, E2, E3, <- !app_assoc. repeat split; eexists; reflexivity.
Qed.

(** C35: when wait_for_tasks returns through its not-paused branch, every task that was in the
    queue's history when it was called has finished. *)
Lemma c35_wait : forall n m s snap k, psteps (pool_init n m) s -> In (CWaitRet snap k false) (clients s) ->
  forall t, In t snap -> In t (finished s).
Proof. intros n m s snap k H Hc t Ht. pose proof (psteps_inv _ _ (init_inv n m) H) as I. exact (i_cl _ I _ Hc _ Ht). Qed.

(** C35: the task counter counts exactly the tasks being pushed, queued or held by a worker; so a
    zero counter means the pool is idle, and the counter never goes below zero. *)
Lemma c35_counter : forall n m s, psteps (pool_init n m) s ->
  total s = (list_sum (map push2_c (clients s)) + length (queue s) + list_sum (map busy_w (workers s)))%nat.
Proof. intros n m s H. apply (psteps_inv _ _ (init_inv n m) H). Qed.

Definition no_pop (s : pool) : Prop := forall w, In w (workers s) -> w <> WPop.

Lemma in_mid {A} (a b : list A) x : In x (a ++ x :: b).
Proof. apply in_or_app. right. left. auto. Qed.

Lemma wstep_paused s s' a w w' b : paused s = true -> no_pop s -> workers s = a ++ w :: b -> wstep s w s' w' ->
  paused s' = true /\ no_pop (set_workers s' (a ++ w' :: b)) /\ queue s' = queue s /\ started s' = started s /\ clients s' = clients s.
Proof.
  intros Hp Hn E H. assert (w <> WPop) as Hw by (apply Hn; rewrite E; apply in_mid).
  assert (forall x, In x a \/ In x b -> x <> WPop) as Ho.
  { intros x Hx. apply Hn. rewrite E. apply in_or_app. destruct Hx; [left|right; right]; auto. }
  inversion H; subst; try congruence; cbn; repeat split; auto; intros x Hx; apply in_app_or in Hx; cbn in Hx;
    destruct Hx as [Hx|[<-|Hx]]; auto; discriminate.
Qed.

Lemma app_mid_inj {A} (a a' b b' : list A) x x' : a ++ x :: b = a' ++ x' :: b' -> length a = length a' -> a = a' /\ x = x' /\ b = b'.
Proof.
  revert a'. induction a as [|y a IH]; intros [|y' a'] E L; cbn in *; try discriminate; [injection E; auto|].
  injection E as -> E. destruct (IH a' E) as (-> & -> & ->); auto.
Qed.

Lemma quiet_lemma n m i s0 s1 snap k : 
  psteps (pool_init n m) s0 -> paused s0 = true -> no_pop s0 ->
  (forall c, In c (clients s0) -> push2_c c = 0%nat) ->
  nth_error (clients s0) i = Some (CWait snap k) -> quiets i s0 s1 ->
  inv s1 /\ paused s1 = true /\ no_pop s1 /\ queue s1 = queue s0 /\ (forall c, In c (clients s1) -> push2_c c = 0%nat) /\
  match nth_error (clients s1) i with
  | Some (CWait _ _) | Some (CWaitP _ _) => True
  | Some (CWaitPT _ _ v) => (total s1 <= v)%nat
  | Some (CWaitPQ _ _ q) => q = length (queue s1)
  | Some (CWaitRet _ _ p) => p = true /\ list_sum (map busy_w (workers s1)) = 0%nat
  | _ => False
  end.
Proof.
  intros H Hp Hn Hc Hi Q. pose proof (psteps_inv _ _ (init_inv n m) H) as I0.
  induction Q as [s|s1 s2 s3 Q IH Q2].
  - rewrite Hi. repeat split; auto; apply I0.
  - destruct (IH H Hp Hn Hc Hi I0) as (I2 & P2 & N2 & E2 & C2 & M2). clear IH.
    destruct Q2 as [s s' a w w' b E W|s s' a c c' b E L Wt W].
    + destruct (wstep_paused _ _ _ _ _ _ P2 N2 E W) as (P3 & N3 & E3 & _ & E4).
      assert (inv (set_workers s' (a ++ w' :: b))) as I3 by (eapply wstep_inv; eauto).
      split; auto. split; auto. split; auto. split; [cbn; congruence|]. split; [cbn; rewrite E4; auto|].
      cbn [set_workers clients queue total workers]. rewrite E4.
      destruct (nth_error (clients s) i) as [c|] eqn:En; auto.
      assert (total s' <= total s)%nat as Ht by (inversion W; subst; cbn; lia).
      destruct c; auto; try lia; try congruence.
      destruct M2 as [M2 M3]. split; auto. rewrite E in M3.
      assert (w <> WPop) as Hw by (apply N2; rewrite E; apply in_mid).
      assert (busy_w w' <= busy_w w)%nat as Hb by (inversion W; subst; cbn; auto; congruence).
      rewrite !map_app, !list_sum_app in *. cbn [map list_sum fold_right] in *. lia.
    + assert (nth_error (clients s) i = Some c) as En by (rewrite E; subst i; rewrite nth_error_app2, Nat.sub_diag by lia; auto).
      rewrite En in M2.
      assert (inv (set_clients s' (a ++ c' :: b))) as I3 by (eapply cstep_inv; eauto).
      assert (list_sum (map push2_c (clients s)) = 0%nat) as Z.
      { clear -C2. induction (clients s) as [|x l IH]; auto. cbn [map]. rewrite list_sum_cons, IH by (intros; apply C2; right; auto).
        rewrite (C2 x) by (left; auto). auto. }
      assert (nth_error (a ++ c' :: b) i = Some c') as En' by (subst i; rewrite nth_error_app2, Nat.sub_diag by lia; auto).
      assert (forall x, In x a \/ In x b -> push2_c x = 0%nat) as Ho.
      { intros x Hx. apply C2. rewrite E. apply in_or_app. destruct Hx; [left|right; right]; auto. }
      pose proof (i_total _ I2) as T2. rewrite Z in T2.
      cbn [set_clients clients queue total workers paused]. rewrite En'.
      inversion W; subst; cbn in Wt; try tauto; try congruence; 
        (split; [exact I3|]; split; [auto|]; split; [exact N2|]; split; [auto|]; split;
         [intros x Hx; apply in_app_or in Hx; destruct Hx as [Hx|[<-|Hx]]; auto|]); cbn; auto; try tauto.
      * split; auto. cbn in M2. lia.
      * split; auto. lia.
Qed.

(** C35, paused branch: if no worker has passed the pause check and nobody pushes meanwhile, then when
    wait_for_tasks returns while paused no task is being executed. *)
Lemma c35_wait_paused : forall n m i s0 s1 snap k snap' k' p,
  psteps (pool_init n m) s0 -> paused s0 = true ->
  (forall w, In w (workers s0) -> w <> WPop) ->
  (forall c, In c (clients s0) -> push2_c c = 0%nat) ->
  nth_error (clients s0) i = Some (CWait snap k) -> quiets i s0 s1 ->
  nth_error (clients s1) i = Some (CWaitRet snap' k' p) ->
  p = true /\ forall w, In w (workers s1) -> busy_w w = 0%nat.
Proof.
  intros n m i s0 s1 snap k snap' k' p H Hp Hn Hc Hi Q Hr.
  destruct (quiet_lemma n m i s0 s1 snap k H Hp Hn Hc Hi Q) as (_ & _ & _ & _ & _ & M). rewrite Hr in M. destruct M as [-> M].
  split; auto. clear -M. intros w Hw. induction (workers s1) as [|x l IH]; [destruct Hw|].
  cbn [map] in M. rewrite list_sum_cons in M. destruct Hw as [->|Hw]; [lia|]. apply IH; auto. lia.
Qed.

(** Building executions for the refutations: run worker i / client i. *)
Lemma go_w s0 s s' a w w' b : psteps s0 s -> workers s = a ++ w :: b -> wstep s w s' w' -> psteps s0 (set_workers s' (a ++ w' :: b)).
Proof. intros. eapply ps_step; eauto. econstructor; eauto. Qed.
Lemma go_c s0 s s' a c c' b : psteps s0 s -> clients s = a ++ c :: b -> cstep s c s' c' -> psteps s0 (set_clients s' (a ++ c' :: b)).
Proof. intros. eapply ps_step; eauto. eapply P_client; eauto. Qed.

Ltac w0 H ctor := eapply (go_w _ _ _ []) in H; [|reflexivity|ctor]; cbn [app set_workers set_clients total queue paused running br workers clients issued pushed started finished] in H.
Ltac c0 H ctor := eapply (go_c _ _ _ []) in H; [|reflexivity|ctor]; cbn [app set_workers set_clients total queue paused running br workers clients issued pushed started finished] in H.
Ltac c1 H ctor := eapply (go_c _ _ _ [_]) in H; [|reflexivity|ctor]; cbn [app set_workers set_clients total queue paused running br workers clients issued pushed started finished after_push] in H.

(** C35, paused branch in general: the count of running tasks is read in two separate accesses, so with
    another thread pushing, wait_for_tasks can return while paused and a task is executing. *)
Lemma c35_wait_paused_refuted : exists s snap t, psteps (pool_init 1 2) s /\ paused s = true /\
  In (CWaitRet snap KwReturn true) (clients s) /\ In (WRun t) (workers s).
Proof.
  pose proof (ps_refl (pool_init 1 2)) as H. unfold pool_init in H at 2. cbn [repeat] in H.
  c0 H ltac:(apply (C_push _ (0, 0)%nat); cbn; tauto). c0 H ltac:(apply C_total). c0 H ltac:(apply C_queue). cbn [after_push] in H.
  w0 H ltac:(apply W_enter; reflexivity). w0 H ltac:(apply W_go; reflexivity). w0 H ltac:(eapply W_take; reflexivity).
  c0 H ltac:(apply (C_pause _ true)). c0 H ltac:(apply C_wait). c0 H ltac:(apply C_wait_p; reflexivity). c0 H ltac:(apply C_waitP_T).
  c1 H ltac:(apply (C_push _ (1, 0)%nat); cbn; intuition discriminate). c1 H ltac:(apply C_total). c1 H ltac:(apply C_queue).
  c0 H ltac:(apply C_waitPT_ret; reflexivity).
  do 3 eexists. split; [exact H|]. split; [reflexivity|]. split; left; reflexivity.
Qed.

(** C35: the same with a single client, when a worker was past the pause check and the queue length is
    read before the counter. *)
Lemma c35_wait_paused_single_refuted : exists s snap t, psteps (pool_init 1 1) s /\ paused s = true /\
  In (CWaitRet snap KwReturn true) (clients s) /\ In (WRun t) (workers s).
Proof.
  pose proof (ps_refl (pool_init 1 1)) as H. unfold pool_init in H at 2. cbn [repeat] in H.
  w0 H ltac:(apply W_enter; reflexivity). w0 H ltac:(apply W_go; reflexivity).
  c0 H ltac:(apply (C_push _ (0, 0)%nat); cbn; tauto). c0 H ltac:(apply C_total). c0 H ltac:(apply C_queue). cbn [after_push] in H.
  c0 H ltac:(apply (C_pause _ true)). c0 H ltac:(apply C_wait). c0 H ltac:(apply C_wait_p; reflexivity). c0 H ltac:(apply C_waitP_Q).
  w0 H ltac:(eapply W_take; reflexivity).
  c0 H ltac:(apply C_waitPQ_ret; reflexivity).
  do 3 eexists. split; [exact H|]. split; [reflexivity|]. split; left; reflexivity.
Qed.

(** C35: a reachable state in which wait_for_tasks has returned after real work. *)
Lemma c35_wait_ex : exists s t, psteps (pool_init 1 1) s /\ In (CWaitRet [t] KwReturn false) (clients s) /\ In t (finished s).
Proof.
  pose proof (ps_refl (pool_init 1 1)) as H. unfold pool_init in H at 2. cbn [repeat] in H.
  c0 H ltac:(apply (C_push _ (0, 0)%nat); cbn; tauto). c0 H ltac:(apply C_total). c0 H ltac:(apply C_queue). cbn [after_push] in H.
  c0 H ltac:(apply C_wait). c0 H ltac:(apply C_wait_np; reflexivity).
  w0 H ltac:(apply W_enter; reflexivity). w0 H ltac:(apply W_go; reflexivity). w0 H ltac:(eapply W_take; reflexivity).
  w0 H ltac:(apply W_done). w0 H ltac:(apply W_block). w0 H ltac:(apply W_dec). 
  c0 H ltac:(apply C_waitT_ret; reflexivity).
  do 2 eexists. split; [exact H|]. split; left; reflexivity.
Qed.

(** C36: while the pool stays paused and no worker is between its pause check and the queue, no task starts. *)
Lemma c36_pause : forall s s', paused_steps s s' -> paused s = true -> (forall w, In w (workers s) -> w <> WPop) ->
  started s' = started s.
Proof.
  intros s s' H. enough (paused s = true -> no_pop s -> started s' = started s /\ (paused s' = true -> no_pop s')) as X by (intros; apply X; auto).
  induction H as [s|s1 s2 s3 H IH P2 S]; [auto|]. intros Hp Hn. destruct (IH Hp Hn) as [E N]. specialize (N P2).
  destruct S as [s s' a w w' b Ew W|s s' a c c' b Ec W|s a k b Ec W].
  - destruct (wstep_paused _ _ _ _ _ _ P2 N Ew W) as (_ & N3 & _ & E3 & _). split; [cbn; congruence|auto].
  - assert (started s' = started s /\ workers s' = workers s) as [E1 E2] by (inversion W; subst; cbn; auto).
    split; [cbn; congruence|]. intros _ w Hw. apply N. cbn in Hw. rewrite E2 in Hw. auto.
  - split; [cbn; auto|]. intros _ w Hw. cbn in Hw. apply repeat_spec in Hw. subst. discriminate.
Qed.

(** C36: a worker past the check starts a task although the pool is paused. *)
Lemma c36_pause_refuted : exists s s', psteps (pool_init 1 1) s /\ paused s = true /\ started s = [] /\
  paused_steps s s' /\ paused s' = true /\ started s' <> [].
Proof.
  pose proof (ps_refl (pool_init 1 1)) as H. unfold pool_init in H at 2. cbn [repeat] in H.
  w0 H ltac:(apply W_enter; reflexivity). w0 H ltac:(apply W_go; reflexivity).
  c0 H ltac:(apply (C_push _ (0, 0)%nat); cbn; tauto). c0 H ltac:(apply C_total). c0 H ltac:(apply C_queue). cbn [after_push] in H.
  c0 H ltac:(apply (C_pause _ true)).
  do 2 eexists. split; [exact H|]. split; [reflexivity|]. split; [reflexivity|]. split.
  - eapply pd_step; [apply pd_refl|reflexivity|]. eapply (P_worker _ _ []); [reflexivity|]. eapply W_take. reflexivity.
  - split; [reflexivity|]. cbn. discriminate.
Qed.

(** C36: after the destructor returned (not paused) every task pushed before it has finished, and with a
    single user thread all workers have ended. *)
Lemma c36_destructor : forall n s snap p, psteps (pool_init n 1) s -> clients s = [CDead snap p] ->
  Forall (eq WExit) (workers s) /\ (p = false -> forall t, In t snap -> In t (finished s)).
Proof.
  intros n s snap p H E. pose proof (psteps_inv _ _ (init_inv n 1) H) as I. split.
  - assert (forall s', psteps (pool_init n 1) s' -> (length (clients s') = 1)%nat /\ (forall snap p, In (CDead snap p) (clients s') -> Forall (eq WExit) (workers s'))) as X.
    { clear. intros s' H. remember (pool_init n 1) as s0. induction H as [s|s1 s2 s3 H IH S]; subst.
      - split; auto. cbn. intuition discriminate.
      - destruct (IH eq_refl) as [L Y]. clear IH. destruct S as [s s' a w w' b E W|s s' a c c' b E W|s a k b E W].
        + assert (clients s' = clients s) as C by (inversion W; auto). split; [cbn; congruence|].
          intros snap p Hd. cbn in Hd. rewrite C in Hd. specialize (Y _ _ Hd). exfalso. rewrite E in Y.
          rewrite Forall_forall in Y. specialize (Y w (in_mid _ _ _)). subst. inversion W.
        + rewrite E in L. rewrite app_length in L. cbn in L. destruct a; [|cbn in L; lia]. destruct b; [|cbn in L; lia].
          split; [reflexivity|]. intros snap p Hd. cbn in Hd. destruct Hd as [->|[]]. inversion W; subst; auto. destruct k; discriminate.
        + rewrite E in L. rewrite app_length in L. cbn in L. destruct a; [|cbn in L; lia]. destruct b; [|cbn in L; lia].
          split; [reflexivity|]. cbn. intuition discriminate. }
    apply (proj2 (X s H) snap p). rewrite E. left; auto.
  - intros -> t Ht. assert (In (CDead snap false) (clients s)) as Hc by (rewrite E; left; auto). exact (i_cl _ I _ Hc _ Ht).
Qed.

(** C36: destroying a paused pool drops the queued tasks. *)
Lemma c36_destructor_paused_refuted : exists s snap, psteps (pool_init 1 1) s /\ clients s = [CDead snap true] /\
  snap <> [] /\ finished s = [].
Proof.
  pose proof (ps_refl (pool_init 1 1)) as H. unfold pool_init in H at 2. cbn [repeat] in H.
  c0 H ltac:(apply (C_pause _ true)).
  c0 H ltac:(apply (C_push _ (0, 0)%nat); cbn; tauto). c0 H ltac:(apply C_total). c0 H ltac:(apply C_queue). cbn [after_push] in H.
  c0 H ltac:(apply C_destroy). c0 H ltac:(apply C_wait_p; reflexivity). c0 H ltac:(apply C_waitP_T). c0 H ltac:(apply C_waitPT_ret; reflexivity).
  c0 H ltac:(apply C_stop; discriminate). w0 H ltac:(apply W_exit; reflexivity).
  c0 H ltac:(apply C_joined_d; repeat constructor).
  do 2 eexists. split; [exact H|]. split; [reflexivity|]. split; [discriminate|reflexivity].
Qed.

(** C36: reset (single user thread) restores the pause flag, restarts with the requested number of
    workers, and loses no task. *)
Lemma c36_reset : forall n k s0 s1 s2 s3, psteps (pool_init n 1) s0 ->
  clients s0 = [CIdle] ->
  s1 = set_clients (mkPool (total s0) (queue s0) true (running s0) (br s0) (workers s0) (clients s0)
                           (issued s0) (pushed s0) (started s0) (finished s0)) [CWait (pushed s0) (KwReset (paused s0) k)] ->
  inside_call s1 s2 -> clients s2 <> [CIdle] -> pstep s2 s3 -> clients s3 = [CIdle] ->
  paused s3 = paused s0 /\ running s3 = true /\ workers s3 = repeat WLoop k /\
  pushed s3 = pushed s0 /\ started s3 ++ queue s3 = started s0 ++ queue s0.
Proof.
  intros n k s0 s1 s2 s3 H0 E0 E1 H2 N2 S3 E3.
  pose proof (psteps_inv _ _ (init_inv n 1) H0) as I0.
  set (ph := fun s => inv s /\ pushed s = pushed s0 /\ issued s = issued s0 /\
     exists c, clients s = [c] /\
     match c with
     | CWait _ kw | CWaitT _ kw | CWaitP _ kw | CWaitPT _ kw _ | CWaitPQ _ kw _ | CWaitRet _ kw _ | CJoin _ kw _ => kw = KwReset (paused s0) k
     | CRestart was j => was = paused s0 /\ j = k
     | CRestart2 j => paused s = paused s0 /\ j = k
     | CRestart3 j => paused s = paused s0 /\ j = k /\ running s = true
     | CIdle => paused s = paused s0 /\ running s = true /\ workers s = repeat WLoop k
     | _ => False
     end).
  assert (pstep s0 s1) as P01 by (subst s1; apply (P_client s0 _ [] CIdle _ []); [rewrite E0; auto|apply C_reset]).
  assert (ph s1) as Ph1.
  { split; [eapply pstep_inv; eauto|]. subst s1. cbn. split; auto. split; auto. eexists. split; [reflexivity|]. cbn. auto. }
  assert (forall s s', ph s -> clients s <> [CIdle] -> pstep s s' -> ph s') as Step.
  { intros s s' (I & Ep & Ei & c & Ec & M) Nn S. split; [eapply pstep_inv; eauto|].
    destruct S as [s s' a w w' b Ew W|s s' a c1 c' b Ec1 W|s a j b Ec1 W].
    - assert (pushed s' = pushed s /\ issued s' = issued s /\ clients s' = clients s /\ paused s' = paused s /\ running s' = running s) as (F1 & F2 & F3 & F4 & F5) by (inversion W; subst; cbn; auto).
      cbn. rewrite F1, F2. split; auto. split; auto. exists c. rewrite F3. split; auto.
      destruct c; rewrite ?F4, ?F5; auto. exfalso; apply Nn; auto.
    - rewrite Ec in Ec1. destruct a as [|? [|? ?]]; try discriminate. cbn in Ec1. injection Ec1 as <- <-.
      inversion W; subst; cbn; try (destruct M; fail); try (exfalso; apply Nn; auto; fail);
      (split; [solve [auto]|]; split; [solve [auto]|]; eexists; split; [reflexivity|]; cbn; auto); try congruence.
      + injection M as -> ->. auto.
      + tauto.
    - rewrite Ec in Ec1. destruct a as [|? [|? ?]]; try discriminate. cbn in Ec1. injection Ec1 as -> <-. destruct M as (M1 & -> & M2).
      cbn. split; auto. split; auto. eexists. split; [reflexivity|]. cbn. auto. }
  assert (ph s2) as Ph2 by (clear S3 E3; induction H2; eauto).
  pose proof (Step _ _ Ph2 N2 S3) as (I3 & Ep & Ei & c & Ec & M). rewrite E3 in Ec. injection Ec as <-. cbn in M.
  destruct M as (M1 & M2 & M3). repeat split; auto. rewrite <- (i_fifo _ I3), <- (i_fifo _ I0). auto.
Qed.

Lemma c36_reset_ex : exists s0 s2 s3, psteps (pool_init 1 1) s0 /\ clients s0 = [CIdle] /\ queue s0 <> [] /\ paused s0 = true /\
  inside_call (set_clients (mkPool (total s0) (queue s0) true (running s0) (br s0) (workers s0) (clients s0)
                           (issued s0) (pushed s0) (started s0) (finished s0)) [CWait (pushed s0) (KwReset (paused s0) 3)]) s2 /\
  clients s2 <> [CIdle] /\ pstep s2 s3 /\ clients s3 = [CIdle].
Proof.
  pose proof (ps_refl (pool_init 1 1)) as H. unfold pool_init in H at 2. cbn [repeat] in H.
  c0 H ltac:(apply (C_pause _ true)).
  c0 H ltac:(apply (C_push _ (0, 0)%nat); cbn; tauto). c0 H ltac:(apply C_total). c0 H ltac:(apply C_queue). cbn [after_push] in H.
  eexists. do 2 eexists. split; [exact H|]. split; [reflexivity|]. split; [discriminate|]. split; [reflexivity|].
  cbn [app set_workers set_clients total queue paused running br workers clients issued pushed started finished].
  match goal with |- inside_call ?s _ /\ _ => pose proof (ic_refl s) as G end.
  assert (forall s0 s s' a c c' b, inside_call s0 s -> clients s = a ++ c :: b -> a ++ c :: b <> [CIdle] -> cstep s c s' c' -> inside_call s0 (set_clients s' (a ++ c' :: b))) as gc.
  { intros. eapply ic_step; eauto; [congruence|]. eapply P_client; eauto. }
  assert (forall s0 s s' a w w' b, inside_call s0 s -> workers s = a ++ w :: b -> clients s <> [CIdle] -> wstep s w s' w' -> inside_call s0 (set_workers s' (a ++ w' :: b))) as gw.
  { intros. eapply ic_step; eauto. eapply P_worker; eauto. }
  Ltac gc0 G gc ctor := eapply (gc _ _ _ []) in G; [|reflexivity|discriminate|ctor]; cbn [app set_workers set_clients total queue paused running br workers clients issued pushed started finished] in G.
  gc0 G gc ltac:(apply C_wait_p; reflexivity). gc0 G gc ltac:(apply C_waitP_T). gc0 G gc ltac:(apply C_waitPT_ret; reflexivity).
  gc0 G gc ltac:(apply C_stop; discriminate).
  eapply (gw _ _ _ []) in G; [|reflexivity|discriminate|apply W_exit; reflexivity].
  cbn [app set_workers set_clients total queue paused running br workers clients issued pushed started finished] in G.
  gc0 G gc ltac:(apply C_joined_r; repeat constructor). gc0 G gc ltac:(apply C_restore). gc0 G gc ltac:(apply C_rerun).
  split; [exact G|]. split; [discriminate|]. split; [eapply (P_create _ []); [reflexivity|repeat constructor]|reflexivity].
Qed.

(** C35, progress: from any reachable state of a running, unpaused pool with a live worker and no push in
    progress, the workers alone can finish everything (so a waiting thread can return). *)
Definition idle_w (w : worker) : Prop := match w with WLoop | WCheck | WPop => True | _ => False end.

Lemma wk_trans s1 s2 s3 : worker_steps s1 s2 -> worker_steps s2 s3 -> worker_steps s1 s3.
Proof. induction 1; auto. intros. econstructor; eauto. Qed.

Lemma busy_one s a w b : running s = true -> paused s = false -> workers s = a ++ w :: b -> busy_w w = 1%nat -> 
  exists s', worker_steps s s' /\ workers s' = a ++ WLoop :: b /\ clients s' = clients s /\ running s' = true /\ paused s' = false.
Proof.
  intros R P E B. destruct w; try discriminate.
  - eexists. split.
    + eapply wk_step; [exact E|apply W_done|]. eapply wk_step; [reflexivity|apply W_block|]. eapply wk_step; [reflexivity|apply W_dec|]. apply wk_refl.
    + cbn. auto.
  - eexists. split.
    + eapply wk_step; [exact E|apply W_block|]. eapply wk_step; [reflexivity|apply W_dec|]. apply wk_refl.
    + cbn. auto.
  - eexists. split.
    + eapply wk_step; [exact E|apply W_dec|]. apply wk_refl.
    + cbn. auto.
Qed.

Lemma worker_steps_psteps s s' : worker_steps s s' -> forall s0, psteps s0 s -> psteps s0 s'.
Proof. induction 1; auto. intros. apply IHworker_steps. eapply ps_step; eauto. econstructor; eauto. Qed.

Lemma worker_steps_inv s s' : worker_steps s s' -> inv s -> inv s'.
Proof. induction 1; auto. intros. apply IHworker_steps. eapply wstep_inv; eauto. Qed.

Lemma list_sum_mid a (w : worker) b : list_sum (map busy_w (a ++ w :: b)) = (list_sum (map busy_w a) + busy_w w + list_sum (map busy_w b))%nat.
Proof. rewrite map_app, list_sum_app. cbn [map]. rewrite list_sum_cons. lia. Qed.

Lemma worker_steps_mono s s' : worker_steps s s' -> (length (queue s') <= length (queue s))%nat.
Proof. induction 1; auto. etransitivity; [exact IHworker_steps|]. inversion H0; subst; cbn; auto. rewrite H2. cbn. auto. Qed.

Lemma drain s : inv s -> running s = true -> paused s = false ->
  (exists w, In w (workers s) /\ w <> WExit) -> list_sum (map push2_c (clients s)) = 0%nat ->
  exists s', worker_steps s s' /\ total s' = 0%nat /\ clients s' = clients s.
Proof.
  remember (2 * length (queue s) + list_sum (map busy_w (workers s)))%nat as m eqn:Em.
  assert (2 * length (queue s) + list_sum (map busy_w (workers s)) <= m)%nat as Le by lia. clear Em.
  revert s Le. induction m as [m IH] using lt_wf_ind. intros s Le I R P (w0 & Hw0 & Ne) Z.
  destruct (Nat.eq_dec (list_sum (map busy_w (workers s))) 0) as [B0|Bn].
  - destruct (queue s) as [|t q] eqn:Q.
    + exists s. split; [apply wk_refl|]. split; auto. pose proof (i_total _ I) as T. rewrite Z, Q, B0 in T. auto.
    + apply in_split in Hw0. destruct Hw0 as (a & b & E).
      assert (busy_w w0 = 0%nat) as B by (rewrite E, list_sum_mid in B0; lia).
      assert (exists s', worker_steps s s' /\ workers s' = a ++ WPop :: b /\ s' = set_workers s (a ++ WPop :: b)) as (s1 & S1 & E1 & F1).
      { destruct w0; try discriminate; try congruence.
        - eexists. split; [|split; [|reflexivity]]; [|reflexivity]. eapply wk_step; [exact E|apply W_enter; auto|]. eapply wk_step; [reflexivity|apply W_go; auto|]. apply wk_refl.
        - eexists. split; [|split; [|reflexivity]]; [|reflexivity]. eapply wk_step; [exact E|apply W_go; auto|]. apply wk_refl.
        - exists s. split; [apply wk_refl|]. split; auto. destruct s; cbn in *. subst. reflexivity. }
      set (s2 := set_workers (mkPool (total s1) q (paused s1) (running s1) (br s1) (workers s1) (clients s1) (issued s1) (pushed s1) (started s1 ++ [t]) (finished s1)) (a ++ WRun t :: b)).
      assert (worker_steps s1 s2) as S2.
      { eapply wk_step; [exact E1| |apply wk_refl]. apply W_take. subst s1. cbn. auto. }
      assert (worker_steps s s2) as S12 by (eapply wk_trans; eauto).
      assert (queue s2 = q) as Q2 by reflexivity.
      assert (list_sum (map busy_w (workers s2)) = 1%nat) as B2.
      { cbn [s2 set_workers workers]. rewrite list_sum_mid. rewrite E, list_sum_mid in B0. cbn [busy_w]. lia. }
      cbn [length] in Le.
      destruct (IH (2 * length q + 1)%nat) with (s := s2) as (s' & S' & T' & C'); auto; try lia.
      * rewrite Q2, B2. lia.
      * eapply worker_steps_inv; eauto.
      * subst s1. auto.
      * subst s1. auto.
      * exists (WRun t). split; [cbn; apply in_mid|discriminate].
      * subst s1. auto.
      * exists s'. split; [eapply wk_trans; eauto|]. split; auto. rewrite C'. subst s1. auto.
  - assert (exists a w b, workers s = a ++ w :: b /\ busy_w w = 1%nat) as (a & w & b & E & B).
    { clear -Bn. induction (workers s) as [|x l IHl]; [cbn in Bn; lia|]. cbn [map] in Bn. rewrite list_sum_cons in Bn.
      destruct (busy_w x) eqn:Bx.
      - destruct IHl as (a & w & b & -> & Bw); [lia|]. exists (x :: a), w, b. auto.
      - exists [], x, l. split; auto. destruct x; cbn in Bx; try discriminate; auto. }
    destruct (busy_one s a w b R P E B) as (s1 & S1 & E1 & C1 & R1 & P1).
    pose proof (worker_steps_mono _ _ S1) as Mq.
    assert (list_sum (map busy_w (workers s)) = S (list_sum (map busy_w (workers s1)))) as Bs.
    { rewrite E, E1, !list_sum_mid. cbn [busy_w]. lia. }
    destruct (IH (2 * length (queue s1) + list_sum (map busy_w (workers s1)))%nat) with (s := s1) as (s' & S' & T' & C'); auto; try lia.
    + eapply worker_steps_inv; eauto.
    + exists WLoop. rewrite E1. split; [apply in_mid|discriminate].
    + congruence.
    + exists s'. split; [eapply wk_trans; eauto|]. split; auto. congruence.
Qed.

Lemma c35_progress : forall n m s, psteps (pool_init n m) s -> running s = true -> paused s = false ->
  (exists w, In w (workers s) /\ w <> WExit) -> (forall c, In c (clients s) -> push2_c c = 0%nat) ->
  exists s', worker_steps s s' /\ clients s' = clients s /\ total s' = 0%nat /\
             (forall t, In t (pushed s) -> In t (finished s')).
Proof.
  intros n m s H R P W C. pose proof (psteps_inv _ _ (init_inv n m) H) as I.
  assert (list_sum (map push2_c (clients s)) = 0%nat) as Z.
  { clear -C. induction (clients s) as [|x l IH]; auto. cbn [map]. rewrite list_sum_cons, IH by (intros; apply C; right; auto).
    rewrite (C x) by (left; auto). auto. }
  destruct (drain s I R P W Z) as (s' & S & T & E). exists s'. split; auto. split; auto. split; auto.
  intros t Ht. apply (all_finished s' (worker_steps_inv _ _ S I) T).
  destruct (c34_history s s') as ((l & ->) & _); [eapply worker_steps_psteps; eauto; constructor|]. apply in_or_app. auto.
Qed.

(** A reachable state with one task finished, one executing and one queued. *)
Lemma c34_ex : exists s t0 t1 t2, psteps (pool_init 1 1) s /\ finished s = [t0] /\ started s = [t0; t1] /\ workers s = [WRun t1] /\ queue s = [t2].
Proof.
  pose proof (ps_refl (pool_init 1 1)) as H. unfold pool_init in H at 2. cbn [repeat] in H.
  c0 H ltac:(apply (C_push _ (0, 0)%nat); cbn; tauto). c0 H ltac:(apply C_total). c0 H ltac:(apply C_queue). cbn [after_push] in H.
  c0 H ltac:(apply (C_push _ (1, 0)%nat); cbn; intuition discriminate). c0 H ltac:(apply C_total). c0 H ltac:(apply C_queue). cbn [after_push] in H.
  c0 H ltac:(apply (C_push _ (2, 0)%nat); cbn; intuition discriminate). c0 H ltac:(apply C_total). c0 H ltac:(apply C_queue). cbn [after_push] in H.
  w0 H ltac:(apply W_enter; reflexivity). w0 H ltac:(apply W_go; reflexivity). w0 H ltac:(eapply W_take; reflexivity).
  w0 H ltac:(apply W_done). w0 H ltac:(apply W_block). w0 H ltac:(apply W_dec).
  w0 H ltac:(apply W_enter; reflexivity). w0 H ltac:(apply W_go; reflexivity). w0 H ltac:(eapply W_take; reflexivity).
  do 4 eexists. split; [exact H|]. repeat split.
Qed.

(** A parallelize_loop of two blocks that has returned. *)
Lemma c33_waits_ex : exists s, psteps (pool_init 1 1) s /\ clients s = [CParRet [(0, 7); (1, 7)]%nat].
Proof.
  pose proof (ps_refl (pool_init 1 1)) as H. unfold pool_init in H at 2. cbn [repeat] in H.
  c0 H ltac:(apply (C_par _ 7 2)).
  c0 H ltac:(apply (C_par_push _ _ _ _ 0%nat); cbn; tauto). c0 H ltac:(apply C_total). c0 H ltac:(apply C_queue). cbn [after_push app] in H.
  c0 H ltac:(apply (C_par_push _ _ _ _ 1%nat); cbn; intuition discriminate). c0 H ltac:(apply C_total). c0 H ltac:(apply C_queue). cbn [after_push app] in H.
  w0 H ltac:(apply W_enter; reflexivity). w0 H ltac:(apply W_go; reflexivity). w0 H ltac:(eapply W_take; reflexivity).
  w0 H ltac:(apply W_done). w0 H ltac:(apply W_block). w0 H ltac:(apply W_dec).
  w0 H ltac:(apply W_enter; reflexivity). w0 H ltac:(apply W_go; reflexivity). w0 H ltac:(eapply W_take; reflexivity).
  w0 H ltac:(apply W_done). w0 H ltac:(apply W_block).
  c0 H ltac:(apply C_par_ret; reflexivity).
  eexists. split; [exact H|]. reflexivity.
Qed.

(** A destructor that returned after running the pending task. *)
Lemma c36_destructor_ex : exists s t, psteps (pool_init 1 1) s /\ clients s = [CDead [t] false].
Proof.
  pose proof (ps_refl (pool_init 1 1)) as H. unfold pool_init in H at 2. cbn [repeat] in H.
  c0 H ltac:(apply (C_push _ (0, 0)%nat); cbn; tauto). c0 H ltac:(apply C_total). c0 H ltac:(apply C_queue). cbn [after_push] in H.
  c0 H ltac:(apply C_destroy). c0 H ltac:(apply C_wait_np; reflexivity).
  w0 H ltac:(apply W_enter; reflexivity). w0 H ltac:(apply W_go; reflexivity). w0 H ltac:(eapply W_take; reflexivity).
  w0 H ltac:(apply W_done). w0 H ltac:(apply W_block). w0 H ltac:(apply W_dec).
  c0 H ltac:(apply C_waitT_ret; reflexivity). c0 H ltac:(apply C_stop; discriminate). w0 H ltac:(apply W_exit; reflexivity).
  c0 H ltac:(apply C_joined_d; repeat constructor).
  do 2 eexists. split; [exact H|]. reflexivity.
Qed.

(** A paused pool with a task still executing, from which the waiting client does return. *)
Lemma c35_wait_paused_ex : exists s0 s1 t q snap, psteps (pool_init 1 1) s0 /\ paused s0 = true /\ workers s0 = [WRun t] /\ queue s0 = [q] /\
  clients s0 = [CWait snap KwReturn] /\ quiets 0 s0 s1 /\ clients s1 = [CWaitRet snap KwReturn true].
Proof.
  pose proof (ps_refl (pool_init 1 1)) as H. unfold pool_init in H at 2. cbn [repeat] in H.
  c0 H ltac:(apply (C_push _ (0, 0)%nat); cbn; tauto). c0 H ltac:(apply C_total). c0 H ltac:(apply C_queue). cbn [after_push] in H.
  c0 H ltac:(apply (C_push _ (1, 0)%nat); cbn; intuition discriminate). c0 H ltac:(apply C_total). c0 H ltac:(apply C_queue). cbn [after_push] in H.
  w0 H ltac:(apply W_enter; reflexivity). w0 H ltac:(apply W_go; reflexivity). w0 H ltac:(eapply W_take; reflexivity).
  c0 H ltac:(apply (C_pause _ true)). c0 H ltac:(apply C_wait).
  match type of H with psteps _ ?s => pose proof (qs_refl 0 s) as G end.
  do 5 eexists. split; [exact H|]. split; [reflexivity|]. split; [reflexivity|]. split; [reflexivity|]. split; [reflexivity|].
  clear H.
  assert (forall s0 s s' a w w' b, quiets 0 s0 s -> workers s = a ++ w :: b -> wstep s w s' w' -> quiets 0 s0 (set_workers s' (a ++ w' :: b))) as gw.
  { intros. eapply qs_step; eauto. econstructor; eauto. }
  assert (forall s0 s s' c c' b, quiets 0 s0 s -> clients s = [] ++ c :: b -> waiting c -> cstep s c s' c' -> quiets 0 s0 (set_clients s' ([] ++ c' :: b))) as gc.
  { intros. eapply qs_step; eauto. eapply Q_client; eauto. }
  Ltac qw G gw ctor := eapply (gw _ _ _ []) in G; [|reflexivity|ctor]; cbn [app set_workers set_clients total queue paused running br workers clients issued pushed started finished] in G.
  Ltac qc G gc ctor := eapply gc in G; [|reflexivity|exact I|ctor]; cbn [app set_workers set_clients total queue paused running br workers clients issued pushed started finished] in G.
  qw G gw ltac:(apply W_done). qw G gw ltac:(apply W_block). qw G gw ltac:(apply W_dec).
  qc G gc ltac:(apply C_wait_p; reflexivity). qc G gc ltac:(apply C_waitP_T). qc G gc ltac:(apply C_waitPT_ret; reflexivity).
  split; [exact G|reflexivity].
Qed.
