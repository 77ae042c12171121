(** Invariants of the thread-pool machine. *)
From Coq Require Import ZArith Bool Arith Lia Permutation List.
From Verif Require Import Base M_Pool S_Pool.
Import ListNotations.

Definition task_dec (a b : task) : {a = b} + {a <> b}.
Proof. decide equality; apply Nat.eq_dec. Defined.
Notation cnt t l := (count_occ task_dec l t).
Definition gcnt (g : nat) (l : list task) : nat := length (filter (fun t => Nat.eqb (snd t) g) l).

Lemma gcnt_app g a b : gcnt g (a ++ b) = gcnt g a + gcnt g b.
Proof. unfold gcnt. rewrite filter_app, app_length. auto. Qed.
Lemma gcnt_cons g t l : gcnt g (t :: l) = (if Nat.eqb (snd t) g then 1 else 0) + gcnt g l.
Proof. unfold gcnt. simpl. destruct (Nat.eqb (snd t) g); auto. Qed.
Lemma gcnt_nil g : gcnt g [] = 0. Proof. auto. Qed.
Lemma gcnt_0 g l : gcnt g l = 0 -> forall t, In t l -> snd t <> g.
Proof.
  intros H t Ht E. assert (In t (filter (fun t => Nat.eqb (snd t) g) l)) as X.
  { apply filter_In. split; auto. apply Nat.eqb_eq; auto. }
  unfold gcnt in H. apply length_zero_iff_nil in H. rewrite H in X. destruct X.
Qed.

Definition cl_ok (s : pool) (c : client) : Prop :=
  let par g mine := incl mine (pushed s) /\ (forall t, In t mine -> snd t = g) in
  match c with
  | CWait snap _ | CWaitT snap _ | CWaitP snap _ | CWaitPT snap _ _ | CWaitPQ snap _ _ => incl snap (pushed s)
  | CWaitRet snap _ false | CJoin snap _ false | CDead snap false => incl snap (finished s)
  | CPush1 t (KPar g _ mine) | CPush2 t (KPar g _ mine) => snd t = g /\ par g mine
  | CPar g _ mine => par g mine
  | CParRet mine => incl mine (finished s)
  | _ => True
  end.

Record inv (s : pool) : Prop := {
  i_nodup : NoDup (map fst (issued s));
  i_pend  : forall t, cnt t (issued s) = cnt t (flat_map pend_c (clients s)) + cnt t (pushed s);
  i_fifo  : pushed s = started s ++ queue s;
  i_run   : forall t, cnt t (started s) = cnt t (flat_map run_w (workers s)) + cnt t (finished s);
  i_total : total s = list_sum (map push2_c (clients s)) + length (queue s) + list_sum (map busy_w (workers s));
  i_br    : forall g, br s g = gcnt g (flat_map pend_c (clients s)) + gcnt g (queue s)
                             + gcnt g (flat_map run_w (workers s)) + gcnt g (flat_map body_w (workers s));
  i_cl    : forall c, In c (clients s) -> cl_ok s c }.

Ltac norm := repeat rewrite ?flat_map_app, ?map_app, ?list_sum_app, ?app_length, ?count_occ_app, ?gcnt_app,
   ?gcnt_cons, ?gcnt_nil in *; cbn [flat_map map list_sum fold_right pend_c push2_c run_w body_w busy_w count_occ app length after_push] in *;
   repeat rewrite ?flat_map_app, ?map_app, ?list_sum_app, ?app_length, ?count_occ_app, ?gcnt_app,
   ?gcnt_cons, ?gcnt_nil in *.

Lemma cl_ok_mono s s' c : incl (pushed s) (pushed s') -> incl (finished s) (finished s') -> cl_ok s c -> cl_ok s' c.
Proof.
  intros H1 H2. unfold cl_ok. destruct c; auto; try (destruct k; auto); try (destruct p; auto); intuition eauto using incl_tran.
Qed.

Lemma list_sum_cons x l : list_sum (x :: l) = x + list_sum l. Proof. auto. Qed.

Lemma wstep_inv s s' a w w' b : inv s -> workers s = a ++ w :: b -> wstep s w s' w' ->
  inv (set_workers s' (a ++ w' :: b)).
Proof.
  intros [N P F R T B C] E H. 
  assert (forall x, cnt x (flat_map run_w (a ++ w :: b)) = cnt x (flat_map run_w a) + cnt x (run_w w) + cnt x (flat_map run_w b)) as A1.
  { intros. norm. lia. }
  rewrite E in *.
  inversion H; subst; constructor; cbn [set_workers total queue paused running br workers clients issued pushed started finished] in *; auto;
    try (intro x; try specialize (R x); try specialize (B x); norm; lia);
    try (norm; lia);
    try (intros c Hc; eapply cl_ok_mono; [| |exact (C c Hc)]; cbn; auto using incl_refl, incl_appl).
  - rewrite F, H0, <- app_assoc. auto.
  - intro x. specialize (R x). norm. destruct (task_dec t x); lia.
  - rewrite T, H0. norm. lia.
  - intro g. specialize (B g). rewrite H0 in B. norm. cbn. lia.
  - intro x. specialize (R x). norm. destruct (task_dec t x); lia.
  - intro g. specialize (B g). norm. unfold drop. rewrite Nat.eqb_sym. destruct (Nat.eqb_spec (snd t) g); cbn in *; lia.
Qed.

Lemma count_fst_notin (l : list task) t : ~ In (fst t) (map fst l) -> cnt t l = 0.
Proof.
  intro H. apply count_occ_not_In. intro X. apply H. apply in_map. auto.
Qed.

Lemma cnt_In t l : In t l <-> cnt t l > 0.
Proof. apply count_occ_In. Qed.

Lemma busy0_run l : list_sum (map busy_w l) = 0 -> flat_map run_w l = [].
Proof.
  induction l as [|w l IH]; auto. cbn [map]. rewrite list_sum_cons. cbn [flat_map]. intro H.
  rewrite IH by lia. destruct w; cbn in *; auto; lia.
Qed.

Lemma all_finished s : inv s -> total s = 0 -> incl (pushed s) (finished s).
Proof.
  intros [N P F R T B C] H t Ht. rewrite H in T.
  assert (queue s = []) as Q by (destruct (queue s); auto; simpl in T; lia).
  assert (list_sum (map busy_w (workers s)) = 0) as Z by lia.
  apply busy0_run in Z. rewrite F, Q, app_nil_r in Ht. apply cnt_In in Ht. rewrite R, Z in Ht. simpl in Ht. apply cnt_In. auto.
Qed.

Lemma group_finished s g mine : inv s -> br s g = 0 -> incl mine (pushed s) -> (forall t, In t mine -> snd t = g) -> incl mine (finished s).
Proof.
  intros [N P F R T B C] H Hi Hg t Ht. specialize (B g). rewrite H in B. specialize (Hg _ Ht).
  assert (In t (started s)) as S.
  { specialize (Hi _ Ht). rewrite F in Hi. apply in_app_or in Hi. destruct Hi as [|Q]; auto.
    exfalso. apply (gcnt_0 g (queue s)) with (t := t); auto. lia. }
  apply cnt_In in S. rewrite R in S. apply cnt_In.
  assert (cnt t (flat_map run_w (workers s)) = 0); [|lia].
  apply count_occ_not_In. intro X. apply (gcnt_0 g (flat_map run_w (workers s))) with (t := t); auto. lia.
Qed.

Lemma cstep_inv s s' a c c' b : inv s -> clients s = a ++ c :: b -> cstep s c s' c' ->
  inv (set_clients s' (a ++ c' :: b)).
Proof.
  intros HI E H. pose proof HI as [N P F R T B C].
  assert (cl_ok s c) as Cc by (apply C; rewrite E; apply in_or_app; right; left; auto).
  assert (forall x, In x a \/ In x b -> cl_ok s x) as Co.
  { intros x Hx. apply C. rewrite E. apply in_or_app. destruct Hx; [left|right; right]; auto. }
  assert (forall s2, incl (pushed s) (pushed s2) -> incl (finished s) (finished s2) -> cl_ok s2 c' ->
            forall x, In x (a ++ c' :: b) -> cl_ok s2 x) as Cm.
  { intros s2 M1 M2 Hc' x Hx. apply in_app_or in Hx. destruct Hx as [Hx|[<-|Hx]]; auto; eapply cl_ok_mono; eauto. }
  rewrite E in *. clear C.
  inversion H; subst; constructor; cbn [set_clients total queue paused running br workers clients issued pushed started finished] in *; auto;
    try (intro x; try specialize (P x); try specialize (B x); norm; lia);
    try (norm; lia);
    try (apply Cm; cbn; auto using incl_refl, incl_appl; try tauto).
  all: try (destruct k; exact Cc).
  all: try (destruct k; norm; lia).
  - rewrite map_app. cbn. apply (Permutation_NoDup (Permutation_cons_append (map fst (issued s)) (fst t))). constructor; auto.
  - intro x. specialize (P x). norm. match goal with |- context [task_dec ?u x] => destruct (task_dec u x) end; lia.
  - intro g. specialize (B g). norm. unfold bump. rewrite Nat.eqb_sym. destruct (Nat.eqb_spec (snd t) g); cbn in *; lia.
  - intro x. specialize (P x). destruct k; norm; destruct (task_dec t x); lia.
  - rewrite F, app_assoc. auto.
  - intro g. specialize (B g). destruct k; norm; lia.
  - destruct k as [|g rem mine]; cbn in *; auto. destruct Cc as (C1 & C2 & C3). split.
    + apply incl_app; [apply incl_appl; auto|apply incl_appr, incl_refl].
    + intros t0 Ht. apply in_app_or in Ht. destruct Ht as [Ht|[<-|[]]]; auto.
  - split; [intros t []|intros t []].
  - rewrite map_app. cbn. apply (Permutation_NoDup (Permutation_cons_append (map fst (issued s)) id)). constructor; auto.
  - intro x. specialize (P x). norm. match goal with |- context [task_dec ?u x] => destruct (task_dec u x) end; lia.
  - intro x. specialize (B x). norm. unfold bump. cbn [snd] in *. rewrite Nat.eqb_sym. destruct (Nat.eqb_spec g x); cbn in *; lia.
  - destruct Cc. eapply group_finished; eauto.
  - eapply incl_tran; [exact Cc|]. apply all_finished; auto.
Qed.

Lemma create_inv s a n b : inv s -> clients s = a ++ CRestart3 n :: b -> Forall (eq WExit) (workers s) ->
  inv (set_clients (set_workers s (repeat WLoop n)) (a ++ CIdle :: b)).
Proof.
  intros [N P F R T B C] E W. rewrite E in *.
  assert (flat_map run_w (workers s) = [] /\ flat_map body_w (workers s) = [] /\ list_sum (map busy_w (workers s)) = 0) as (W1 & W2 & W3).
  { clear -W. induction W as [|w l <- W (IH1 & IH2 & IH3)]; auto. }
  assert (flat_map run_w (repeat WLoop n) = [] /\ flat_map body_w (repeat WLoop n) = [] /\ list_sum (map busy_w (repeat WLoop n)) = 0) as (V1 & V2 & V3).
  { clear. induction n as [|n (IH1 & IH2 & IH3)]; auto. }
  rewrite W1 in *. rewrite W2 in *. rewrite W3 in *.
  constructor; cbn [set_clients set_workers total queue paused running br workers clients issued pushed started finished]; auto; rewrite ?V1, ?V2, ?V3;
    try (intro x; try specialize (P x); try specialize (B x); norm; lia); try (norm; lia).
  - exact R.
  - intros c Hc. apply in_app_or in Hc. destruct Hc as [Hc|[<-|Hc]]; [|exact I|].
    + apply (cl_ok_mono s); cbn; auto using incl_refl. apply C, in_or_app. auto.
    + apply (cl_ok_mono s); cbn; auto using incl_refl. apply C, in_or_app. right. right. auto.
Qed.

Lemma pstep_inv s s' : inv s -> pstep s s' -> inv s'.
Proof.
  intros HI H. inversion H; subst; eauto using wstep_inv, cstep_inv, create_inv.
Qed.

Lemma init_inv n m : inv (pool_init n m).
Proof.
  assert (forall n, flat_map run_w (repeat WLoop n) = [] /\ flat_map body_w (repeat WLoop n) = [] /\ list_sum (map busy_w (repeat WLoop n)) = 0) as V.
  { clear. induction n as [|n (IH1 & IH2 & IH3)]; auto. }
  assert (forall n, flat_map pend_c (repeat CIdle n) = [] /\ list_sum (map push2_c (repeat CIdle n)) = 0) as U.
  { clear. induction n as [|n (IH1 & IH2)]; auto. }
  destruct (V n) as (V1 & V2 & V3). destruct (U m) as (U1 & U2).
  constructor; cbn; rewrite ?V1, ?V2, ?V3, ?U1, ?U2; auto; try constructor; try (intros; reflexivity).
  - unfold list_sum in *. rewrite U2, V3. auto.
  - intros c Hc. apply repeat_spec in Hc. subst. exact I.
Qed.

Lemma psteps_inv s s' : inv s -> psteps s s' -> inv s'.
Proof. intros HI H. induction H as [s0|s1 s2 s3 H1 IH H2]; [exact HI|]. apply (pstep_inv s2 s3); auto. Qed.
