(** Lemmas: one step of a program that keeps the rules. *)
From Coq Require Import ZArith Bool List Lia Reals.
From Verif Require Import Base ListLib M_Data M_Point L_Vec Loop M_Kernel S_Kernel L_Kernel T_Kernel M_Perc S_Perc L_Perc T_Perc M_Copies S_Copies L_Copies.
Import ListNotations.
Local Open Scope nat_scope.

Lemma put_ok w h i l : i < length (w_learners w) -> exists ls, upd i (fun _ => l) (w_learners w) = Some ls /\ put w h i l = Ok (mkWorld h ls).
Proof. intros H. destruct (vupd_lt i (fun _ => l) _ H) as (r & U & V). exists r. split; auto. unfold put. now rewrite V. Qed.

Lemma kput_ok h a k k' : obj h a = Ok k -> exists h', upd a (fun _ => Some k') h = Some h' /\ kput h a k' = Ok h'.
Proof. intros H. apply obj_lt in H. apply (vupd_lt a (fun _ => Some k') _ H). Qed.

Lemma kfree_ok h a k : obj h a = Ok k -> exists h', upd a (fun _ => None) h = Some h' /\ kfree h a = Ok h'.
Proof. intros H. unfold kfree. rewrite H. cbn [obind]. apply obj_lt in H. apply (vupd_lt a (fun _ => None) _ H). Qed.

Section Step.
Variable pw : R -> R -> R.
Variable slv : kind -> list (list R) -> data R -> vec -> sol -> (nat -> R) * R * R.

Lemma lv_fun ls vs i l v l' v' : lv ls vs i l v -> lv ls vs i l' v' -> l = l' /\ v = v'.
Proof. intros (A & B) (C & D). split; congruence. Qed.

Lemma prevok_other h ls o : (forall i, o <> Recompute i) -> prevok h ls (Some o).
Proof. intros H i l a k E. inversion E; subst. now destruct (H i). Qed.

(** The kernel of a classifier that does not share is its alone. *)
Lemma alone h ls vs i l v j u x a : base h ls vs -> lv ls vs i l v -> lv ls vs j u x -> j <> i ->
  l_kernel l = Some a -> l_kernel u = Some a -> l_kind l = Smo \/ v_shared v = false -> False.
Proof.
  intros B L U N K1 K2 H. destruct (b_share _ _ _ B i j l v u x a) as (A & C); auto. destruct H; congruence.
Qed.

(** A step that rewrites a kernel object with another type or parameter, or allocates nothing, for a classifier that shares with nobody. *)
Lemma on_kernel_ok w vs i l v f g v1 vs1 : base (w_heap w) (w_learners w) vs -> lv (w_learners w) vs i l v -> good (w_heap w) l v ->
  vput vs i (Some v1) = Some vs1 -> l_kernel (f l) = l_kernel l ->
  (forall h, (forall a k, l_kernel l = Some a -> obj (w_heap w) a = Ok k -> obj h a = Ok (g k)) -> good h (f l) v1) ->
  (l_kind (f l) = l_kind l /\ v_shared v1 = v_shared v) ->
  (l_kind l = Smo \/ v_shared v = false \/ (v_shared v = true /\ forall k, k_type (g k) = k_type k /\ k_param (g k) = k_param k)) ->
  exists w1, on_kernel w i f g = Ok w1 /\ base (w_heap w1) (w_learners w1) vs1 /\
    (forall a k l', l_kernel l = Some a -> obj (w_heap w1) a = Ok k -> nth_error (w_learners w1) i = Some (Some l') ->
      l' = f l /\ exists k0, k = g k0) /\ nth_error (w_learners w1) i = Some (Some (f l)).
Proof.
  intros B L G V Kf Gf (Kk & Sh) Sr. pose proof L as (L1 & L2).
  assert (Li : i < length (w_learners w)) by (apply nth_error_Some; congruence).
  assert (Bs : forall j u x a, j <> i -> lv (w_learners w) vs j u x -> l_kernel (f l) = Some a -> l_kernel u = Some a ->
     v_shared v1 = true /\ l_kind (f l) <> Smo /\ v_shared x = true /\ l_kind u <> Smo).
  { intros j u x a N U K1 K2. rewrite Kf in K1. rewrite Kk, Sh.
    destruct (b_share _ _ _ B i j l v u x a); auto. destruct (b_share _ _ _ B j i u x l v a); auto. }
  unfold on_kernel. rewrite (proj2 (obj_Ok _ _ _) L1). cbn [obind].
  destruct (l_kernel l) as [a|] eqn:K.
  - pose proof G as G'. unfold good in G'. rewrite K in G'. destruct G' as (_ & _ & _ & _ & _ & _ & _ & _ & k & Ok1 & _).
    rewrite Ok1. cbn [obind]. destruct (kput_ok _ _ _ (g k) Ok1) as (h' & Hu & Hk). rewrite Hk. cbn [obind].
    destruct (put_ok w h' i (Some (f l)) Li) as (ls & Lu & Lp). rewrite Lp. eexists. split; [reflexivity|]. cbn [w_heap w_learners].
    assert (Na : obj h' a = Ok (g k)) by (apply obj_Ok; apply (upd_const_same _ _ _ _ Hu)).
    assert (Ni := upd_const_same _ _ _ _ Lu).
    split; [|split; auto].
    + apply (base_put _ _ _ h' i (f l) v1 ls vs1 B Lu V); auto.
      * apply Gf. intros b k' Eb. inversion Eb; subst b. intros O. rewrite Ok1 in O. inversion O; subst. auto.
      * intros j u x N U Gu. destruct Sr as [S1|[S1|(S1 & S2)]].
        -- apply (good_heap _ _ _ _ Gu). intros b k' Kb O. apply obj_Ok. apply obj_Ok in O. rewrite (upd_nth_other _ _ _ _ _ Hu); auto.
           intros ->. apply (alone _ _ _ _ _ _ _ _ _ _ B L U N K Kb). auto.
        -- apply (good_heap _ _ _ _ Gu). intros b k' Kb O. apply obj_Ok. apply obj_Ok in O. rewrite (upd_nth_other _ _ _ _ _ Hu); auto.
           intros ->. apply (alone _ _ _ _ _ _ _ _ _ _ B L U N K Kb). auto.
        -- destruct (S2 k). apply (good_kput _ _ a k (g k) _ _ Gu Ok1 Hu); auto.
           intros Ku. apply (b_share _ _ _ B j i u x l v a); auto.
    + intros b k' l' Eb O Nl. inversion Eb; subst b. rewrite Na in O. inversion O; subst. split; [congruence|eauto].
  - destruct (put_ok w (w_heap w) i (Some (f l)) Li) as (ls & Lu & Lp). rewrite Lp. eexists. split; [reflexivity|]. cbn [w_heap w_learners].
    split; [|split; [intros; discriminate|apply (upd_const_same _ _ _ _ Lu)]].
    apply (base_put _ _ _ (w_heap w) i (f l) v1 ls vs1 B Lu V); auto.
    apply Gf. discriminate.
Qed.

Lemma step_smo w vs i l v vs1 v1 : base (w_heap w) (w_learners w) vs -> lv (w_learners w) vs i l v -> good (w_heap w) l v ->
  v_kind v = Smo -> rect (v_samples v) -> vtrain pw slv v = Some v1 -> vput vs i (Some v1) = Some vs1 ->
  exists w1, train_smo pw slv w i l = Ok w1 /\ base (w_heap w1) (w_learners w1) vs1.
Proof.
  intros B L G Kv Rc T V. pose proof L as (L1 & L2).
  assert (Li : i < length (w_learners w)) by (apply nth_error_Some; congruence).
  unfold vtrain in T. rewrite Kv in T. inversion T; subst v1. clear T.
  pose proof G as (Gk & Gd & Ga & Gs & Gt & Gy & Gi & Gp). rewrite Kv in Gk. destruct (Gy Gk) as (Ty & Pa).
  unfold train_smo. rewrite Gd, Ty, Pa.
  assert (Rl : exists h, release (w_heap w) (l_kernel l) = Ok h /\ length h = length (w_heap w) /\
     forall b k, obj (w_heap w) b = Ok k -> l_kernel l <> Some b -> obj h b = Ok k).
  { destruct (l_kernel l) as [a|]; cbn [release].
    - destruct Gp as (_ & k & O & _). destruct (kfree_ok _ _ _ O) as (h & U & E). exists h. split; auto.
      split; [apply (upd_length _ _ _ _ U)|]. intros b k' Ob N. apply obj_Ok. apply obj_Ok in Ob. rewrite (upd_nth_other _ _ _ _ _ U); auto.
    - exists (w_heap w). auto. }
  destruct Rl as (h & E & Lh & Fr). rewrite E. cbn [obind].
  destruct (compute_gram pw (kernel_make (v_type v) (v_param v)) (v_samples v)) as (k & C & KK & Kt & Kp & Kc); auto.
  rewrite C. cbn [obind]. rewrite KK, solved_is. cbn [kernel_make k_type k_param] in *.
  match goal with |- context [put w ?hh i ?ll] => destruct (put_ok w hh i ll Li) as (ls & Lu & Lp) end.
  rewrite Lp. eexists. split; [reflexivity|]. cbn [w_heap w_learners].
  eapply (base_put _ _ _ _ i _ _ _ _ B Lu V).
  - unfold good. cbn. do 4 (split; [reflexivity|]). split; [assumption|]. split; [auto|]. split; [discriminate|]. split; [reflexivity|]. exists k. split; [apply obj_last|]. repeat split; auto. discriminate.
  - intros j u x N U Gu. apply (good_heap _ _ _ _ Gu). intros b k' Kb O. apply obj_app. apply Fr; auto.
    intros Ka. apply (alone _ _ _ _ _ _ _ _ _ _ B L U N Ka Kb). auto.
  - intros j u x a N U Ka Kb. exfalso. cbn [l_kernel] in Ka. inversion Ka; subst a.
    destruct (b_lv _ _ _ B _ _ (proj1 U)) as (x' & _ & Gx). unfold good in Gx. rewrite Kb in Gx.
    destruct Gx as (_ & _ & _ & _ & _ & _ & _ & _ & k' & O & _). apply obj_lt in O. lia.
Qed.

(** The kernel object of a classifier about to be trained by the rules holds no matrix. *)
Lemma clean_kernel h ls vs prev i l v a k : prevok h ls prev -> lv ls vs i l v -> good h l v -> v_kind v <> Smo ->
  (v_kind v = Smo \/ prev = Some (Recompute i) \/ (v_shared v = false /\ v_clean v = true)) ->
  l_kernel l = Some a -> obj h a = Ok k -> k_computed k = false.
Proof.
  intros P (L1 & L2) G N [A|[A|(A & C)]] K O; [contradiction|apply (P i l a k A L1 K O)|].
  unfold good in G. rewrite K in G. destruct G as (_ & _ & _ & _ & _ & _ & _ & _ & k' & O' & _ & _ & F).
  rewrite O in O'. inversion O'; subst. auto.
Qed.

(** Writing a computed kernel object back and the classifier with it. *)
Lemma base_trained w vs i l v a k k1 h' l1 v1 ls1 vs1 : base (w_heap w) (w_learners w) vs -> lv (w_learners w) vs i l v ->
  l_kernel l = Some a -> obj (w_heap w) a = Ok k -> upd a (fun _ => Some k1) (w_heap w) = Some h' -> k_type k1 = k_type k -> k_param k1 = k_param k ->
  upd i (fun _ => Some l1) (w_learners w) = Some ls1 -> upd i (fun _ => Some v1) vs = Some vs1 -> good h' l1 v1 ->
  l_kernel l1 = Some a -> v_shared v1 = v_shared v -> l_kind l1 = l_kind l -> base h' ls1 vs1.
Proof.
  intros B L K O Hu Kt Kp Lu V G K1 Sh Kk.
  apply (base_put _ _ _ h' i l1 v1 ls1 vs1 B Lu V G).
  - intros j u x N U Gu. apply (good_kput _ _ a k k1 _ _ Gu O Hu Kt Kp). intros Ku.
    apply (b_share _ _ _ B j i u x l v a); auto.
  - intros j u x b N U E1 E2. rewrite K1 in E1. inversion E1; subst b. rewrite Sh, Kk.
    destruct (b_share _ _ _ B i j l v u x a); auto. destruct (b_share _ _ _ B j i u x l v a); auto.
Qed.

Lemma step_ima w vs prev i l v vs1 v1 : base (w_heap w) (w_learners w) vs -> prevok (w_heap w) (w_learners w) prev ->
  lv (w_learners w) vs i l v -> good (w_heap w) l v -> v_kind v = Ima -> rect (v_samples v) ->
  (v_kind v = Smo \/ prev = Some (Recompute i) \/ (v_shared v = false /\ v_clean v = true)) ->
  vtrain pw slv v = Some v1 -> vput vs i (Some v1) = Some vs1 ->
  exists w1, train_ima pw slv w i l = Ok w1 /\ base (w_heap w1) (w_learners w1) vs1.
Proof.
  intros B P L G Kv Rc Al T V. pose proof L as (L1 & L2).
  assert (Li : i < length (w_learners w)) by (apply nth_error_Some; congruence).
  unfold vtrain in T. rewrite Kv in T. inversion T; subst v1. clear T.
  pose proof G as (Gk & Gd & Ga & Gs & Gt & Gy & Gi & Gp). rewrite Kv in Gk.
  unfold train_ima. rewrite Gd. destruct (l_kernel l) as [a|] eqn:K.
  2:{ destruct Gp as (O & _). rewrite (Gi Gk) in O. discriminate. }
  destruct Gp as (Ow & k & O & Kt & Kp & _). rewrite O. cbn [obind].
  assert (Cc : k_computed k = false) by (apply (clean_kernel _ _ _ prev i l v a k P L G); auto; congruence).
  destruct (compute_gram pw k (v_samples v)) as (k1 & C & KK & Kt1 & Kp1 & Kc); auto; [congruence|].
  rewrite C. cbn [obind]. destruct (kput_ok _ _ _ k1 O) as (h' & Hu & Hk). rewrite Hk. cbn [obind].
  rewrite KK, covers_gram, solved_is, Kt, Kp.
  match goal with |- context [put w ?hh i ?ll] => destruct (put_ok w hh i ll Li) as (ls & Lu & Lp) end.
  rewrite Lp. eexists. split; [reflexivity|]. cbn [w_heap w_learners].
  eapply (base_trained w vs i l v a k k1 h' _ _ ls vs1 B L K O Hu Kt1 Kp1 Lu V); auto.
  unfold good. cbn. do 4 (split; [reflexivity|]). split; [assumption|]. split; [discriminate|]. split; [reflexivity|].
  split; [reflexivity|]. exists k1. split; [apply obj_Ok; apply (upd_const_same _ _ _ _ Hu)|]. split; [congruence|]. split; [congruence|discriminate].
Qed.

Lemma step_perc w vs prev i l v vs1 v1 : base (w_heap w) (w_learners w) vs -> prevok (w_heap w) (w_learners w) prev ->
  lv (w_learners w) vs i l v -> good (w_heap w) l v -> v_kind v = Perc -> rect (v_samples v) ->
  (v_kind v = Smo \/ prev = Some (Recompute i) \/ (v_shared v = false /\ v_clean v = true)) ->
  vtrain pw slv v = Some v1 -> vput vs i (Some v1) = Some vs1 ->
  exists w1, train_perc pw slv w i l = Ok w1 /\ base (w_heap w1) (w_learners w1) vs1.
Proof.
  intros B P L G Kv Rc Al T V. pose proof L as (L1 & L2).
  assert (Li : i < length (w_learners w)) by (apply nth_error_Some; congruence).
  unfold vtrain in T. rewrite Kv in T.
  pose proof G as (Gk & Gd & Ga & Gs & Gt & Gy & Gi & Gp). rewrite Kv in Gk.
  unfold train_perc. rewrite Gd, Ga, Gs.
  assert (La : length (match v_alpha v with [] => repeat 0%R (size (v_samples v)) | a => a end) =
               match v_alpha v with [] => size (v_samples v) | a => length a end).
  { destruct (v_alpha v); auto. apply repeat_length. }
  replace (length (match v_alpha v with [] => repeat 0%R (size (v_samples v)) | r :: l0 => r :: l0 end)) with
    (match v_alpha v with [] => size (v_samples v) | r :: l0 => length (r :: l0) end) by (symmetry; exact La).
  clear La. set (n := match v_alpha v with [] => size (v_samples v) | r :: l0 => length (r :: l0) end) in *.
  destruct (Nat.leb (size (v_samples v)) n) eqn:Ln; [|discriminate].
  inversion T; subst v1. clear T.
  destruct (l_kernel l) as [a|] eqn:K; cbn [fst snd].
  - destruct Gp as (Ow & k & O & Kt & Kp & _). rewrite O. cbn [obind].
    assert (Cc : k_computed k = false) by (apply (clean_kernel _ _ _ prev i l v a k P L G); auto; congruence).
    destruct (compute_gram pw k (v_samples v)) as (k1 & C & KK & Kt1 & Kp1 & Kc); auto; [congruence|].
    rewrite C. cbn [obind]. destruct (kput_ok _ _ _ k1 O) as (h' & Hu & Hk). rewrite Hk. cbn [obind].
    rewrite KK, covers_gram, solved_is, Kt, Kp. cbn [andb].
    match goal with |- context [put w ?hh i ?ll] => destruct (put_ok w hh i ll Li) as (ls & Lu & Lp) end.
    rewrite Lp. eexists. split; [reflexivity|]. cbn [w_heap w_learners].
    eapply (base_trained w vs i l v a k k1 h' _ _ ls vs1 B L K O Hu Kt1 Kp1 Lu V); auto.
    unfold good. cbn. do 4 (split; [reflexivity|]). split; [assumption|]. split; [discriminate|]. split; [discriminate|].
    split; [reflexivity|]. exists k1. split; [apply obj_Ok; apply (upd_const_same _ _ _ _ Hu)|]. split; [congruence|]. split; [congruence|discriminate].
  - destruct Gp as (Ow & Sh & Ty). destruct (Ty Gk) as (Ty1 & Pa1). rewrite obj_last. cbn [obind].
    destruct (compute_gram pw (kernel_make InnerProduct 0) (v_samples v)) as (k1 & C & KK & Kt1 & Kp1 & Kc); auto; [discriminate|].
    rewrite C. cbn [obind]. cbn [kernel_make k_type k_param] in *.
    unfold kput, vupd. rewrite upd_last. cbn [obind]. rewrite KK, covers_gram, solved_is. rewrite Ty1, Pa1 in V. cbn [andb].
    match goal with |- context [put w ?hh i ?ll] => destruct (put_ok w hh i ll Li) as (ls & Lu & Lp) end.
    rewrite Lp. eexists. split; [reflexivity|]. cbn [w_heap w_learners].
    eapply (base_put _ _ _ _ i _ _ _ _ B Lu V).
    + unfold good. cbn. do 4 (split; [reflexivity|]). split; [discriminate|]. split; [discriminate|]. split; [discriminate|].
      split; [reflexivity|]. exists k1. split; [apply obj_last|]. split; [congruence|]. split; [congruence|discriminate].
    + intros j u x N U Gu. apply (good_heap _ _ _ _ Gu). intros b k' Kb O. now apply obj_app.
    + intros j u x a N U Ka Kb. exfalso. cbn [l_kernel] in Ka. inversion Ka; subst a.
      destruct (b_lv _ _ _ B _ _ (proj1 U)) as (x' & _ & Gx). unfold good in Gx. rewrite Kb in Gx.
      destruct Gx as (_ & _ & _ & _ & _ & _ & _ & _ & k' & O & _). apply obj_lt in O. lia.
Qed.
End Step.
