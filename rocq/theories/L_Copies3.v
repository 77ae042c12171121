(** Lemmas: whole programs that keep the rules, and what can be seen at their end. *)
From Coq Require Import ZArith Bool List Lia Reals.
From Verif Require Import Base ListLib M_Data M_Point L_Vec Loop M_Kernel S_Kernel L_Kernel T_Kernel M_Perc S_Perc L_Perc T_Perc M_Copies S_Copies L_Copies L_Copies2.
Import ListNotations.
Local Open Scope nat_scope.

Section Run.
Variable pw : R -> R -> R.
Variable slv : kind -> list (list R) -> data R -> vec -> sol -> (nat -> R) * R * R.

Lemma no_later h ls vs j u x : base h ls vs -> lv ls vs j u x -> l_kernel u <> Some (length h).
Proof.
  intros B U K. destruct (b_lv _ _ _ B _ _ (proj1 U)) as (x' & _ & G). unfold good in G. rewrite K in G.
  destruct G as (_ & _ & _ & _ & _ & _ & _ & _ & k' & O & _). apply obj_lt in O. lia.
Qed.

Lemma step_ok w vs prev o vs1 : base (w_heap w) (w_learners w) vs -> prevok (w_heap w) (w_learners w) prev -> allowed vs prev o ->
  vstep pw slv vs o = Some vs1 ->
  exists w1, lstep pw slv w o = Ok w1 /\ base (w_heap w1) (w_learners w1) vs1 /\ prevok (w_heap w1) (w_learners w1) (Some o).
Proof.
  intros B P A V. destruct o as [k t p d|d|i|i d|i t|i p|i|i|i]; cbn [vstep lstep] in *.
  - inversion V; subst. eexists. split; [reflexivity|]. split; [|apply prevok_other; discriminate].
    cbn [allowed] in A. destruct k; cbn [construct w_heap w_learners].
    + apply (base_app _ _ _ _ _ _ B); auto; [|discriminate].
      unfold good. cbn. repeat (split; [auto; discriminate|]). repeat split; discriminate.
    + apply (base_app _ _ _ _ _ _ B).
      * unfold good. cbn. do 4 (split; [reflexivity|]). split; [assumption|]. split; [discriminate|]. split; [discriminate|]. split; [reflexivity|].
        exists (kernel_make t p). split; [apply obj_last|]. repeat split; auto.
      * intros j l v _ G. apply (good_heap _ _ _ _ G). intros. now apply obj_app.
      * intros j u x a U E1 E2. exfalso. cbn in E1. inversion E1; subst. apply (no_later _ _ _ _ _ _ B U E2).
    + apply (base_app _ _ _ _ _ _ B).
      * unfold good. cbn. do 4 (split; [reflexivity|]). split; [assumption|]. split; [discriminate|]. split; [reflexivity|]. split; [reflexivity|].
        exists (kernel_make t p). split; [apply obj_last|]. repeat split; auto.
      * intros j l v _ G. apply (good_heap _ _ _ _ G). intros. now apply obj_app.
      * intros j u x a U E1 E2. exfalso. cbn in E1. inversion E1; subst. apply (no_later _ _ _ _ _ _ B U E2).
  - inversion V; subst. eexists. split; [reflexivity|]. split; [|apply prevok_other; discriminate].
    cbn [construct_plain w_heap w_learners]. apply (base_app _ _ _ _ _ _ B); auto; [|discriminate].
    unfold good. cbn. do 4 (split; [reflexivity|]). split; [discriminate|]. split; [discriminate|]. split; [discriminate|]. auto.
  - destruct (vobj vs i) as [v|] eqn:E; [|discriminate]. destruct (base_get _ _ _ _ _ B E) as (l & O & L & G).
    destruct (vput vs i _) as [vs2|] eqn:Ep; [|discriminate]. inversion V; subst vs1. clear V.
    rewrite O. cbn [obind]. eexists. split; [reflexivity|]. split; [|apply prevok_other; discriminate]. cbn [w_heap w_learners].
    cbn [allowed] in A. specialize (A v E).
    assert (Li : i < length (w_learners w)) by (apply (obj_lt _ _ _ O)).
    destruct (upd_lt i (fun _ => Some l) (w_learners w) Li) as (ls2 & Lu).
    assert (ls2 = w_learners w) as ->.
    { apply (nth_ext _ _ None None); [apply (upd_length _ _ _ _ Lu)|]. intros n Hn.
      assert (X : nth_error ls2 n = nth_error (w_learners w) n).
      { destruct (Nat.eq_dec n i) as [->|N]; [rewrite (upd_const_same _ _ _ _ Lu); symmetry; apply L|].
        apply (upd_nth_other _ _ _ _ _ Lu); auto. }
      rewrite <- (nth_default_eq n ls2), <- (nth_default_eq n (w_learners w)). unfold nth_default. now rewrite X. }
    assert (Own : l_kernel l <> None -> v_own v = true /\ l_kind l <> Smo).
    { intros N. pose proof G as G'. unfold good in G'. destruct (l_kernel l) as [a|] eqn:K; [|congruence].
      destruct G' as (Gk & _ & _ & _ & _ & _ & _ & Ow & _). split; auto. intros S1. rewrite (A (eq_trans (eq_sym Gk) S1)) in Ow. discriminate. }
    assert (B2 : base (w_heap w) (w_learners w) vs2).
    { apply (base_put _ _ _ (w_heap w) i l _ _ _ B Lu Ep); auto.
      - unfold good in *. cbn. destruct G as (G1 & G2 & G3 & G4 & G5 & G6 & G7 & G8). repeat (split; [assumption|]).
        destruct (l_kernel l) as [a|]; [|tauto]. destruct G8 as (G8 & k & G9 & G10 & G11 & G12). split; auto. exists k. repeat split; auto. congruence.
      - intros j u x a N U E1 E2. cbn. destruct Own as (X1 & X2); [congruence|]. destruct (b_share _ _ _ B j i u x l v a); auto. }
    apply (base_app _ _ _ _ _ _ B2); auto.
    + unfold good in *. cbn. destruct G as (G1 & G2 & G3 & G4 & G5 & G6 & G7 & G8). do 3 (split; [assumption|]). split; [reflexivity|].
      do 3 (split; [assumption|]).
      destruct (l_kernel l) as [a|]; [|tauto]. destruct G8 as (G8 & k & G9 & G10 & G11 & G12). split; auto. exists k. repeat split; auto. congruence.
    + intros j u x a (U1 & U2) E1 E2. cbn in E1. cbn. destruct Own as (X1 & X2); [congruence|]. split; auto. split; auto.
      destruct (Nat.eq_dec j i) as [->|N].
      * rewrite (upd_const_same _ _ _ _ Ep) in U2. inversion U2; subst. cbn. split; auto. destruct L as (L1 & _). rewrite L1 in U1. inversion U1; subst. auto.
      * unfold vput in Ep. rewrite (upd_nth_other _ _ _ _ _ Ep) in U2; auto. destruct (b_share _ _ _ B j i u x l v a); auto. now split.
  - destruct (vobj vs i) as [v|] eqn:E; [|discriminate]. destruct (base_get _ _ _ _ _ B E) as (l & O & L & G).
    rewrite O. cbn [obind]. destruct (put_ok w (w_heap w) i (Some (set_samples d l)) (obj_lt _ _ _ O)) as (ls & Lu & Lp).
    rewrite Lp. eexists. split; [reflexivity|]. split; [|apply prevok_other; discriminate]. cbn [w_heap w_learners].
    apply (base_put _ _ _ _ i _ _ _ _ B Lu V); auto.
    + unfold good in *. cbn. destruct G as (G1 & G2 & G3 & G4 & G5 & G6 & G7 & G8). repeat (split; [assumption || reflexivity|]). assumption.
    + intros j u x a N U E1 E2. cbn in *. destruct (b_share _ _ _ B i j l v u x a); auto. destruct (b_share _ _ _ B j i u x l v a); auto.
  - destruct (vobj vs i) as [v|] eqn:E; [|discriminate]. destruct (base_get _ _ _ _ _ B E) as (l & O & L & G).
    destruct A as (Ac & A). specialize (A v E).
    assert (Gk : l_kind l = v_kind v) by apply G.
    destruct (on_kernel_ok w vs i l v (set_type t) (setType t) _ vs1 B L G V) as (w1 & E1 & E2 & _).
    + reflexivity.
    + intros h H. unfold good in *. cbn. destruct G as (G1 & G2 & G3 & G4 & G5 & G6 & G7 & G8). do 4 (split; [assumption|]). split; [assumption|].
      split; [intros X; destruct (G6 X); auto|]. split; [assumption|].
      destruct (l_kernel l) as [a|].
      * destruct G8 as (G8 & k & G9 & G10 & G11 & G12). split; auto. exists (setType t k). split; auto.
      * destruct G8 as (G8 & G9 & G10). split; auto. split; auto. intros X. destruct A as [A|(A & _)]; congruence.
    + split; reflexivity.
    + destruct A as [A|(A & A')]; [left; congruence|auto].
    + exists w1. split; auto. split; auto. apply prevok_other. discriminate.
  - destruct (vobj vs i) as [v|] eqn:E; [|discriminate]. destruct (base_get _ _ _ _ _ B E) as (l & O & L & G).
    specialize (A v E). assert (Gk : l_kind l = v_kind v) by apply G.
    destruct (on_kernel_ok w vs i l v (set_param p) (setParam p) _ vs1 B L G V) as (w1 & E1 & E2 & _).
    + reflexivity.
    + intros h H. unfold good in *. cbn. destruct G as (G1 & G2 & G3 & G4 & G5 & G6 & G7 & G8). do 4 (split; [assumption|]). split; [assumption|].
      split; [intros X; destruct (G6 X); auto|]. split; [assumption|].
      destruct (l_kernel l) as [a|].
      * destruct G8 as (G8 & k & G9 & G10 & G11 & G12). split; auto. exists (setParam p k). split; auto.
      * destruct G8 as (G8 & G9 & G10). split; auto. split; auto. intros X. destruct A as [A|(A & _)]; congruence.
    + split; reflexivity.
    + destruct A as [A|(A & A')]; [left; congruence|auto].
    + exists w1. split; auto. split; auto. apply prevok_other. discriminate.
  - destruct (vobj vs i) as [v|] eqn:E; [|discriminate]. destruct (base_get _ _ _ _ _ B E) as (l & O & L & G).
    destruct (on_kernel_ok w vs i l v (fun l => l) recompute _ vs1 B L G V) as (w1 & E1 & E2 & E3 & E4).
    + reflexivity.
    + intros h H. unfold good in *. cbn. destruct G as (G1 & G2 & G3 & G4 & G5 & G6 & G7 & G8). repeat (split; [assumption|]).
      destruct (l_kernel l) as [a|]; auto. destruct G8 as (G8 & k & G9 & G10 & G11 & G12). split; auto. exists (recompute k). split; auto.
    + split; reflexivity.
    + destruct (v_shared v); auto.
    + exists w1. split; auto. split; auto. intros j m a k X N K Ob. inversion X; subst j. destruct (E3 a k m) as (Y & k0 & ->); auto; try congruence.
  - destruct (vobj vs i) as [v|] eqn:E; [|discriminate]. destruct (vtrain pw slv v) as [v1|] eqn:T; [|discriminate].
    destruct (base_get _ _ _ _ _ B E) as (l & O & L & G). destruct (A v E) as (Rc & Al).
    assert (Gk : l_kind l = v_kind v) by apply G.
    unfold train_op. rewrite O. cbn [obind]. rewrite Gk. destruct (v_kind v) eqn:Kv.
    + destruct (step_smo pw slv w vs i l v vs1 v1 B L G Kv Rc T V) as (w1 & E1 & E2). exists w1. split; auto. split; auto. apply prevok_other. discriminate.
    + rewrite <- Kv in Al. destruct (step_perc pw slv w vs prev i l v vs1 v1 B P L G Kv Rc Al T V) as (w1 & E1 & E2). exists w1. split; auto. split; auto. apply prevok_other. discriminate.
    + rewrite <- Kv in Al. destruct (step_ima pw slv w vs prev i l v vs1 v1 B P L G Kv Rc Al T V) as (w1 & E1 & E2). exists w1. split; auto. split; auto. apply prevok_other. discriminate.
  - destruct (vobj vs i) as [v|] eqn:E; [|discriminate]. destruct (base_get _ _ _ _ _ B E) as (l & O & L & G).
    unfold destroy. rewrite O. cbn [obind]. pose proof (obj_lt _ _ _ O) as Li.
    assert (NS : forall w1, put w (w_heap w) i None = Ok w1 -> base (w_heap w1) (w_learners w1) vs1).
    { intros w1 Hp. destruct (put_ok w (w_heap w) i None Li) as (ls & Lu & Lp). rewrite Lp in Hp. inversion Hp; subst.
      apply (base_kill _ _ _ _ i _ _ B Lu V). auto. }
    destruct (put_ok w (w_heap w) i None Li) as (ls & Lu & Lp).
    destruct (l_kind l) eqn:Kl; try (rewrite Lp; eexists; split; [reflexivity|]; split; [apply NS; auto|apply prevok_other; discriminate]).
    destruct (l_kernel l) as [a|] eqn:K; cbn [release].
    + pose proof G as G'. unfold good in G'. rewrite K in G'. destruct G' as (_ & _ & _ & _ & _ & _ & _ & _ & k & Ok1 & _).
      destruct (kfree_ok _ _ _ Ok1) as (h & U & Eh). rewrite Eh. cbn [obind].
      destruct (put_ok w h i None Li) as (ls2 & Lu2 & Lp2). rewrite Lp2. eexists. split; [reflexivity|]. split; [|apply prevok_other; discriminate].
      cbn [w_heap w_learners]. apply (base_kill _ _ _ _ i _ _ B Lu2 V). intros j u x N Ux Gu.
      apply (good_heap _ _ _ _ Gu). intros b k' Kb Ob. apply obj_Ok. apply obj_Ok in Ob. rewrite (upd_nth_other _ _ _ _ _ U); auto.
      intros ->. apply (alone _ _ _ _ _ _ _ _ _ _ B L Ux N K Kb). auto.
    + cbn [obind]. rewrite Lp. eexists. split; [reflexivity|]. split; [apply NS; auto|apply prevok_other; discriminate].
Qed.

Lemma run_ok : forall ops w vs prev vs2, base (w_heap w) (w_learners w) vs -> prevok (w_heap w) (w_learners w) prev ->
  polite pw slv vs prev ops vs2 -> exists w2, lrun pw slv w ops = Ok w2 /\ base (w_heap w2) (w_learners w2) vs2.
Proof.
  induction ops as [|o r IH]; intros w vs prev vs2 B P H; inversion H; subst.
  - exists w. split; auto.
  - destruct (step_ok w vs prev o vs1 B P) as (w1 & E & B1 & P1); auto.
    destruct (IH w1 vs1 (Some o) vs2 B1 P1) as (w2 & E2 & B2); auto. exists w2. split; auto. cbn [lrun]. rewrite E. auto.
Qed.

Lemma base0 : base (w_heap world0) (w_learners world0) [].
Proof.
  constructor; cbn; auto.
  - intros [|i] l H; discriminate.
  - intros [|i] l H; discriminate.
  - intros [|i] j l v u x a _ (H & _); discriminate.
Qed.

Lemma base_looks h ls vs : base h ls vs -> looks ls = vlooks vs.
Proof.
  intros B. pose proof (b_len _ _ _ B) as L. unfold looks, vlooks.
  apply (nth_ext _ _ None None); [now rewrite !map_length|]. intros n Hn. rewrite map_length in Hn.
  change (@None (kind * data R * sol)) with (option_map (fun l => (l_kind l, l_samples l, l_sol l)) None) at 1. rewrite map_nth.
  change (@None (kind * data R * sol)) with (option_map (fun v => (v_kind v, v_samples v, v_sol v)) None). rewrite map_nth.
  destruct (nth n ls None) as [l|] eqn:E.
  - assert (N : nth_error ls n = Some (Some l)) by (rewrite (nth_error_nth' _ None Hn); congruence).
    destruct (b_lv _ _ _ B _ _ N) as (v & Nv & G). rewrite (nth_error_nth _ _ None Nv). cbn.
    destruct G as (-> & -> & _ & -> & _). reflexivity.
  - destruct (nth n vs None) as [v|] eqn:E2; auto. exfalso.
    assert (Hv : n < length vs) by (rewrite <- L; exact Hn).
    assert (N : nth_error vs n = Some (Some v)) by (rewrite (nth_error_nth' _ None Hv); congruence).
    destruct (b_vl _ _ _ B _ _ N) as (l & Nl). rewrite (nth_error_nth _ _ None Nl) in E. discriminate.
Qed.

Lemma base_answer w vs i v p : base (w_heap w) (w_learners w) vs -> nth_error vs i = Some (Some v) -> v_own v = true -> rect (v_samples v) ->
  length (so_alpha (v_sol v)) = size (v_samples v) -> answer pw w i p = Ok (vanswer pw v p).
Proof.
  intros B N Ow Rc La. destruct (base_get _ _ _ i v B (proj2 (vobj_Some _ _ _) N)) as (l & O & L & G).
  unfold answer. rewrite O. cbn [obind]. unfold good in G. destruct G as (G1 & G2 & G3 & G4 & G5 & G6 & G7 & G8). rewrite G2, G4.
  destruct (l_kernel l) as [a|] eqn:K; [|destruct G8; congruence]. destruct G8 as (_ & k & O2 & Kt & Kp & _).
  unfold vanswer. rewrite <- Kt, <- Kp. pose proof (c68_dual pw k (v_samples v) (so_alpha (v_sol v)) (so_bias (v_sol v)) p) as C.
  cbn [deref]. destruct (Nat.eq_dec (length (p_x p)) (dim (v_samples v))) as [Ed|Nd].
  - rewrite Ed, Nat.eqb_refl. cbn [negb]. destruct (Nat.eqb (size (v_samples v)) 0) eqn:Z0.
    + apply Nat.eqb_eq in Z0. unfold dual_value. rewrite Z0. cbn [sumn]. rewrite Rplus_0_l. auto.
    + rewrite O2. cbn [obind]. rewrite C; auto; congruence.
  - apply Nat.eqb_neq in Nd. now rewrite Nd.
Qed.
End Run.
