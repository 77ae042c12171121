(** Lemmas: deleted twice, never deleted, and what a shared kernel object does. *)
From Coq Require Import ZArith Bool List Lia Reals.
From Verif Require Import Base ListLib M_Data M_Point L_Vec Loop M_Kernel S_Kernel L_Kernel T_Kernel M_Perc S_Perc L_Perc T_Perc M_Copies S_Copies L_Copies L_Copies2 L_Copies3.
Import ListNotations.
Local Open Scope nat_scope.

Lemma obind_Ok {A B} (m : outcome A) (f : A -> outcome B) b : obind m f = Ok b -> exists a, m = Ok a /\ f a = Ok b.
Proof. destruct m; cbn; intros H; try discriminate. eauto. Qed.

Lemma put_inv w h i l w1 : put w h i l = Ok w1 -> w_heap w1 = h /\ upd i (fun _ => l) (w_learners w) = Some (w_learners w1).
Proof. unfold put. intros H. apply obind_Ok in H. destruct H as (ls & U & E). inversion E; subst. apply vupd_Ok in U. auto. Qed.
Lemma kput_inv h a k h1 : kput h a k = Ok h1 -> upd a (fun _ => Some k) h = Some h1.
Proof. intros H. now apply vupd_Ok. Qed.
Lemma kfree_inv h a h1 : kfree h a = Ok h1 -> upd a (fun _ => None) h = Some h1 /\ exists k, obj h a = Ok k.
Proof. unfold kfree. intros H. apply obind_Ok in H. destruct H as (k & O & U). apply vupd_Ok in U. eauto. Qed.
Lemma release_inv h p h1 : release h p = Ok h1 -> (p = None /\ h1 = h) \/ exists a, p = Some a /\ upd a (fun _ => None) h = Some h1 /\ exists k, obj h a = Ok k.
Proof. destruct p as [a|]; cbn; intros H; [right|left; inversion H; auto]. exists a. split; auto. now apply kfree_inv. Qed.

(** The effect of a step on the heap and on the classifier it addresses. *)
Inductive effect (w : world) : lop -> world -> Prop :=
| eff_app o h l : h = w_heap w \/ (exists k, h = w_heap w ++ [Some k] /\ l_kernel l = Some (length (w_heap w)) /\ l_kind l <> Smo /\ allocates o = true) ->
    (forall i, ~ releases i o) -> (l_kind l = Smo -> makes_smo o \/ exists i u, o = Copy i /\ obj (w_learners w) i = Ok u /\ l_kind u = Smo) ->
    (h = w_heap w -> allocates o = false) -> (forall i, o = Copy i -> exists u, obj (w_learners w) i = Ok u /\ l = copy_of u) ->
    (makes_smo o -> l_kind l = Smo) -> (makes_other o -> l_kind l <> Smo) -> (makes_smo o \/ makes_other o \/ exists i, o = Copy i) ->
    effect w o (mkWorld h (w_learners w ++ [Some l]))
| eff_put o i l l1 h ls : obj (w_learners w) i = Ok l -> l_kind l1 = l_kind l -> l_kernel l1 = l_kernel l ->
    (h = w_heap w \/ exists a k k', l_kernel l = Some a /\ obj (w_heap w) a = Ok k /\ upd a (fun _ => Some k') (w_heap w) = Some h) ->
    upd i (fun _ => Some l1) (w_learners w) = Some ls -> (l_kind l = Smo -> forall j, ~ releases j o) -> (forall j, releases j o -> j = i) ->
    ~ makes_other o -> ~ makes_smo o -> allocates o = false ->
    effect w o (mkWorld h ls)
| eff_new i l l1 k ls : obj (w_learners w) i = Ok l -> l_kind l = Perc -> l_kind l1 = Perc -> l_kernel l = None -> l_kernel l1 = Some (length (w_heap w)) ->
    upd i (fun _ => Some l1) (w_learners w) = Some ls -> effect w (Train i) (mkWorld (w_heap w ++ [Some k]) ls)
| eff_smo i l l1 h k ls : obj (w_learners w) i = Ok l -> l_kind l = Smo -> l_kind l1 = Smo -> release (w_heap w) (l_kernel l) = Ok h ->
    l_kernel l1 = Some (length h) -> upd i (fun _ => Some l1) (w_learners w) = Some ls -> effect w (Train i) (mkWorld (h ++ [Some k]) ls)
| eff_end i l h ls : obj (w_learners w) i = Ok l -> (l_kind l = Smo -> release (w_heap w) (l_kernel l) = Ok h) -> (l_kind l <> Smo -> h = w_heap w) ->
    upd i (fun _ => None) (w_learners w) = Some ls -> effect w (Destroy i) (mkWorld h ls).

Section Run.
Variable pw : R -> R -> R.
Variable slv : kind -> list (list R) -> data R -> vec -> sol -> (nat -> R) * R * R.

Lemma on_kernel_effect w i f g w1 o : on_kernel w i f g = Ok w1 -> (forall l, l_kind (f l) = l_kind l /\ l_kernel (f l) = l_kernel l) ->
  (forall j, ~ releases j o) -> ~ makes_other o -> ~ makes_smo o -> allocates o = false -> effect w o w1.
Proof.
  intros H F Re M1 M2 Al. unfold on_kernel in H. apply obind_Ok in H. destruct H as (l & O & H). destruct (F l) as (F1 & F2).
  destruct (l_kernel l) as [a|] eqn:K.
  - apply obind_Ok in H. destruct H as (k & Ok1 & H). apply obind_Ok in H. destruct H as (h & Hk & H). apply put_inv in H. destruct H as (<- & U).
    apply kput_inv in Hk. destruct w1 as [h1 ls1]. cbn in *. apply (eff_put w o i l (f l)); auto; [congruence|right; exists a, k, (g k); auto|intros j Rj; now destruct (Re j)].
  - apply put_inv in H. destruct H as (E & U). destruct w1 as [h1 ls1]. cbn in *. subst. apply (eff_put w o i l (f l)); auto; [congruence|intros j Rj; now destruct (Re j)].
Qed.

Lemma lstep_effect w o w1 : lstep pw slv w o = Ok w1 -> effect w o w1.
Proof.
  destruct o as [k t p d|d|i|i d|i t|i p|i|i|i]; cbn [lstep]; intros H.
  - inversion H; subst. destruct k; cbn [construct]; apply eff_app; cbn; auto; try discriminate; try tauto; try (intros ? [X|X]; discriminate);
      try (right; eexists; repeat split; auto; discriminate); try (intros E; apply (f_equal (@length _)) in E; rewrite app_length in E; cbn in E; lia).
  - inversion H; subst. apply eff_app; cbn; auto; try discriminate; try tauto; intros ? [X|X]; discriminate.
  - apply obind_Ok in H. destruct H as (l & O & E). inversion E; subst. apply eff_app; cbn; auto; try tauto; try (intros ? [X|X]; discriminate).
    + intros Ks. right. exists i, l. auto.
    + intros j X. inversion X; subst. eauto.
    + right. right. eauto.
  - apply obind_Ok in H. destruct H as (l & O & E). apply put_inv in E. destruct E as (E & U). destruct w1 as [h1 ls1]. cbn in *. subst.
    apply (eff_put w _ i l (set_samples d l)); auto; try (intros ? ? [X|X]; discriminate); intros ? [X|X]; discriminate.
  - apply (on_kernel_effect _ _ _ _ _ _ H); cbn; auto. intros ? [X|X]; discriminate.
  - apply (on_kernel_effect _ _ _ _ _ _ H); cbn; auto. intros ? [X|X]; discriminate.
  - apply (on_kernel_effect _ _ _ _ _ _ H); cbn; auto. intros ? [X|X]; discriminate.
  - unfold train_op in H. apply obind_Ok in H. destruct H as (l & O & H). destruct (l_kind l) eqn:K.
    + unfold train_smo in H. apply obind_Ok in H. destruct H as (h & Rl & H). apply obind_Ok in H. destruct H as (k & _ & H).
      apply put_inv in H. destruct H as (E & U). destruct w1 as [h1 ls1]. cbn [w_heap w_learners] in *. subst. refine (eff_smo w i l _ h k _ O K _ Rl _ U); reflexivity.
    + unfold train_perc in H. apply obind_Ok in H. destruct H as (k & Ok1 & H). apply obind_Ok in H. destruct H as (k1 & _ & H).
      apply obind_Ok in H. destruct H as (h & Hk & H). match type of H with (if ?b then _ else _) = _ => destruct b end; [|discriminate].
      apply put_inv in H. destruct H as (E & U). destruct w1 as [h1 ls1]. cbn [w_heap w_learners] in *. subst.
      apply kput_inv in Hk. destruct (l_kernel l) as [a|] eqn:Ka; cbn [fst snd] in *.
      * refine (eff_put w _ i l _ _ _ O _ _ _ U _ _ _ _ _); cbn; auto; try congruence; [right; exists a, k, k1; auto|intros j [X|X]; inversion X; auto].
      * rewrite upd_last in Hk. inversion Hk; subst. refine (eff_new w i l _ k1 _ O K _ Ka _ U); reflexivity.
    + unfold train_ima in H. destruct (l_kernel l) as [a|] eqn:Ka; [|discriminate]. apply obind_Ok in H. destruct H as (k & Ok1 & H).
      apply obind_Ok in H. destruct H as (k1 & _ & H). apply obind_Ok in H. destruct H as (h & Hk & H).
      match type of H with (if ?b then _ else _) = _ => destruct b end; [|discriminate].
      apply put_inv in H. destruct H as (E & U). destruct w1 as [h1 ls1]. cbn [w_heap w_learners] in *. subst. apply kput_inv in Hk.
      refine (eff_put w _ i l _ _ _ O _ _ _ U _ _ _ _ _); cbn; auto; try congruence; [right; exists a, k, k1; auto|intros j [X|X]; inversion X; auto].
  - unfold destroy in H. apply obind_Ok in H. destruct H as (l & O & H). destruct (l_kind l) eqn:K.
    + apply obind_Ok in H. destruct H as (h & Rl & H). apply put_inv in H. destruct H as (E & U). destruct w1 as [h1 ls1]. cbn [w_heap w_learners] in *. subst.
      apply (eff_end w i l); auto. congruence.
    + apply put_inv in H. destruct H as (E & U). destruct w1 as [h1 ls1]. cbn [w_heap w_learners] in *. subst. apply (eff_end w i l); auto. congruence.
    + apply put_inv in H. destruct H as (E & U). destruct w1 as [h1 ls1]. cbn [w_heap w_learners] in *. subst. apply (eff_end w i l); auto. congruence.
Qed.

Ltac effect_of H := apply lstep_effect in H; inversion H; subst; clear H; cbn [w_heap w_learners] in *.

(** An SMO whose kernel object has been deleted by somebody else. *)
Definition dangling (w : world) (x a : nat) : Prop :=
  nth_error (w_heap w) a = Some None /\ exists l, obj (w_learners w) x = Ok l /\ l_kind l = Smo /\ l_kernel l = Some a.

Lemma obj_upd_other {A} (l : list (option A)) i x r j : upd i (fun _ => x) l = Some r -> j <> i -> obj r j = obj l j.
Proof. intros U N. unfold obj. rewrite (upd_nth_other _ _ _ _ _ U); auto. Qed.
Lemma obj_upd_same {A} (l : list (option A)) i x r : upd i (fun _ => Some x) l = Some r -> obj r i = Ok x.
Proof. intros U. apply obj_Ok. apply (upd_const_same _ _ _ _ U). Qed.
Lemma dead_app {A} (h : list (option A)) r a : nth_error h a = Some None -> nth_error (h ++ r) a = Some None.
Proof. intros H. rewrite nth_error_app1; auto. apply nth_error_Some. congruence. Qed.
Lemma dead_put (h : list (option kernel)) b k x h1 a : obj h b = Ok k -> upd b (fun _ => x) h = Some h1 -> nth_error h a = Some None -> nth_error h1 a = Some None.
Proof. intros O U N. apply obj_Ok in O. rewrite (upd_nth_other _ _ _ _ _ U); auto. intros ->. congruence. Qed.
Lemma dead_release h p h1 a : release h p = Ok h1 -> nth_error h a = Some None -> nth_error h1 a = Some None.
Proof. intros H N. destruct (release_inv _ _ _ H) as [(_ & ->)|(b & _ & U & k & O)]; auto. apply (dead_put _ _ _ _ _ _ O U N). Qed.
Lemma release_dead h a h1 : nth_error h a = Some None -> release h (Some a) = Ok h1 -> False.
Proof. intros N H. destruct (release_inv _ _ _ H) as [(X & _)|(b & X & _ & k & O)]; [discriminate|]. inversion X; subst. apply obj_Ok in O. congruence. Qed.

Lemma dangling_step w x a o w1 : dangling w x a -> lstep pw slv w o = Ok w1 -> ~ releases x o /\ dangling w1 x a.
Proof.
  intros (N & l & O & K & P) H. effect_of H.
  - split; [auto|]. split.
    + destruct H0 as [->|(k & -> & _)]; auto. now apply dead_app.
    + exists l. split; auto. cbn. now apply obj_app.
  - assert (Nr : ~ releases x o). { intros Re. rewrite <- (H6 _ Re) in H0. assert (l0 = l) as -> by congruence. apply (H5 K x Re). }
    split; auto. split.
    + destruct H3 as [->|(b & k & k' & _ & Ok1 & U)]; auto. apply (dead_put _ _ _ _ _ _ Ok1 U N).
    + destruct (Nat.eq_dec x i) as [->|Nx].
      * exists l1. split; [apply (obj_upd_same _ _ _ _ H4)|]. assert (l0 = l) as -> by congruence. split; congruence.
      * exists l. cbn. rewrite (obj_upd_other _ _ _ _ _ H4); auto.
  - assert (Nx : x <> i) by (intros ->; congruence). split; [intros [X|X]; congruence|]. split; [now apply dead_app|].
    exists l. cbn. rewrite (obj_upd_other _ _ _ _ _ H5); auto.
  - destruct (Nat.eq_dec x i) as [->|Nx].
    + exfalso. assert (l0 = l) as -> by congruence. rewrite P in H3. apply (release_dead _ _ _ N H3).
    + split; [intros [X|X]; congruence|]. split; [apply dead_app; apply (dead_release _ _ _ _ H3 N)|].
      exists l. cbn. rewrite (obj_upd_other _ _ _ _ _ H5); auto.
  - destruct (Nat.eq_dec x i) as [->|Nx].
    + exfalso. assert (l0 = l) as -> by congruence. rewrite P in H1. apply (release_dead _ _ _ N (H1 K)).
    + split; [intros [X|X]; congruence|]. split.
      * destruct (l_kind l0) eqn:Kl; [apply (dead_release _ _ _ _ (H1 eq_refl) N)| |]; rewrite H2; auto; discriminate.
      * exists l. cbn. rewrite (obj_upd_other _ _ _ _ _ H3); auto.
Qed.

Lemma dangling_run : forall ops w x a w1, dangling w x a -> lrun pw slv w ops = Ok w1 -> forall o, In o ops -> ~ releases x o.
Proof.
  induction ops as [|q r IH]; intros w x a w1 D H o I; [destruct I|]. cbn [lrun] in H. apply obind_Ok in H. destruct H as (w2 & E & H).
  destruct (dangling_step _ _ _ _ _ D E) as (N & D2). destruct I as [<-|I]; auto. apply (IH _ _ _ _ D2 H _ I).
Qed.

(** Two SMOs with the same kernel object. *)
Definition twins (w : world) (i j a : nat) : Prop :=
  i <> j /\ (exists l, obj (w_learners w) i = Ok l /\ l_kind l = Smo /\ l_kernel l = Some a) /\ (exists l, obj (w_learners w) j = Ok l /\ l_kind l = Smo /\ l_kernel l = Some a).

Lemma twins_sym w i j a : twins w i j a -> twins w j i a.
Proof. intros (A & B & C). split; auto. Qed.

Lemma upd_dead {A} (h : list (option A)) a h1 : upd a (fun _ => None) h = Some h1 -> nth_error h1 a = Some None.
Proof. apply upd_const_same. Qed.

Lemma twin_release w i j a o w1 : twins w i j a -> lstep pw slv w o = Ok w1 -> releases i o -> dangling w1 j a.
Proof.
  intros (N & (l & O & K & P) & (u & O2 & K2 & P2)) H Re. effect_of H.
  - exfalso. apply (H1 i Re).
  - exfalso. rewrite <- (H6 _ Re) in H0. assert (l0 = l) as -> by congruence. apply (H5 K i Re).
  - exfalso. destruct Re as [Re|Re]; inversion Re; subst. congruence.
  - assert (i0 = i) by (destruct Re as [Re|Re]; congruence). subst i0. assert (l0 = l) as -> by congruence. rewrite P in H3.
    destruct (release_inv _ _ _ H3) as [(X & _)|(b & X & U & _)]; [discriminate|]. inversion X; subst b. split.
    + cbn. apply dead_app. apply (upd_dead _ _ _ U).
    + exists u. cbn. rewrite (obj_upd_other _ _ _ _ _ H5); auto.
  - assert (i0 = i) by (destruct Re as [Re|Re]; congruence). subst i0. assert (l0 = l) as -> by congruence. rewrite P in H1. specialize (H1 K).
    destruct (release_inv _ _ _ H1) as [(X & _)|(b & X & U & _)]; [discriminate|]. inversion X; subst b. split.
    + cbn. apply (upd_dead _ _ _ U).
    + exists u. cbn. rewrite (obj_upd_other _ _ _ _ _ H3); auto.
Qed.

Lemma holds_step w x a o w1 : (exists l, obj (w_learners w) x = Ok l /\ l_kind l = Smo /\ l_kernel l = Some a) -> lstep pw slv w o = Ok w1 -> ~ releases x o ->
  exists l, obj (w_learners w1) x = Ok l /\ l_kind l = Smo /\ l_kernel l = Some a.
Proof.
  intros (l & O & K & P) H Re. effect_of H.
  - exists l. split; auto. now apply obj_app.
  - destruct (Nat.eq_dec x i) as [->|Nx].
    + exists l1. split; [apply (obj_upd_same _ _ _ _ H4)|]. assert (l0 = l) as -> by congruence. split; congruence.
    + exists l. rewrite (obj_upd_other _ _ _ _ _ H4); auto.
  - assert (Nx : x <> i) by (intros ->; congruence). exists l. rewrite (obj_upd_other _ _ _ _ _ H5); auto.
  - assert (Nx : x <> i) by (intros ->; apply Re; left; auto). exists l. rewrite (obj_upd_other _ _ _ _ _ H5); auto.
  - assert (Nx : x <> i) by (intros ->; apply Re; right; auto). exists l. rewrite (obj_upd_other _ _ _ _ _ H3); auto.
Qed.

Lemma releases_one i j o : releases i o -> releases j o -> i = j.
Proof. intros [ -> | -> ] [X|X]; inversion X; auto. Qed.

Lemma twins_run : forall ops w i j a w1, twins w i j a -> lrun pw slv w ops = Ok w1 ->
  (exists o, In o ops /\ releases i o) -> (exists o, In o ops /\ releases j o) -> False.
Proof.
  induction ops as [|q r IH]; intros w i j a w1 T H (o1 & I1 & R1) (o2 & I2 & R2); [destruct I1|].
  cbn [lrun] in H. apply obind_Ok in H. destruct H as (w2 & E & H).
  assert (Dec : forall x, releases x q \/ ~ releases x q).
  { intros x. unfold releases. destruct q; try (right; intros [X|X]; discriminate); destruct (Nat.eq_dec i0 x) as [->|N]; auto; right; intros [X|X]; inversion X; congruence. }
  destruct (Dec i) as [Qi|Qi].
  - destruct I2 as [->|I2]; [destruct T as (N & _); apply N; apply (releases_one _ _ _ Qi R2)|].
    apply (dangling_run _ _ _ _ _ (twin_release _ _ _ _ _ _ T E Qi) H _ I2 R2).
  - destruct (Dec j) as [Qj|Qj].
    + destruct I1 as [->|I1]; [contradiction|].
      apply (dangling_run _ _ _ _ _ (twin_release _ _ _ _ _ _ (twins_sym _ _ _ _ T) E Qj) H _ I1 R1).
    + destruct I1 as [->|I1]; [contradiction|]. destruct I2 as [->|I2]; [contradiction|].
      destruct T as (N & A & B). apply (IH w2 i j a w1); eauto. split; auto. split; [apply (holds_step _ _ _ _ _ A E Qi)|apply (holds_step _ _ _ _ _ B E Qj)].
Qed.

(** A trained SMO has a kernel object. *)
Definition armed (w : world) (i : nat) : Prop :=
  i < length (w_learners w) /\ forall l, obj (w_learners w) i = Ok l -> l_kind l = Smo -> l_kernel l <> None.

Lemma armed_step w i o w1 : lstep pw slv w o = Ok w1 -> armed w i \/ o = Train i -> armed w1 i.
Proof.
  intros H A. effect_of H.
  - destruct A as [(A & B)|A]; [|exfalso; apply (H1 i); left; auto]. split; cbn; [rewrite app_length; lia|].
    intros l0 O. unfold obj in O. rewrite nth_error_app1 in O by auto. now apply B.
  - assert (Li : i0 < length (w_learners w)) by (apply (obj_lt _ _ _ H0)). pose proof (upd_length _ _ _ _ H4) as Ln.
    assert (i = i0 \/ armed w i) as [->|A1]. { destruct A as [A|A]; auto. left. apply H6. left. auto. }
    + split; cbn; [lia|]. intros l0 O Ks. rewrite (obj_upd_same _ _ _ _ H4) in O. inversion O; subst. destruct A as [(_ & A)|A].
      * rewrite H2. apply A; congruence.
      * exfalso. rewrite H1 in Ks. apply (H5 Ks i0). left. auto.
    + split; cbn; [destruct A1; lia|]. intros l0 O Ks. destruct (Nat.eq_dec i i0) as [->|N].
      * rewrite (obj_upd_same _ _ _ _ H4) in O. inversion O; subst. rewrite H2. apply (proj2 A1 _ H0). congruence.
      * rewrite (obj_upd_other _ _ _ _ _ H4) in O; auto. apply (proj2 A1 _ O Ks).
  - assert (Li : i0 < length (w_learners w)) by (apply (obj_lt _ _ _ H0)). pose proof (upd_length _ _ _ _ H5) as Ln.
    split; cbn; [destruct A as [(A & _)|A]; [lia|inversion A; subst; lia]|]. intros l0 O Ks. destruct (Nat.eq_dec i i0) as [->|N].
    + rewrite (obj_upd_same _ _ _ _ H5) in O. inversion O; subst. congruence.
    + rewrite (obj_upd_other _ _ _ _ _ H5) in O; auto. destruct A as [(_ & A)|A]; [auto|congruence].
  - assert (Li : i0 < length (w_learners w)) by (apply (obj_lt _ _ _ H0)). pose proof (upd_length _ _ _ _ H5) as Ln.
    split; cbn; [destruct A as [(A & _)|A]; [lia|inversion A; subst; lia]|]. intros l0 O Ks. destruct (Nat.eq_dec i i0) as [->|N].
    + rewrite (obj_upd_same _ _ _ _ H5) in O. inversion O; subst. congruence.
    + rewrite (obj_upd_other _ _ _ _ _ H5) in O; auto. destruct A as [(_ & A)|A]; [auto|congruence].
  - assert (Li : i0 < length (w_learners w)) by (apply (obj_lt _ _ _ H0)). pose proof (upd_length _ _ _ _ H3) as Ln.
    destruct A as [(A & B)|A]; [|discriminate]. split; cbn; [lia|]. intros l0 O Ks. destruct (Nat.eq_dec i i0) as [->|N].
    + apply obj_Ok in O. rewrite (upd_const_same _ _ _ _ H3) in O. discriminate.
    + rewrite (obj_upd_other _ _ _ _ _ H3) in O; auto.
Qed.

Lemma armed_run : forall ops w i w1, lrun pw slv w ops = Ok w1 -> armed w i \/ In (Train i) ops -> armed w1 i.
Proof.
  induction ops as [|q r IH]; intros w i w1 H A; cbn [lrun] in H.
  - inversion H; subst. destruct A as [A|[]]. auto.
  - apply obind_Ok in H. destruct H as (w2 & E & H). apply (IH w2); auto. destruct A as [A|[A|A]]; auto; left; apply (armed_step _ _ _ _ E); auto.
Qed.

(** SMOs only: every kernel object belongs to one. *)
Definition kept (w : world) : Prop :=
  (forall i l, obj (w_learners w) i = Ok l -> l_kind l = Smo) /\
  forall a k, obj (w_heap w) a = Ok k -> exists i l, obj (w_learners w) i = Ok l /\ l_kernel l = Some a.

Lemma obj_app_inv {A} (ls : list (option A)) x i a : obj (ls ++ [Some x]) i = Ok a -> obj ls i = Ok a \/ (i = length ls /\ a = x).
Proof. intros O. apply obj_Ok in O. rewrite nth_app_last in O. destruct (Nat.eq_dec i (length ls)); [inversion O; auto|left; now apply obj_Ok]. Qed.
Lemma obj_upd_inv {A} (ls : list (option A)) j x ls1 i a : upd j (fun _ => x) ls = Some ls1 -> obj ls1 i = Ok a -> (i = j /\ x = Some a) \/ (i <> j /\ obj ls i = Ok a).
Proof.
  intros U O. destruct (Nat.eq_dec i j) as [->|N]; [left|right; split; auto; now rewrite (obj_upd_other _ _ _ _ _ U) in O].
  apply obj_Ok in O. rewrite (upd_const_same _ _ _ _ U) in O. inversion O. auto.
Qed.

Lemma kept_step w o w1 : kept w -> ~ makes_other o -> lstep pw slv w o = Ok w1 -> kept w1.
Proof.
  intros (Ks & Kh) M H. effect_of H.
  - assert (Kl : l_kind l = Smo).
    { destruct H7 as [X|[X|(i & X)]]; auto; [contradiction|]. destruct (H4 _ X) as (u & O & ->). cbn. apply (Ks _ _ O). }
    destruct H0 as [->|(k & _ & _ & X & _)]; [|congruence]. split; cbn.
    + intros i l0 O. apply obj_app_inv in O. destruct O as [O|(_ & ->)]; auto. apply (Ks _ _ O).
    + intros a k O. destruct (Kh _ _ O) as (i & l0 & O2 & P). exists i, l0. split; auto. now apply obj_app.
  - split; cbn.
    + intros j l0 O. apply (obj_upd_inv _ _ _ _ _ _ H4) in O. destruct O as [(-> & X)|(_ & O)]; [inversion X; subst; rewrite H1; apply (Ks _ _ H0)|apply (Ks _ _ O)].
    + intros a k O.
      assert (exists k0, obj (w_heap w) a = Ok k0) as (k0 & O0).
      { destruct H3 as [->|(b & k1 & k' & _ & Ob & U)]; eauto. apply (obj_upd_inv _ _ _ _ _ _ U) in O. destruct O as [(-> & _)|(_ & O)]; eauto. }
      destruct (Kh _ _ O0) as (j & l0 & O2 & P). destruct (Nat.eq_dec j i) as [->|N].
      * exists i, l1. split; [apply (obj_upd_same _ _ _ _ H4)|]. rewrite H2. congruence.
      * exists j, l0. split; auto. now rewrite (obj_upd_other _ _ _ _ _ H4).
  - rewrite (Ks _ _ H0) in H1. discriminate.
  - split; cbn.
    + intros j l0 O. apply (obj_upd_inv _ _ _ _ _ _ H5) in O. destruct O as [(-> & X)|(_ & O)]; [inversion X; subst; auto|apply (Ks _ _ O)].
    + intros a k0 O. apply obj_app_inv in O. destruct O as [O|(-> & ->)].
      2:{ exists i, l1. split; auto. apply (obj_upd_same _ _ _ _ H5). }
      assert (obj (w_heap w) a = Ok k0 /\ l_kernel l <> Some a) as (O0 & Na).
      { destruct (release_inv _ _ _ H3) as [(Kn & ->)|(b & Kb & U & _)]; [split; auto; congruence|].
        apply (obj_upd_inv _ _ _ _ _ _ U) in O. destruct O as [(-> & X)|(Nb & O)]; [discriminate|]. split; auto. congruence. }
      destruct (Kh _ _ O0) as (j & l0 & O2 & P). destruct (Nat.eq_dec j i) as [->|N]; [congruence|].
      exists j, l0. split; auto. now rewrite (obj_upd_other _ _ _ _ _ H5).
  - split; cbn.
    + intros j l0 O. apply (obj_upd_inv _ _ _ _ _ _ H3) in O. destruct O as [(-> & X)|(_ & O)]; [discriminate|apply (Ks _ _ O)].
    + intros a k0 O. specialize (H1 (Ks _ _ H0)).
      assert (obj (w_heap w) a = Ok k0 /\ l_kernel l <> Some a) as (O0 & Na).
      { destruct (release_inv _ _ _ H1) as [(Kn & ->)|(b & Kb & U & _)]; [split; auto; congruence|].
        apply (obj_upd_inv _ _ _ _ _ _ U) in O. destruct O as [(-> & X)|(Nb & O)]; [discriminate|]. split; auto. congruence. }
      destruct (Kh _ _ O0) as (j & l0 & O2 & P). destruct (Nat.eq_dec j i) as [->|N]; [congruence|].
      exists j, l0. split; auto. now rewrite (obj_upd_other _ _ _ _ _ H3).
Qed.

Lemma kept_run : forall ops w w1, kept w -> Forall (fun o => ~ makes_other o) ops -> lrun pw slv w ops = Ok w1 -> kept w1.
Proof.
  induction ops as [|q r IH]; intros w w1 K F H; cbn [lrun] in H; [inversion H; subst; auto|].
  inversion F; subst. apply obind_Ok in H. destruct H as (w2 & E & H). apply (IH w2); auto. apply (kept_step _ _ _ K H2 E).
Qed.

(** No SMO: no kernel object is ever deleted. *)
Definition lost (n : nat) (w : world) : Prop :=
  (forall i l, obj (w_learners w) i = Ok l -> l_kind l <> Smo) /\ Forall (fun c => c <> None) (w_heap w) /\ n <= length (w_heap w).

Lemma Forall_upd {A} (P : A -> Prop) i x l r : upd i (fun _ => x) l = Some r -> P x -> Forall P l -> Forall P r.
Proof.
  intros U Px F. apply Forall_forall. intros y Iy. apply In_nth_error in Iy. destruct Iy as (n & N). destruct (Nat.eq_dec n i) as [->|Ni].
  - rewrite (upd_const_same _ _ _ _ U) in N. inversion N; subst. auto.
  - rewrite (upd_nth_other _ _ _ _ _ U) in N by auto. apply nth_error_In in N. apply (proj1 (Forall_forall _ _) F _ N).
Qed.

Lemma lost_step n w o w1 : lost n w -> ~ makes_smo o -> lstep pw slv w o = Ok w1 -> lost (n + (if allocates o then 1 else 0)) w1.
Proof.
  intros (Ks & Kh & Kn) M H. effect_of H.
  - assert (Kl : l_kind l <> Smo).
    { intros X. destruct (H2 X) as [Y|(i & u & _ & O & Ku)]; [contradiction|]. apply (Ks _ _ O Ku). }
    split; cbn; [intros i l0 O; apply obj_app_inv in O; destruct O as [O|(_ & ->)]; auto; apply (Ks _ _ O)|].
    destruct H0 as [->|(k & -> & _)].
    + rewrite (H3 eq_refl). split; auto. lia.
    + split; [apply Forall_app; split; auto; constructor; auto; discriminate|]. rewrite app_length. cbn. destruct (allocates o); lia.
  - rewrite H9. split; cbn; [|split].
    + intros j l0 O. apply (obj_upd_inv _ _ _ _ _ _ H4) in O. destruct O as [(-> & X)|(_ & O)]; [inversion X; subst; rewrite H1; apply (Ks _ _ H0)|apply (Ks _ _ O)].
    + destruct H3 as [->|(b & k1 & k' & _ & Ob & U)]; auto. apply (Forall_upd _ _ _ _ _ U); auto. discriminate.
    + destruct H3 as [->|(b & k1 & k' & _ & Ob & U)]; [lia|]. rewrite (upd_length _ _ _ _ U). lia.
  - split; cbn; [|split].
    + intros j l0 O. apply (obj_upd_inv _ _ _ _ _ _ H5) in O. destruct O as [(-> & X)|(_ & O)]; [inversion X; subst; congruence|apply (Ks _ _ O)].
    + apply Forall_app. split; auto. constructor; auto. discriminate.
    + rewrite app_length. cbn. lia.
  - now destruct (Ks _ _ H0).
  - specialize (H2 (Ks _ _ H0)). subst. split; cbn; [|split; auto; lia].
    intros j l0 O. apply (obj_upd_inv _ _ _ _ _ _ H3) in O. destruct O as [(-> & X)|(_ & O)]; [discriminate|apply (Ks _ _ O)].
Qed.

Lemma lost_run : forall ops n w w1, lost n w -> Forall (fun o => ~ makes_smo o) ops -> lrun pw slv w ops = Ok w1 -> lost (n + length (filter allocates ops)) w1.
Proof.
  induction ops as [|q r IH]; intros n w w1 K F H; cbn [lrun] in H; [inversion H; subst; cbn; now rewrite Nat.add_0_r|].
  inversion F; subst. apply obind_Ok in H. destruct H as (w2 & E & H). pose proof (IH _ _ _ (lost_step _ _ _ _ K H2 E) H3 H) as X.
  cbn [filter]. destruct (allocates q); cbn [length]; [|rewrite Nat.add_0_r in X; auto]. replace (n + S (length (filter allocates r))) with (n + 1 + length (filter allocates r)) by lia. auto.
Qed.
End Run.
