(** Lemmas: programs that keep the rules behave as if every classifier had its own kernel. *)
From Coq Require Import ZArith Bool List Lia Reals.
From Verif Require Import Base ListLib M_Data M_Point L_Vec Loop M_Kernel S_Kernel L_Kernel T_Kernel M_Perc S_Perc L_Perc T_Perc M_Copies S_Copies.
Import ListNotations.
Local Open Scope nat_scope.

Lemma obj_Ok {A} (l : list (option A)) i a : obj l i = Ok a <-> nth_error l i = Some (Some a).
Proof. unfold obj. destruct (nth_error l i) as [[x|]|]; split; intros H; inversion H; auto. Qed.
Lemma obj_lt {A} (l : list (option A)) i a : obj l i = Ok a -> i < length l.
Proof. intros H. apply obj_Ok in H. apply nth_error_Some. congruence. Qed.
Lemma vobj_Some vs i v : vobj vs i = Some v <-> nth_error vs i = Some (Some v).
Proof. unfold vobj. destruct (nth_error vs i) as [[x|]|]; split; intros H; inversion H; auto. Qed.
Lemma obj_app {A} (l r : list (option A)) i a : obj l i = Ok a -> obj (l ++ r) i = Ok a.
Proof. intros H. pose proof (obj_lt _ _ _ H). apply obj_Ok in H. apply obj_Ok. now rewrite nth_error_app1. Qed.
Lemma obj_last {A} (l : list (option A)) a : obj (l ++ [Some a]) (length l) = Ok a.
Proof. apply obj_Ok. rewrite nth_error_app2, Nat.sub_diag; auto. Qed.

Lemma upd_const_same {A} i (x : A) l r : upd i (fun _ => x) l = Some r -> nth_error r i = Some x.
Proof.
  intros H. rewrite (upd_nth_same _ _ _ _ H). pose proof (upd_Some_lt _ _ _ _ H).
  destruct (nth_error l i) eqn:E; auto. apply nth_error_None in E. lia.
Qed.

(** Relation between a classifier and its counterpart with a kernel of its own. *)
Definition good (h : list (option kernel)) (l : learner) (v : vlearner) : Prop :=
  l_kind l = v_kind v /\ l_samples l = v_samples v /\ l_alpha l = v_alpha v /\ l_sol l = v_sol v /\ v_type v <> Custom /\
  (l_kind l = Smo -> l_type l = v_type v /\ l_param l = v_param v) /\ (l_kind l = Ima -> v_own v = true) /\
  match l_kernel l with
  | None => v_own v = false /\ v_shared v = false /\ (l_kind l = Perc -> v_type v = InnerProduct /\ v_param v = 0%R)
  | Some a => v_own v = true /\ exists k, obj h a = Ok k /\ k_type k = v_type v /\ k_param k = v_param v /\
                (v_shared v = false -> v_clean v = true -> k_computed k = false)
  end.

Definition lv (ls : list (option learner)) (vs : list (option vlearner)) i l v : Prop :=
  nth_error ls i = Some (Some l) /\ nth_error vs i = Some (Some v).

Record base (h : list (option kernel)) (ls : list (option learner)) (vs : list (option vlearner)) : Prop := {
  b_len : length ls = length vs;
  b_lv : forall i l, nth_error ls i = Some (Some l) -> exists v, nth_error vs i = Some (Some v) /\ good h l v;
  b_vl : forall i v, nth_error vs i = Some (Some v) -> exists l, nth_error ls i = Some (Some l);
  b_share : forall i j l v u x a, i <> j -> lv ls vs i l v -> lv ls vs j u x -> l_kernel l = Some a -> l_kernel u = Some a ->
    v_shared v = true /\ l_kind l <> Smo }.

Definition prevok (h : list (option kernel)) (ls : list (option learner)) (prev : option lop) : Prop :=
  forall i l a k, prev = Some (Recompute i) -> nth_error ls i = Some (Some l) -> l_kernel l = Some a -> obj h a = Ok k -> k_computed k = false.

Lemma base_get h ls vs i v : base h ls vs -> vobj vs i = Some v -> exists l, obj ls i = Ok l /\ lv ls vs i l v /\ good h l v.
Proof.
  intros B H. apply vobj_Some in H. destruct (b_vl _ _ _ B _ _ H) as (l & L). destruct (b_lv _ _ _ B _ _ L) as (v' & V & G).
  rewrite V in H. inversion H; subst. exists l. split; [now apply obj_Ok|]. split; [now split|assumption].
Qed.

Lemma base_put h ls vs h' i l' v' ls' vs' : base h ls vs ->
  upd i (fun _ => Some l') ls = Some ls' -> upd i (fun _ => Some v') vs = Some vs' -> good h' l' v' ->
  (forall j l v, j <> i -> lv ls vs j l v -> good h l v -> good h' l v) ->
  (forall j u x a, j <> i -> lv ls vs j u x -> l_kernel l' = Some a -> l_kernel u = Some a ->
     v_shared v' = true /\ l_kind l' <> Smo /\ v_shared x = true /\ l_kind u <> Smo) ->
  base h' ls' vs'.
Proof.
  intros B U V G F H.
  assert (S1 := upd_const_same _ _ _ _ U). assert (S2 := upd_const_same _ _ _ _ V).
  assert (O1 : forall j, j <> i -> nth_error ls' j = nth_error ls j) by (intros; eapply upd_nth_other; eauto).
  assert (O2 : forall j, j <> i -> nth_error vs' j = nth_error vs j) by (intros; eapply upd_nth_other; eauto).
  constructor.
  - rewrite (upd_length _ _ _ _ U), (upd_length _ _ _ _ V). apply (b_len _ _ _ B).
  - intros j l L. destruct (Nat.eq_dec j i) as [->|N].
    + rewrite S1 in L. inversion L; subst. eauto.
    + rewrite O1 in L by auto. rewrite O2 by auto. destruct (b_lv _ _ _ B _ _ L) as (v & A & C). exists v. split; auto.
      apply (F j l v N); auto. now split.
  - intros j v L. destruct (Nat.eq_dec j i) as [->|N].
    + rewrite S1. eauto.
    + rewrite O2 in L by auto. rewrite O1 by auto. apply (b_vl _ _ _ B _ _ L).
  - intros j k l v u x a N (L1 & L2) (L3 & L4) K1 K2.
    destruct (Nat.eq_dec j i) as [->|N1]; destruct (Nat.eq_dec k i) as [->|N2]; try congruence.
    + rewrite S1 in L1. rewrite S2 in L2. inversion L1; inversion L2; subst. rewrite O1 in L3 by auto. rewrite O2 in L4 by auto.
      destruct (H k u x a) as (A & C & D & E); auto. now split.
    + rewrite S1 in L3. rewrite S2 in L4. inversion L3; inversion L4; subst. rewrite O1 in L1 by auto. rewrite O2 in L2 by auto.
      destruct (H j l v a) as (A & C & D & E); auto. now split.
    + rewrite O1 in L1, L3 by auto. rewrite O2 in L2, L4 by auto. apply (b_share _ _ _ B j k l v u x a); auto; now split.
Qed.

Lemma base_kill h ls vs h' i ls' vs' : base h ls vs ->
  upd i (fun _ => None) ls = Some ls' -> upd i (fun _ => None) vs = Some vs' ->
  (forall j l v, j <> i -> lv ls vs j l v -> good h l v -> good h' l v) -> base h' ls' vs'.
Proof.
  intros B U V F.
  assert (S1 := upd_const_same _ _ _ _ U). assert (S2 := upd_const_same _ _ _ _ V).
  assert (O1 : forall j, j <> i -> nth_error ls' j = nth_error ls j) by (intros; eapply upd_nth_other; eauto).
  assert (O2 : forall j, j <> i -> nth_error vs' j = nth_error vs j) by (intros; eapply upd_nth_other; eauto).
  constructor.
  - rewrite (upd_length _ _ _ _ U), (upd_length _ _ _ _ V). apply (b_len _ _ _ B).
  - intros j l L. destruct (Nat.eq_dec j i) as [->|N]; [rewrite S1 in L; discriminate|].
    rewrite O1 in L by auto. rewrite O2 by auto. destruct (b_lv _ _ _ B _ _ L) as (v & A & C). exists v. split; auto.
    apply (F j l v N); auto. now split.
  - intros j v L. destruct (Nat.eq_dec j i) as [->|N]; [rewrite S2 in L; discriminate|].
    rewrite O2 in L by auto. rewrite O1 by auto. apply (b_vl _ _ _ B _ _ L).
  - intros j k l v u x a N (L1 & L2) (L3 & L4) K1 K2.
    destruct (Nat.eq_dec j i) as [->|N1]; [rewrite S1 in L1; discriminate|]. destruct (Nat.eq_dec k i) as [->|N2]; [rewrite S1 in L3; discriminate|].
    rewrite O1 in L1, L3 by auto. rewrite O2 in L2, L4 by auto. apply (b_share _ _ _ B j k l v u x a); auto; now split.
Qed.

Lemma nth_app_last {A} (l : list A) x i : nth_error (l ++ [x]) i = if Nat.eq_dec i (length l) then Some x else nth_error l i.
Proof.
  destruct (Nat.eq_dec i (length l)) as [->|N]; [rewrite nth_error_app2, Nat.sub_diag; auto|].
  destruct (Nat.lt_ge_cases i (length l)); [now rewrite nth_error_app1|].
  rewrite nth_error_app2 by lia. destruct (i - length l) as [|m] eqn:E; [lia|]. cbn [nth_error].
  replace (nth_error (@nil A) m) with (@None A) by (now destruct m). symmetry. apply nth_error_None. lia.
Qed.

Lemma base_app h ls vs h' l' v' : base h ls vs -> good h' l' v' ->
  (forall j l v, lv ls vs j l v -> good h l v -> good h' l v) ->
  (forall j u x a, lv ls vs j u x -> l_kernel l' = Some a -> l_kernel u = Some a ->
     v_shared v' = true /\ l_kind l' <> Smo /\ v_shared x = true /\ l_kind u <> Smo) ->
  base h' (ls ++ [Some l']) (vs ++ [Some v']).
Proof.
  intros B G F H. pose proof (b_len _ _ _ B) as L.
  constructor.
  - rewrite !app_length. cbn [length]. lia.
  - intros j l E. rewrite nth_app_last in E. rewrite nth_app_last, <- L. destruct (Nat.eq_dec j (length ls)) as [->|N].
    + inversion E; subst. eauto.
    + destruct (b_lv _ _ _ B _ _ E) as (v & A & C). exists v. split; auto. apply (F j l v); auto. now split.
  - intros j v E. rewrite nth_app_last, <- L in E. rewrite nth_app_last. destruct (Nat.eq_dec j (length ls)) as [->|N]; eauto.
    apply (b_vl _ _ _ B _ _ E).
  - intros j k l v u x a N (L1 & L2) (L3 & L4) K1 K2. rewrite nth_app_last in L1, L3. rewrite nth_app_last, <- L in L2, L4.
    destruct (Nat.eq_dec j (length ls)) as [->|N1]; destruct (Nat.eq_dec k (length ls)) as [->|N2]; try congruence.
    + inversion L1; inversion L2; subst. destruct (H k u x a) as (A & C & D & E); auto; try now split.
    + inversion L3; inversion L4; subst. destruct (H j l v a) as (A & C & D & E); auto; try now split.
    + apply (b_share _ _ _ B j k l v u x a); auto; now split.
Qed.

(** Frame: objects that stay. *)
Lemma good_heap h h' l v : good h l v -> (forall a k, l_kernel l = Some a -> obj h a = Ok k -> obj h' a = Ok k) -> good h' l v.
Proof.
  unfold good. intros (A & C & D & E & F & G & I & K) H. repeat (split; [assumption|]).
  destruct (l_kernel l) as [a|]; auto. destruct K as (O & k & K1 & K2). split; auto. exists k. split; auto.
Qed.

(** A rewritten object in which type and parameter stay, seen by sharing classifiers only. *)
Lemma good_kput h h' a k k' l v : good h l v -> obj h a = Ok k -> upd a (fun _ => Some k') h = Some h' ->
  k_type k' = k_type k -> k_param k' = k_param k -> (l_kernel l = Some a -> v_shared v = true) -> good h' l v.
Proof.
  unfold good. intros (A & C & D & E & F & G & I & K) O U T P Hs. repeat (split; [assumption|]).
  destruct (l_kernel l) as [b|]; auto. destruct K as (Ow & m & M1 & M2 & M3 & M4). split; auto.
  destruct (Nat.eq_dec b a) as [->|N].
  - rewrite O in M1. inversion M1; subst. exists k'. split; [apply obj_Ok; apply (upd_const_same _ _ _ _ U)|].
    repeat split; try congruence. intros S1. rewrite Hs in S1; auto. discriminate.
  - exists m. split; auto. apply obj_Ok. apply obj_Ok in M1. rewrite (upd_nth_other _ _ _ _ _ U); auto.
Qed.

Section Copies.
Variable pw : R -> R -> R.
Variable slv : kind -> list (list R) -> data R -> vec -> sol -> (nat -> R) * R * R.

Lemma compute_gram k d : k_computed k = false -> k_type k <> Custom -> rect d ->
  exists k', compute pw k d None = Ok k' /\ k_K k' = gram pw (k_type k) (k_param k) d /\
    k_type k' = k_type k /\ k_param k' = k_param k /\ k_computed k' = true.
Proof.
  intros C T Rc. destruct (c29_compute pw k d None (fun _ _ _ => 0%R) C Rc) as (k' & E & K & _); [tauto|].
  exists k'. split; auto. split; auto. unfold compute in E. rewrite C in E.
  match type of E with obind ?m _ = _ => destruct m; cbn [obind] in E; inversion E end. now cbn.
Qed.

Lemma covers_gram t p d : covers (gram pw t p d) (size d) = true.
Proof.
  unfold covers, gram. apply forallb_forall. intros i Hi. apply in_seq in Hi. unfold table.
  rewrite nth_error_map.
  destruct (nth_error (seq 0 (size d)) i) as [x|] eqn:E; cbn [option_map].
  - rewrite map_length, seq_length. apply Nat.leb_refl.
  - apply nth_error_None in E. rewrite seq_length in E. lia.
Qed.

Lemma solved_is k K d a s n : solved slv k K d a s n = outcome_of slv k K d a s n.
Proof. unfold solved, outcome_of. destruct (slv k K d a s) as [[f b] m]. reflexivity. Qed.
End Copies.
