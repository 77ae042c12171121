(** Lemmas: plot folders. *)
From Coq Require Import Bool List Arith Lia.
From Verif Require Import Base ListLib M_Folders S_Folders.
Import ListNotations.
Local Open Scope nat_scope.

Section L.
Context {A : Type}.
Implicit Types (d : list (nat * A)).

Lemma dget_none d n : dget d n = None <-> ~ In n (map fst d).
Proof.
  unfold dget. induction d as [|[m x] d IH]; cbn; [split; auto|].
  destruct (Nat.eqb_spec m n) as [->|N]; cbn; [split; [discriminate|intros H; exfalso; auto]|]. rewrite IH. split; [intros H [X|X]; auto|auto].
Qed.
Lemma dget_app d e n : dget (d ++ e) n = match dget d n with Some x => Some x | None => dget e n end.
Proof. unfold dget. induction d as [|[m x] d IH]; cbn; auto. destruct (Nat.eqb m n); cbn; auto. Qed.
Lemma dget_drem d n m : dget (drem d n) m = if Nat.eqb m n then None else dget d m.
Proof.
  unfold dget, drem. induction d as [|[k x] d IH]; cbn; [destruct (Nat.eqb m n); auto|].
  destruct (Nat.eqb_spec k n) as [->|N]; cbn.
  - rewrite IH. destruct (Nat.eqb_spec m n) as [Em|M]; [reflexivity|]. destruct (Nat.eqb_spec n m); [congruence|reflexivity].
  - destruct (Nat.eqb_spec k m) as [->|K]; cbn; [destruct (Nat.eqb_spec m n); [congruence|auto]|apply IH].
Qed.
Lemma drem_absent d n : dget d n = None -> drem d n = d.
Proof.
  unfold dget, drem. induction d as [|[k x] d IH]; cbn; auto. destruct (Nat.eqb_spec k n) as [->|N]; cbn; [discriminate|]. intros H. f_equal. apply IH, H.
Qed.
Lemma dget_dput d n c m : dget d n = None -> dget (dput d n c) m = if Nat.eqb m n then Some c else dget d m.
Proof.
  intros H. unfold dput. rewrite dget_app. unfold dget at 2. cbn. destruct (Nat.eqb_spec m n) as [->|N].
  - rewrite H. now rewrite Nat.eqb_refl.
  - destruct (Nat.eqb_spec n m); [congruence|]. cbn. destruct (dget d m); auto.
Qed.
Lemma drem_length d n x : NoDup (map fst d) -> dget d n = Some x -> S (length (drem d n)) = length d.
Proof.
  unfold dget. induction d as [|[k y] d IH]; cbn; [discriminate|]. intros N H. inversion N; subst. destruct (Nat.eqb_spec k n) as [->|M]; cbn.
  - f_equal. fold (drem d n). rewrite drem_absent; auto. apply dget_none. auto.
  - f_equal. apply IH; auto.
Qed.
Lemma drem_keys d n : NoDup (map fst d) -> NoDup (map fst (drem d n)).
Proof.
  induction d as [|[k x] d IH]; cbn; auto. intros N. inversion N; subst. destruct (Nat.eqb_spec k n) as [->|M]; cbn; auto.
  constructor; auto. intros X. apply H1. unfold drem in X. apply in_map_iff in X. destruct X as (p & E & I). apply filter_In in I. apply in_map_iff. exists p. tauto.
Qed.
Lemma fold_drem_get fs : forall d m, dget (fold_left drem fs d) m = if existsb (Nat.eqb m) fs then None else dget d m.
Proof.
  induction fs as [|n fs IH]; intros d m; cbn; auto. rewrite IH, dget_drem. destruct (Nat.eqb m n); cbn; auto. destruct (existsb _ fs); auto.
Qed.
Lemma fold_drem_absent fs : forall d, (forall n, In n fs -> dget d n = None) -> fold_left drem fs d = d.
Proof. induction fs as [|n fs IH]; intros d H; cbn; auto. rewrite drem_absent by (apply H; cbn; auto). apply IH. intros m Hm. apply H. cbn. auto. Qed.

(** The number chosen is the first one free, and all numbers tried are remembered. *)
Lemma in_fs1 n fs m : In m (if existsb (Nat.eqb n) fs then fs else fs ++ [n]) <-> In m fs \/ m = n.
Proof.
  destruct (existsb (Nat.eqb n) fs) eqn:E.
  - split; auto. intros [H| ->]; auto. apply existsb_exists in E. destruct E as (x & I & X). apply Nat.eqb_eq in X. now subst.
  - rewrite in_app_iff. cbn. intuition.
Qed.
Lemma free_from_gen : forall f d n fs, let r := free_from f d n fs in
  n <= fst r <= n + f /\ (forall m, In m (snd r) <-> In m fs \/ n <= m <= fst r) /\
  (forall m, n <= m < fst r -> dget d m <> None) /\ (fst r < n + f -> dget d (fst r) = None).
Proof.
  induction f as [|f IH]; intros d n fs; cbn [free_from].
  - cbn [fst snd]. split; [lia|]. split; [intros m; rewrite in_fs1; intuition lia|]. split; intros; lia.
  - destruct (dget d n) as [x|] eqn:E.
    + specialize (IH d (S n) (if existsb (Nat.eqb n) fs then fs else fs ++ [n])). cbv zeta in IH. destruct IH as (H1 & H2 & H3 & H4).
      split; [lia|]. split; [intros m; rewrite H2, in_fs1; intuition lia|]. split; [|intros; apply H4; lia].
      intros m Hm. destruct (Nat.eq_dec m n) as [->|]; [congruence|apply H3; lia].
    + cbn [fst snd]. split; [lia|]. split; [intros m; rewrite in_fs1; intuition lia|]. split; [intros; lia|auto].
Qed.
Lemma free_from_ok d n fs : let r := free_from (length d) d n fs in
  n <= fst r /\ (forall m, In m (snd r) <-> In m fs \/ n <= m <= fst r) /\ (forall m, n <= m < fst r -> dget d m <> None) /\ dget d (fst r) = None.
Proof.
  intros r. destruct (free_from_gen (length d) d n fs) as (H1 & H2 & H3 & H4). fold r in H1, H2, H3, H4.
  split; [lia|]. split; auto. split; auto. destruct (Nat.eq_dec (fst r) (n + length d)) as [E|N]; [|apply H4; lia].
  destruct (dget d (fst r)) eqn:G; auto. exfalso.
  assert (I : incl (seq n (S (length d))) (map fst d)).
  { intros m Hm. apply in_seq in Hm. destruct (in_dec Nat.eq_dec m (map fst d)) as [|X]; auto. exfalso. apply dget_none in X.
    destruct (Nat.eq_dec m (fst r)) as [->|]; [congruence|]. apply (H3 m); [lia|auto]. }
  apply NoDup_incl_length in I; [|apply seq_NoDup]. rewrite seq_length, map_length in I. lia.
Qed.
Lemma create_spec d cnt v c v1 d1 cnt1 : create d cnt v c = (v1, d1, cnt1) ->
  exists n, v_folder v1 = Some n /\ dget d n = None /\ d1 = dput d n c /\ cnt (v_type v) <= n /\ v_type v1 = v_type v /\ v_keep v1 = v_keep v /\
    (forall m, In m (v_folders v1) <-> In m (v_folders v) \/ cnt (v_type v) <= m <= n) /\ (forall m, cnt (v_type v) <= m < n -> dget d m <> None) /\
    cnt1 = fun t => if Nat.eqb t (v_type v) then S n else cnt t.
Proof.
  unfold create. destruct (free_from_ok d (cnt (v_type v)) (v_folders v)) as (H1 & H2 & H3 & H4). intros E. injection E as <- <- <-.
  eexists. split; [reflexivity|]. repeat (split; [auto|]). reflexivity.
Qed.

Lemma sget_app s e k : sget (s ++ e) k = match sget s k with Some x => Some x | None => @sget A e k end.
Proof. unfold sget. induction s as [|[m x] s IH]; cbn; auto. destruct (_ && _); cbn; auto. Qed.

Lemma showing_app l x : @showing A (l ++ [x]) = showing l + match x with Some (_, Some _) => 1 | _ => 0 end.
Proof. unfold showing. rewrite filter_app, app_length. destruct x as [[k [c|]]|]; cbn; lia. Qed.
Lemma showing_upd l : forall i x l1 y, @nth_error (option (bool * option A)) l i = Some y -> upd i (fun _ => x) l = Some l1 ->
  showing l1 + match y with Some (_, Some _) => 1 | _ => 0 end = showing l + match x with Some (_, Some _) => 1 | _ => 0 end.
Proof.
  unfold showing. induction l as [|z l IH]; intros [|i] x l1 y N U; cbn in N, U; try discriminate.
  - injection N as ->. injection U as <-. cbn. destruct x as [[? [?|]]|], y as [[? [?|]]|]; cbn; lia.
  - destruct (upd i _ l) as [l2|] eqn:E; [|discriminate]. injection U as <-. specialize (IH _ _ _ _ N E). cbn. destruct z as [[? [?|]]|]; cbn; lia.
Qed.

(** ** One element type, no other program. *)
Record inv (t : nat) (dk : disk A) (s : pstate A) : Prop := mkInv {
  i_len : length (objs dk) = length (p_live s);
  i_obj : forall i v, nth_error (objs dk) i = Some (Some v) -> exists oc, nth_error (p_live s) i = Some (Some (v_keep v, oc)) /\ v_type v = t /\
    match oc with Some x => exists n, v_folder v = Some n /\ dget (dirs dk) n = Some x /\ In n (v_folders v) | None => v_folder v = None end;
  i_dead : forall i, nth_error (objs dk) i = Some None -> nth_error (p_live s) i = Some None;
  i_own : forall i j v u n, i <> j -> nth_error (objs dk) i = Some (Some v) -> nth_error (objs dk) j = Some (Some u) -> In n (v_folders v) -> In n (v_folders u) -> False;
  i_lt : forall i v n, nth_error (objs dk) i = Some (Some v) -> In n (v_folders v) -> n < counters dk t;
  i_dir : forall n, dget (dirs dk) n <> None -> n < counters dk t /\ exists i v, nth_error (objs dk) i = Some (Some v) /\ v_folder v = Some n;
  i_sav : forall n st, sget (saved dk) (n, st) <> None -> n < counters dk t /\ dget (dirs dk) n = None;
  i_savl : map snd (saved dk) = p_saved s;
  i_nodup : NoDup (map fst (dirs dk));
  i_cnt : length (dirs dk) = showing (p_live s) }.

Lemma create_own t dk s v d c : inv t dk s -> v_type v = t -> (forall n, dget d n <> None -> dget (dirs dk) n <> None) ->
  (forall n, In n (v_folders v) -> n < counters dk t) ->
  create d (counters dk) v c = (mkVis t (v_keep v) (Some (counters dk t)) (v_folders v ++ [counters dk t]), dput d (counters dk t) c,
    fun u => if Nat.eqb u t then S (counters dk t) else counters dk u) /\ dget d (counters dk t) = None.
Proof.
  intros I T Hd Hv. assert (N : dget d (counters dk t) = None).
  { destruct (dget d (counters dk t)) eqn:E; auto. exfalso. assert (X : dget d (counters dk t) <> None) by congruence. apply Hd in X. apply (i_dir _ _ _ I) in X. lia. }
  split; auto. unfold create. rewrite T.
  assert (Ex : existsb (Nat.eqb (counters dk t)) (v_folders v) = false).
  { apply not_true_is_false. intros X. apply existsb_exists in X. destruct X as (n & In1 & E). apply Nat.eqb_eq in E. subst. apply Hv in In1. lia. }
  assert (Fr : free_from (length d) d (counters dk t) (v_folders v) = (counters dk t, v_folders v ++ [counters dk t])).
  { destruct (length d); cbn [free_from]; rewrite Ex; auto. now rewrite N. }
  rewrite Fr. reflexivity.
Qed.

(** What taking object [i] away does. *)
Lemma removed t dk s i v x stamp : inv t dk s -> nth_error (objs dk) i = Some (Some v) -> nth_error (p_live s) i = Some (Some x) ->
  let r := remove_temp dk v stamp in
  (forall m, dget (fst r) m = if match v_folder v with Some n => Nat.eqb m n | None => false end then None else dget (dirs dk) m) /\
  NoDup (map fst (fst r)) /\
  length (fst r) + match snd x with Some _ => 1 | None => 0 end = length (dirs dk) /\
  map snd (snd r) = p_saved s ++ left_behind x /\
  (forall n st, sget (snd r) (n, st) <> None -> n < counters dk t /\ dget (fst r) n = None) /\
  (forall m, In m (v_folders v) -> dget (fst r) m = None).
Proof.
  intros I O P. destruct (i_obj _ _ _ I i v O) as (oc & P1 & T & F). rewrite P in P1. injection P1 as ->. cbn [snd].
  assert (Vf : forall m, In m (v_folders v) -> dget (dirs dk) m <> None -> v_folder v = Some m).
  { intros m Hm Hd. destruct (i_dir _ _ _ I m Hd) as (_ & j & u & Oj & Fj). destruct (Nat.eq_dec i j) as [<-|N]; [congruence|]. exfalso.
    destruct (i_obj _ _ _ I j u Oj) as (oj & _ & _ & Fu). destruct oj as [y|]; [|congruence]. destruct Fu as (n & Fn & _ & In1).
    assert (n = m) by congruence. subst. apply (i_own _ _ _ I i j v u m N O Oj Hm In1). }
  unfold remove_temp. destruct oc as [y|].
  - destruct F as (n & Fn & Dn & Inn). rewrite Fn. destruct (v_keep v) eqn:K.
    + rewrite Dn. assert (Sn : sget (saved dk) (n, stamp) = None).
      { destruct (sget (saved dk) (n, stamp)) eqn:E; auto. exfalso. assert (X : sget (saved dk) (n, stamp) <> None) by congruence. apply (i_sav _ _ _ I) in X. destruct X; congruence. }
      rewrite Sn. cbn [fst snd]. split; [intros m; apply dget_drem|]. split; [apply drem_keys, (i_nodup _ _ _ I)|].
      split; [pose proof (drem_length _ _ _ (i_nodup _ _ _ I) Dn); lia|].
      split; [rewrite map_app, (i_savl _ _ _ I); reflexivity|]. split.
      * intros m st X. rewrite sget_app in X. rewrite dget_drem. destruct (sget (saved dk) (m, st)) eqn:E.
        -- assert (Y : sget (saved dk) (m, st) <> None) by congruence. apply (i_sav _ _ _ I) in Y. destruct Y as (Y & Z). split; auto. destruct (Nat.eqb m n); auto.
        -- unfold sget in X. cbn in X. destruct (Nat.eqb_spec n m) as [<-|N]; cbn in X; [|congruence]. rewrite Nat.eqb_refl. split; auto. apply (i_lt _ _ _ I i v n O Inn).
      * intros m Hm. rewrite dget_drem. destruct (Nat.eqb_spec m n) as [|N]; auto. destruct (dget (dirs dk) m) eqn:E; auto. exfalso.
        assert (X : dget (dirs dk) m <> None) by congruence. apply (Vf m Hm) in X. congruence.
    + cbn [fst snd]. split; [intros m; apply dget_drem|]. split; [apply drem_keys, (i_nodup _ _ _ I)|].
      split; [pose proof (drem_length _ _ _ (i_nodup _ _ _ I) Dn); lia|].
      split; [rewrite (i_savl _ _ _ I); cbn; now rewrite app_nil_r|]. split.
      * intros m st X. rewrite dget_drem. apply (i_sav _ _ _ I) in X. destruct X as (X & Y). split; auto. destruct (Nat.eqb m n); auto.
      * intros m Hm. rewrite dget_drem. destruct (Nat.eqb_spec m n) as [|N]; auto. destruct (dget (dirs dk) m) eqn:E; auto. exfalso.
        assert (X : dget (dirs dk) m <> None) by congruence. apply (Vf m Hm) in X. congruence.
  - rewrite F. cbn [fst snd]. split; [auto|]. split; [apply (i_nodup _ _ _ I)|]. split; [lia|]. split; [rewrite (i_savl _ _ _ I); destruct (v_keep v); cbn; now rewrite app_nil_r|].
    split; [apply (i_sav _ _ _ I)|]. intros m Hm. destruct (dget (dirs dk) m) eqn:E; auto. exfalso. assert (X : dget (dirs dk) m <> None) by congruence. apply (Vf m Hm) in X. congruence.
Qed.
End L.
