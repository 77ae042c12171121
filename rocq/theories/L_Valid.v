(** Lemmas about k-fold and train/test splitting. *)
From Coq Require Import ZArith Bool String Sorted Permutation Lia List Reals.
From Verif Require Import Base ListLib M_Data S_Data L_Data L_Data2 L_Insert L_Str L_Feat L_Split L_Join T_Data M_Valid.
Import ListNotations.
Open Scope nat_scope.

Section V.
Context {T : Type}.
Implicit Types d s : data T.

(** An accumulated training set. *)
Record jt d : Prop := {
  jt_size : d_size d = length (d_points d);
  jt_class : class_ok d;
  jt_cdist : d_cdist d = false;
  jt_dim : d_dim d = 0;
  jt_index : d_index d = iota 0 (length (d_points d)) }.

Lemma jt_empty : jt (@data_empty T).
Proof. constructor; auto. apply (b_class _ _ (built_empty 0)). Qed.

Lemma join_gen d s : jt d -> class_ok s -> (Z.of_nat (length (d_points d) + length (d_points s)) < 2 ^ 63)%Z ->
  exists d', join d s = Ok d' /\ jt d' /\ d_points d' = d_points d ++ d_points s.
Proof.
  intros [Js Jc Jd Jm Ji] Hs Hc. unfold join. rewrite Jm.
  rewrite (proj2 (Nat.ltb_ge _ _)) by lia. rewrite Js, (proj2 (Nat.ltb_ge _ _)) by lia.
  rewrite firstn_all, map_copy_points.
  set (diff := set_difference Z.ltb _ _). set (diffn := set_difference String.ltb _ _).
  destruct (Zdiff_spec (d_classes s) (d_classes d)) as (ND & HI); try apply Hs; try apply Jc. fold diff in ND, HI.
  unfold computeClassesDistribution. cbn [d_cdist]. rewrite Jd. cbn [d_classes d_points].
  assert (NoDup (d_classes d ++ diff)) as ND'.
  { apply NoDup_app_intro; auto; try apply Jc. intros x Hx. apply HI in Hx. tauto. }
  assert (forall c, In c (d_classes d ++ diff) <-> In c (d_classes d) \/ In c (d_classes s)) as HU.
  { intro c. rewrite in_app_iff, HI. destruct (in_dec Z.eq_dec c (d_classes d)); tauto. }
  destruct (tally_zero (d_classes d ++ diff) (d_points d ++ d_points s)) as (dist & Ht & CO); auto.
  - intros p Hp. apply HU. apply in_app_or in Hp. destruct Hp as [Hp|Hp]; [left|right]; [apply Jc|apply Hs]; auto.
  - rewrite app_length. auto.
  - rewrite Ht. cbn. eexists. split; [reflexivity|]. split; [|auto].
    constructor; cbn; auto; [rewrite app_length; auto|]. apply class_ok_iff; cbn; split; auto; apply Jc.
Qed.

Definition pts_at (parts : list (data T)) (j : nat) : list (point T) :=
  match nth_error parts j with Some P => d_points P | None => [] end.

Lemma kf_join_spec folds parts : (forall P, In P parts -> class_ok P) -> length parts = folds ->
  forall steps j train nj, jt train -> j < folds ->
  (Z.of_nat (length (d_points train) + length (flat_map (fun x => pts_at parts ((j + x) mod folds)) (seq 0 steps))) < 2 ^ 63)%Z ->
  exists t', kf_join steps j folds parts train nj = Ok (t', match steps with O => nj | _ => (j + steps) mod folds end) /\ jt t' /\
    d_points t' = d_points train ++ flat_map (fun x => pts_at parts ((j + x) mod folds)) (seq 0 steps).
Proof.
  intros Hp Hl steps. induction steps as [|steps IH]; intros j train nj Jt Hj Hc.
  - exists train. cbn. rewrite app_nil_r. auto.
  - cbn [kf_join]. unfold vget. destruct (nth_error parts j) as [P|] eqn:E; [|apply nth_error_None in E; lia].
    cbn [obind]. cbn [seq flat_map] in Hc. rewrite app_length in Hc.
    assert (pts_at parts ((j + 0) mod folds) = d_points P) as EP.
    { rewrite Nat.add_0_r, Nat.mod_small by auto. unfold pts_at. rewrite E. auto. }
    assert (forall m, flat_map (fun x => pts_at parts ((j + x) mod folds)) (seq 1 m) = flat_map (fun x => pts_at parts (((j + 1) mod folds + x) mod folds)) (seq 0 m)) as ES.
    { intro m. rewrite <- seq_shift, !flat_map_concat_map, map_map. f_equal. apply map_ext. intro x.
      rewrite Nat.add_mod_idemp_l by lia. f_equal. f_equal. lia. }
    rewrite EP, ES in Hc.
    destruct (join_gen train P) as (t1 & E1 & J1 & P1); auto.
    + apply Hp. eapply nth_error_In; eauto.
    + lia.
    + rewrite E1. cbn [obind]. destruct (IH ((j + 1) mod folds) t1 ((j + 1) mod folds) J1) as (t' & E' & J' & P').
      * apply Nat.mod_upper_bound. lia.
      * rewrite P1, app_length. lia.
      * exists t'. split; [|split; auto].
        -- rewrite E'. f_equal. f_equal. destruct steps; cbn.
           ++ auto.
           ++ rewrite Nat.add_mod_idemp_l by lia. f_equal. lia.
        -- rewrite P', P1, <- app_assoc. f_equal. cbn [seq flat_map]. rewrite EP, ES. auto.
Qed.

Lemma NoDup_map_in {A B} (f : A -> B) l : (forall x y, In x l -> In y l -> f x = f y -> x = y) -> NoDup l -> NoDup (map f l).
Proof.
  intros H N. induction N as [|x l Hx N IH]; cbn; constructor.
  - intro X. apply in_map_iff in X. destruct X as (y & E & Hy). apply Hx. rewrite (H x y); auto; [left; auto|right; auto].
  - apply IH. intros a b Ha Hb. apply H; right; auto.
Qed.

Lemma rot_perm i k : 0 < k -> Permutation (map (fun x => (i + x) mod k) (seq 0 k)) (seq 0 k).
Proof.
  intro Hk. apply NoDup_Permutation_bis.
  - apply NoDup_map_in; [|apply seq_NoDup]. intros x y Hx Hy E. apply in_seq in Hx. apply in_seq in Hy.
    assert (k <> 0) as K by lia.
    pose proof (Nat.div_mod (i + x) k K) as A1. pose proof (Nat.div_mod (i + y) k K) as A2. cbv beta in E. rewrite E in A1.
    set (q1 := (i + x) / k) in *. set (q2 := (i + y) / k) in *. set (rr := (i + y) mod k) in *. clearbody q1 q2 rr.
    destruct (lt_eq_lt_dec q1 q2) as [[Q|Q]|Q]; [|subst; lia|]; exfalso.
    + assert (k * q1 + k <= k * q2) by nia. lia.
    + assert (k * q2 + k <= k * q1) by nia. lia.
  - rewrite map_length, seq_length. auto.
  - intros y Hy. apply in_map_iff in Hy. destruct Hy as (x & <- & _). apply in_seq. pose proof (Nat.mod_upper_bound (i + x) k). lia.
Qed.

Lemma flat_map_pts_at parts : flat_map (pts_at parts) (seq 0 (length parts)) = flat_map d_points parts.
Proof.
  assert (forall pre, flat_map (pts_at (pre ++ parts)) (seq (length pre) (length parts)) = flat_map d_points parts) as X; [|apply (X [])].
  induction parts as [|P r IH]; intro pre; cbn; auto. f_equal.
  - unfold pts_at. rewrite nth_error_app2, Nat.sub_diag by lia. auto.
  - specialize (IH (pre ++ [P])). rewrite <- app_assoc in IH. rewrite app_length in IH. cbn in IH. rewrite Nat.add_1_r in IH. auto.
Qed.

Lemma flat_map_perm {A B} (f : A -> list B) l l' : Permutation l l' -> Permutation (flat_map f l) (flat_map f l').
Proof.
  induction 1; cbn; auto.
  - apply Permutation_app_head. auto.
  - rewrite !app_assoc. apply Permutation_app_tail, Permutation_app_comm.
  - etransitivity; eauto.
Qed.

Lemma rot_parts parts i : 0 < length parts ->
  Permutation (flat_map (fun x => pts_at parts ((i + x) mod length parts)) (seq 0 (length parts))) (flat_map d_points parts).
Proof.
  intro H. rewrite <- flat_map_pts_at.
  rewrite flat_map_concat_map, <- (map_map (fun x => (i + x) mod length parts) (pts_at parts)), <- flat_map_concat_map.
  apply flat_map_perm, rot_perm. auto.
Qed.

(** What the shuffled, re-indexed result looks like. *)
Definition okset (d : data T) : Prop := d_size d = size d /\ class_ok d /\ d_index d = iota 0 (size d).

Lemma class_ok_perm d d' : class_ok d -> Permutation (d_points d') (d_points d) -> d_classes d' = d_classes d ->
  d_dist d' = d_dist d -> d_class d' = d_class d -> class_ok d'.
Proof.
  intros [A B C D E] P Ec Ed Ecl. constructor; rewrite ?Ec, ?Ed, ?Ecl; auto.
  - intros p Hp. apply C. eapply Permutation_in; eauto.
  - intros i c Hi. rewrite (E _ _ Hi). f_equal. unfold label_count. f_equal.
    apply Permutation_count_occ. apply Permutation_map. apply Permutation_sym. auto.
Qed.

Lemma okset_copy d : okset d -> okset (copy d).
Proof.
  intros (A & B & C). split; [unfold size; rewrite copy_points; reflexivity|]. split.
  - eapply class_ok_perm; [exact B|rewrite copy_points|..]; auto.
  - unfold size. rewrite copy_points. exact C.
Qed.

Lemma shuffled d perm : d_size d = length (d_points d) -> class_ok d -> d_size d <= length (d_index d) ->
  Permutation perm (seq 0 (size d)) ->
  exists d', shuffle perm d = Ok d' /\ okset (resetIndex d') /\ Permutation (d_points d') (d_points d) /\ d_classes d' = d_classes d.
Proof.
  intros Hs Hc Hi Hp. destruct (shuffle_spec d perm Hi Hp) as (d' & E & P & _ & _ & _ & F3 & F4 & F5 & _ & F7 & _).
  exists d'. split; auto. split; [|auto]. split; [|split].
  - cbn. rewrite F5, Hs. symmetry. apply Permutation_length. auto.
  - apply (class_ok_perm d); auto.
  - reflexivity.
Qed.

Lemma kf_pair_spec sh folds parts n i :
  (forall a m, Permutation (sh a m) (seq 0 m)) -> 2 <= folds -> length parts = folds -> i < folds ->
  (forall P, In P parts -> built n P) -> (Z.of_nat (length (flat_map d_points parts)) < 2 ^ 63)%Z ->
  exists tr te, kf_pair sh folds parts i = Ok (tr, te) /\ okset tr /\ okset te /\
    Permutation (d_points tr) (flat_map (fun x => pts_at parts ((i + x) mod folds)) (seq 0 (folds - 1))) /\
    Permutation (d_points te) (pts_at parts (if Nat.eqb folds 2 then i else (i + (folds - 1)) mod folds)).
Proof.
  intros Hsh Hf Hl Hi Hb Hc. unfold kf_pair.
  assert (length (flat_map (fun x => pts_at parts ((i + x) mod folds)) (seq 0 (folds - 1))) <= length (flat_map d_points parts)) as LB.
  { pose proof (Permutation_length (rot_parts parts i ltac:(lia))) as X. rewrite Hl in X. rewrite <- X.
    replace (seq 0 folds) with (seq 0 ((folds - 1) + 1)) by (f_equal; lia). rewrite seq_app, flat_map_app, app_length. lia. }
  assert (seq 0 (folds - 1) = 0 :: seq 1 (folds - 2)) as ES by (replace (folds - 1) with (S (folds - 2)) by lia; auto).
  assert (flat_map (fun x => pts_at parts ((i + x) mod folds)) (seq 1 (folds - 2)) = flat_map (fun x => pts_at parts (((i + 1) mod folds + x) mod folds)) (seq 0 (folds - 2))) as ES2.
  { rewrite <- seq_shift, !flat_map_concat_map, map_map. f_equal. apply map_ext. intro x. rewrite Nat.add_mod_idemp_l by lia. f_equal. f_equal. lia. }
  destruct (nth_error parts i) as [P|] eqn:E; [|apply nth_error_None in E; lia].
  assert (pts_at parts ((i + 0) mod folds) = d_points P) as EP by (rewrite Nat.add_0_r, Nat.mod_small by auto; unfold pts_at; rewrite E; auto).
  unfold vget at 1. rewrite E. cbn [obind]. rewrite ES in *. cbn [flat_map] in *. rewrite EP, ES2 in *. rewrite app_length in LB.
  destruct (join_gen data_empty P jt_empty) as (t0 & E0 & J0 & P0).
  { apply (b_class n). apply Hb. eapply nth_error_In; eauto. }
  { cbn. lia. }
  rewrite E0. cbn [obind]. cbn in P0.
  destruct (kf_join_spec folds parts) with (steps := folds - 2) (j := (i + 1) mod folds) (train := t0) (nj := (i + 2) mod folds) as (t' & E' & J' & P'); auto.
  { intros Q HQ. apply (b_class n). auto. }
  { apply Nat.mod_upper_bound. lia. }
  { rewrite P0. lia. }
  rewrite E'. cbn [obind fst snd].
  set (nj := match folds - 2 with O => _ | _ => _ end).
  assert (nj mod folds = if Nat.eqb folds 2 then i else (i + (folds - 1)) mod folds) as En.
  { unfold nj. destruct (Nat.eqb_spec folds 2) as [->|ne].
    - cbn [Nat.sub]. rewrite Nat.mod_mod by lia. replace (i + 2) with (i + 1 * 2) by lia. rewrite Nat.mod_add by lia. apply Nat.mod_small. auto.
    - destruct (folds - 2) eqn:E2; [lia|]. rewrite Nat.mod_mod by lia. rewrite Nat.add_mod_idemp_l by lia. f_equal. lia. }
  assert (nj mod folds < folds) as Hnj by (apply Nat.mod_upper_bound; lia).
  destruct (nth_error parts (nj mod folds)) as [Q|] eqn:EQ; [|apply nth_error_None in EQ; lia].
  unfold vget. rewrite EQ. cbn [obind].
  assert (built n Q) as BQ by (apply Hb; eapply nth_error_In; eauto).
  destruct (shuffled t' (sh (2 * i + 1) (size t'))) as (tr & Etr & Otr & Ptr & _); auto; try apply J'.
  { rewrite (jt_size _ J'), (jt_index _ J'). unfold iota. rewrite map_length, seq_length. auto. }
  rewrite Etr. cbn [obind].
  destruct (shuffled (copy Q) (sh (2 * i + 2) (size Q))) as (te & Ete & Ote & Pte & _); auto.
  { rewrite copy_points. auto. }
  { eapply class_ok_perm; [apply BQ|rewrite copy_points|..]; auto. }
  { cbn. rewrite (b_index _ _ BQ). unfold iota. rewrite map_length, seq_length. auto. }
  { unfold size at 2. rewrite copy_points. auto. }
  rewrite Ete. cbn [obind]. do 2 eexists. split; [reflexivity|]. split; [apply okset_copy; auto|]. split; [apply okset_copy; auto|].
  rewrite !copy_points. cbn [resetIndex d_points]. split.
  - rewrite Ptr, P', P0. auto.
  - rewrite Pte, copy_points. rewrite En in EQ. unfold pts_at. rewrite EQ. auto.
Qed.

Lemma map_outcome_ok {A B} (f : A -> outcome B) (g : A -> B) l : (forall x, In x l -> f x = Ok (g x)) -> map_outcome f l = Ok (map g l).
Proof. induction l as [|x l IH]; cbn; intro H; auto. rewrite (H x) by auto. cbn. rewrite IH by auto. auto. Qed.

Lemma map_outcome_all {A B} (P : A -> B -> Prop) (f : A -> outcome B) l : (forall x, In x l -> exists y, f x = Ok y /\ P x y) ->
  exists r, map_outcome f l = Ok r /\ Forall2 P l r.
Proof.
  induction l as [|x l IH]; cbn; intro H; [exists []; auto|].
  destruct (H x) as (y & E & Py); auto. destruct IH as (r & Er & Fr); auto. rewrite E, Er. cbn. eauto.
Qed.

Lemma Forall2_len {A B} (P : A -> B -> Prop) l r : Forall2 P l r -> length l = length r.
Proof. induction 1; cbn; auto. Qed.

Lemma Forall2_nth {A B} (P : A -> B -> Prop) l r i x y : Forall2 P l r -> nth_error l i = Some x -> nth_error r i = Some y -> P x y.
Proof.
  intro F. revert i. induction F as [|a b l r H F IH]; intros [|i] Hx Hy; try discriminate; cbn in *; [|eauto].
  injection Hx as <-. injection Hy as <-. auto.
Qed.

Lemma len_content (parts : list (data T)) : length (flat_map d_points parts) = length (flat_map (fun P => map content (d_points P)) parts).
Proof. induction parts as [|P r IH]; cbn; auto. rewrite !app_length, map_length, IH. auto. Qed.

Lemma split_total perm d k strat keep : data_ok d -> 0 < k -> Permutation perm (seq 0 (size d)) ->
  exists parts, splitSample perm d k strat keep = Ok parts /\ length parts = k /\ (forall P, In P parts -> built (d_dim d) P) /\
   length (flat_map d_points parts) <= length (d_points d).
Proof.
  intros Hd Hk Hp. destruct strat.
  - destruct (splitSample_strat d k perm keep Hd Hk Hp) as (parts & dd & E & L & P & H). exists parts. split; auto. split; auto. split.
    + intros Q HQ. apply In_nth_error in HQ. destruct HQ as (i & HQ). apply (H _ _ HQ).
    + destruct (c10_stratified T d k perm keep Hd Hk Hp) as (parts' & E' & _ & X & _). rewrite E in E'. injection E' as <-.
      rewrite len_content, (Permutation_length X), map_length. auto.
  - destruct (splitSample_plain d k perm keep false Hd Hk Hp eq_refl) as (parts & dd & E & L & P & H). exists parts. split; auto. split; auto. split.
    + intros Q HQ. apply In_nth_error in HQ. destruct HQ as (i & HQ). apply (H _ _ HQ).
    + destruct (c11_unstratified T d k perm keep Hd Hk Hp) as (parts' & E' & _ & _ & lo & _ & X & _). rewrite E in E'. injection E' as <-.
      rewrite len_content. apply Permutation_length in X. rewrite app_length, !map_length in X. lia.
Qed.

(** The generic shape of kfoldsplit's result. *)
Lemma kfoldsplit_spec sh d folds strat keep : data_ok d -> 2 <= folds -> (forall a m, Permutation (sh a m) (seq 0 m)) ->
  exists parts r, splitSample (sh 0 (size d)) d folds strat keep = Ok parts /\ length parts = folds /\
    kfoldsplit sh d folds strat keep = Ok r /\ length r = folds /\
    forall i tr te, nth_error r i = Some (tr, te) -> okset tr /\ okset te /\
      Permutation (d_points tr) (flat_map (fun x => pts_at parts ((i + x) mod folds)) (seq 0 (folds - 1))) /\
      Permutation (d_points te) (pts_at parts (if Nat.eqb folds 2 then i else (i + (folds - 1)) mod folds)).
Proof.
  intros Hd Hf Hsh. destruct (split_total (sh 0 (size d)) d folds strat keep Hd ltac:(lia) (Hsh _ _)) as (parts & E & L & B & LE).
  exists parts. unfold kfoldsplit.
  assert (copy d = d) as Ec.
  { destruct Hd as [As Acl An Ai Adm Af Aso Afp Ae Ac]. unfold copy. rewrite map_copy_points. unfold size, dim.
    destruct d as [pts fn idx cn cl di sz dm ie no cd cla]; cbn in *. f_equal; auto.
    destruct pts as [|p r]; [symmetry; auto|]. apply Adm. left; auto. }
  rewrite Ec, E. cbn [obind]. destruct (Nat.eqb_spec folds 1); [lia|].
  destruct (map_outcome_all (fun i y => okset (fst y) /\ okset (snd y) /\
      Permutation (d_points (fst y)) (flat_map (fun x => pts_at parts ((i + x) mod folds)) (seq 0 (folds - 1))) /\
      Permutation (d_points (snd y)) (pts_at parts (if Nat.eqb folds 2 then i else (i + (folds - 1)) mod folds)))
    (kf_pair sh folds parts) (seq 0 folds)) as (r & Er & Fr).
  - intros i Hi. apply in_seq in Hi. destruct (kf_pair_spec sh folds parts (d_dim d) i) as (tr & te & X & Y); auto; try lia.
    + pose proof (ok_cap _ Hd). lia.
    + exists (tr, te). auto.
  - exists r. split; auto. split; auto. split; auto. pose proof (Forall2_len _ _ _ Fr) as LR. rewrite seq_length in LR. split; auto.
    intros i tr te Hi. assert (nth_error (seq 0 folds) i = Some i) as Hs.
    { assert (i < folds) as Hlt by (rewrite LR; apply nth_error_Some; congruence).
      rewrite (nth_error_nth' _ 0) by (rewrite seq_length; auto). rewrite seq_nth by auto. auto. }
    apply (Forall2_nth _ _ _ _ _ _ Fr Hs Hi).
Qed.
End V.
