(** Lemmas about the files of a decision plot. *)
From Coq Require Import ZArith Ascii Bool String List Arith Permutation Sorted Lia.
From Verif Require Import Base M_Str M_Plot S_Plot L_Plot L_Plot2.
Import ListNotations.
Local Open Scope nat_scope.

Lemma dec_inj ts a b : dec_file ts a = dec_file ts b -> a = b.
Proof. apply app_inv_tail. Qed.
Lemma okname_dec ts n : slashfree ts -> okname (dec_file ts n) = okname n.
Proof.
  intros H. apply okname_iff in H. unfold okname in *. apply negb_true_iff in H. unfold dec_file. rewrite !existsb_app, H. now rewrite orb_false_r.
Qed.

Lemma open_dec_ok path ts (names : list str) : NoDup names -> (forall a, In a names -> okname (dec_file ts a) = true) -> forall n i d, i + n = List.length names ->
  exists d' ss, open_dec path ts names i n d = Ok (d', Some (ss, map (fun a => path ++ dec_file ts a) (skipn i names))) /\ List.length ss = n /\
  (forall k, k < n -> nth_error ss k = Some (Some (dec_file ts (nth (i + k) names []), 0)) /\ fget d' (dec_file ts (nth (i + k) names [])) = Some []) /\
  (forall m, (forall k, k < n -> m <> dec_file ts (nth (i + k) names [])) -> fget d' m = fget d m).
Proof.
  intros ND OK. induction n as [|n IH]; intros i d L; cbn [open_dec].
  - rewrite skipn_all2 by lia. exists d, []. repeat split; auto; lia.
  - assert (I : i < List.length names) by lia. pose proof (nth_error_nth' names [] I) as E. unfold vget. rewrite E. cbn [obind].
    fold (dec_file ts (nth i names [])). rewrite open_out_ok by (apply OK, nth_In; auto).
    destruct (IH (S i) (fset d (dec_file ts (nth i names [])) [])) as (d' & ss & -> & LS & H & F); [lia|]. cbn [obind].
    exists d', (Some (dec_file ts (nth i names []), 0) :: ss). split.
    { do 3 f_equal. replace (skipn i names) with (nth i names [] :: skipn (S i) names); auto. clear - I. revert i I.
      induction names as [|x r IH]; intros [|i] I; cbn in *; auto; try lia. apply IH. lia. }
    split; [cbn [List.length]; lia|]. split.
    + intros [|k] K.
      * cbn [nth_error]. rewrite Nat.add_0_r. split; auto. rewrite F; [apply fget_fset_same|]. intros j J X. apply dec_inj in X.
        apply (proj1 (NoDup_nth names []) ND) in X; lia.
      * replace (i + S k) with (S i + k) by lia. cbn [nth_error]. apply H. lia.
    + intros m M. rewrite F. apply fget_fset_other. specialize (M 0). rewrite Nat.add_0_r in M. apply M. lia.
      intros k K. replace (S i + k) with (i + S k) by lia. apply M. lia.
Qed.

Lemma open_dec_at_end path ts names d : NoDup names -> (forall a, In a names -> okname (dec_file ts a) = true) ->
  exists d' ss, open_dec path ts names 0 (List.length names) d = Ok (d', Some (ss, map (fun a => path ++ dec_file ts a) names)) /\
  at_end (dec_file ts) d' ss names (fun _ => []) /\ (forall m, (forall a, In a names -> m <> dec_file ts a) -> fget d' m = fget d m).
Proof.
  intros ND OK. destruct (open_dec_ok path ts names ND OK (List.length names) 0 d) as (d' & ss & E & L & H & F); [lia|].
  exists d', ss. split; [exact E|]. split.
  - split; auto. intros k n K. assert (KL : k < List.length names) by (apply nth_error_Some; congruence).
    rewrite OK by (eapply nth_error_In; eauto). specialize (H k KL). cbn [Nat.add] in H.
    pose proof (nth_error_nth _ _ [] K) as X. unfold str in *. now rewrite X in H.
  - intros m M. apply F. intros k K. apply M. apply nth_In. lia.
Qed.

Lemma open_dec_fails path ts (names : list str) (n : str) : slashfree ts -> forall m i d, i + m <= List.length names -> (exists k, i <= k < i + m /\ nth k names [] = n) -> okname n = false ->
  exists d', open_dec path ts names i m d = Ok (d', None).
Proof.
  intros TS. induction m as [|m IH]; intros i d L (k & K & E) B; cbn [open_dec]; [lia|].
  assert (I : i < List.length names) by lia. pose proof (nth_error_nth' names [] I) as NE. unfold vget. rewrite NE. cbn [obind].
  fold (dec_file ts (nth i names [])). destruct (okname (nth i names [])) eqn:O.
  - rewrite open_out_ok by now rewrite okname_dec. destruct (IH (S i) (fset d (dec_file ts (nth i names [])) [])) as (d' & ->); auto; [lia| |].
    + exists k. split; auto. destruct (Nat.eq_dec k i); [subst; congruence|lia].
    + cbn [obind]. eauto.
  - rewrite open_out_bad by now rewrite okname_dec. eauto.
Qed.

Lemma put_dec_ok {A} (show : A -> str) showy ts names classes : NoDup names -> NoDup classes ->
  List.length names = List.length classes -> forall pts d ss txt, (forall p, In p pts -> In (snd p) classes /\ 2 <= List.length (fst p)) -> at_end (dec_file ts) d ss names txt ->
  exists d' ss', put_dec show showy classes pts (d, ss) = Ok (d', ss') /\
    at_end (dec_file ts) d' ss' names (fun k => txt k ++ dec_text show showy pts (nth k classes 0%Z)) /\
    (forall m, (forall a, In a names -> m <> dec_file ts a) -> fget d' m = fget d m).
Proof.
  intros ND NC L. induction pts as [|p r IH]; intros d ss txt HP H; cbn [put_dec].
  - exists d, ss. split; auto. split; auto. apply (at_end_ext (dec_file ts) d ss names txt); [|exact H]. intros j _. cbn. now rewrite app_nil_r.
  - destruct (HP p (or_introl eq_refl)) as (I & TWO). destruct p as [x y]. cbn [fst snd] in *. destruct x as [|a [|b x]]; [cbn in TWO; lia..|].
    cbn [coord nth_error obind]. pose proof (find_pos_in _ _ I) as P. destruct (nth_same_len names classes _ _ L P) as (nm & N).
    destruct (put_at_ok (dec_file ts) d ss names txt _ nm (show a ++ sp ++ show b ++ sp ++ showy y ++ nl) (dec_inj ts) ND H N) as (d1 & ss1 & -> & H1 & M1 & F1).
    cbn [obind]. destruct (IH d1 ss1 _ (fun q Q => HP q (or_intror Q)) H1) as (d2 & ss2 & -> & H2 & F2). exists d2, ss2. split; auto. split.
    + eapply at_end_ext; [|eassumption]. intros j J. cbv beta. unfold addtxt. unfold dec_text. cbn [filter snd].
      assert (J' : j < List.length classes) by lia. pose proof (nth_error_nth' classes 0%Z J') as E.
      destruct (Nat.eqb_spec j (find_pos y classes)) as [->|NE].
      * rewrite (nth_error_nth _ _ 0%Z P). rewrite Z.eqb_refl. cbn [map concat fst snd firstn app line words]. unfold sp, nl. now rewrite <- !app_assoc; cbn [app]; rewrite <- !app_assoc.
      * destruct (Z.eqb_spec y (nth j classes 0%Z)) as [Q|Q]; auto. exfalso. apply NE. symmetry. apply find_pos_nth; auto. congruence.
    + intros m M. rewrite F2, F1; auto.
Qed.
