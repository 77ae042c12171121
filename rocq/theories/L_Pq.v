(** Lemmas on the priority queue of AOS. *)
From Coq Require Import ZArith Bool List Reals Permutation Lia Lra.
From Verif Require Import Base ListLib Loop M_Pq S_Pq.
Import ListNotations.
Local Open Scope nat_scope.

(** place [i] *)
Definition g (el : list (option nat)) (i : nat) : option nat := nth i el None.
Definition row (el : list (option nat)) (a n : nat) : list (option nat) := map (g el) (seq a n).
Definition alive (st : store) (o : option nat) : Prop := exists p, o = Some p /\ live st p.
Definition vv (st : store) (o : option nat) : R := match o with Some p => match nth_error st p with Some (Some n) => n_value n | _ => 0%R end | None => 0%R end.

Lemma g_nth el i : i < length el -> nth_error el i = Some (g el i).
Proof. intro H. unfold g. apply nth_error_nth'. auto. Qed.
Lemma vget_g el i : i < length el -> vget el i = Ok (g el i).
Proof. intro H. unfold vget. rewrite (g_nth _ _ H). auto. Qed.
Lemma slot_g el i p : i < length el -> g el i = Some p -> slot el i = Ok p.
Proof. intros H E. unfold slot. rewrite (g_nth _ _ H), E. auto. Qed.
Lemma deref_live st p : live st p -> exists n, nth_error st p = Some (Some n) /\ deref st p = Ok n.
Proof. intros (n & H). exists n. unfold deref. rewrite H. auto. Qed.
Lemma value_at_g st el i : i < length el -> alive st (g el i) -> value_at st el i = Ok (vv st (g el i)).
Proof. intros H (p & E & L). unfold value_at. rewrite (slot_g _ _ _ H E). cbn [obind]. destruct (deref_live _ _ L) as (n & N & D). rewrite D. cbn [obind]. unfold vv. rewrite E, N. auto. Qed.
Lemma vupd_g el i v : i < length el -> exists el', vupd i (fun _ => v) el = Ok el' /\ length el' = length el /\ g el' i = v /\ forall j, j <> i -> g el' j = g el j.
Proof.
  intro H. destruct (vupd_lt i (fun _ : option nat => v) el H) as (r & U & V). exists r. split; [auto|]. pose proof (upd_length _ _ _ _ U) as L. split; [auto|]. split.
  - pose proof (upd_nth_same _ _ _ _ U) as E. rewrite (g_nth el i H) in E. cbn in E. unfold g. apply nth_error_nth. auto.
  - intros j J. pose proof (upd_nth_other _ j _ _ _ U ltac:(auto)) as E. unfold g. destruct (Nat.ltb j (length el)) eqn:B.
    + apply Nat.ltb_lt in B. rewrite (nth_error_nth' el None B) in E. apply nth_error_nth. auto.
    + apply Nat.ltb_ge in B. rewrite !nth_overflow; auto; lia.
Qed.
Lemma row_ext el el' a n : (forall j, a <= j < a + n -> g el' j = g el j) -> row el' a n = row el a n.
Proof. intro H. unfold row. apply map_ext_in. intros j J. apply in_seq in J. apply H. lia. Qed.
Lemma row_split el a n i : a <= i < a + n -> row el a n = row el a (i - a) ++ g el i :: row el (S i) (a + n - S i).
Proof.
  intro H. unfold row. replace n with ((i - a) + S (a + n - S i)) at 1 by lia. rewrite seq_app, map_app. cbn [seq map]. replace (a + (i - a)) with i by lia. auto.
Qed.
Lemma row_snoc el a n : row el a (S n) = row el a n ++ [g el (a + n)].
Proof. unfold row. rewrite seq_S, map_app. auto. Qed.
(** changing place [i] *)
Lemma row_upd el el' i v a n : a <= i < a + n -> g el' i = v -> (forall j, j <> i -> g el' j = g el j) -> Permutation (g el i :: row el' a n) (v :: row el a n).
Proof.
  intros H E O. rewrite (row_split el a n i H), (row_split el' a n i H), E. rewrite (row_ext el el' a (i - a)), (row_ext el el' (S i)); try (intros; apply O; lia).
  etransitivity; [apply perm_skip, Permutation_sym, Permutation_middle|]. etransitivity; [apply perm_swap|]. apply perm_skip. apply Permutation_middle.
Qed.

(** percolate *)
Lemma percolate_ok st size : forall fuel el i, length el > S size -> 1 <= i <= S size -> S size < fuel + i -> (forall j, 1 <= j <= S size -> j <> i -> alive st (g el j)) ->
  exists el', percolate fuel st el size i = Ok el' /\ length el' = length el /\ (forall j, j < i \/ S size < j -> g el' j = g el j) /\
    Permutation (g el i :: row el' 1 size) (row el 1 (S size)).
Proof.
  induction fuel as [|f IH]; intros el i L I F A; [lia|].
  assert (End : exists el', vupd i (fun _ => g el (S size)) el = Ok el' /\ length el' = length el /\ (forall j, j < i \/ S size < j -> g el' j = g el j) /\ Permutation (g el i :: row el' 1 size) (row el 1 (S size))).
  { destruct (vupd_g el i (g el (S size)) ltac:(lia)) as (el' & V & L' & E & O). exists el'. split; [auto|]. split; [auto|]. split; [intros; apply O; lia|].
    pose proof (row_upd el el' i _ 1 (S size) ltac:(lia) E O) as P. rewrite (row_snoc el') in P. assert (g el' (1 + size) = g el (S size)) as W by (destruct (Nat.eq_dec i (S size)) as [-> | N]; [exact E | apply O; lia]).
    rewrite W in P. apply Permutation_cons_inv with (a := g el (S size)). etransitivity; [|exact P]. rewrite app_comm_cons. apply Permutation_cons_append. }
  cbn [percolate]. rewrite (vget_g el (S size)) by lia. cbn [obind]. destruct (Nat.ltb size (i * 2)) eqn:B; [exact End|]. apply Nat.ltb_ge in B.
  assert (Up : exists u : bool, (if Nat.eqb (i * 2) size then Ok false else let* a := value_at st el (i * 2 + 1) in let* b := value_at st el (i * 2) in Ok (if Rlt_dec b a then true else false)) = Ok u /\ (if u then i * 2 + 1 else i * 2) <= size).
  { destruct (Nat.eqb (i * 2) size) eqn:Q; [exists false; split; auto|]. apply Nat.eqb_neq in Q. rewrite !value_at_g by (try lia; apply A; lia). cbn [obind]. eexists. split; [reflexivity|]. destruct (Rlt_dec _ _); lia. }
  destruct Up as (u & -> & C). cbn [obind]. set (c := if u then i * 2 + 1 else i * 2) in *. assert (i < c) by (subst c; destruct u; lia).
  rewrite (value_at_g st el (S size)) by (try lia; apply A; lia). cbn [obind]. rewrite (value_at_g st el c) by (try lia; apply A; lia). cbn [obind].
  destruct (Rlt_dec _ _); [|exact End].
  rewrite (vget_g el c) by lia. cbn [obind]. destruct (vupd_g el i (g el c) ltac:(lia)) as (el1 & V & L1 & E1 & O1). rewrite V. cbn [obind].
  destruct (IH el1 c ltac:(lia) ltac:(lia) ltac:(lia)) as (el' & R & L' & O' & P).
  { intros j J N. destruct (Nat.eq_dec j i) as [-> | Nj]; [rewrite E1; apply A; lia | rewrite O1 by auto; apply A; lia]. }
  exists el'. split; [auto|]. split; [lia|]. split.
  - intros j J. rewrite O' by lia. apply O1. lia.
  - pose proof (row_upd el el1 i _ 1 (S size) ltac:(lia) E1 O1) as W. rewrite (O1 c) in P by lia.
    apply Permutation_cons_inv with (a := g el c). etransitivity; [apply perm_swap|]. etransitivity; [apply perm_skip, P|]. exact W.
Qed.

(** order *)
Definition hord (st : store) (el : list (option nat)) (n : nat) : Prop := forall j, 2 <= j <= n -> (vv st (g el j) <= vv st (g el (j / 2)))%R.
Ltac half := repeat match goal with |- context [?a / 2] => pose proof (Nat.div_mod a 2 ltac:(lia)); pose proof (Nat.mod_upper_bound a 2 ltac:(lia)); generalize dependent (a / 2); intros
   | H : context [?a / 2] |- _ => pose proof (Nat.div_mod a 2 ltac:(lia)); pose proof (Nat.mod_upper_bound a 2 ltac:(lia)); generalize dependent (a / 2); intros end; lia.
Lemma half_lt j : 2 <= j -> 1 <= j / 2 < j.
Proof. intro H. split; [apply Nat.div_le_lower_bound; lia | apply Nat.div_lt; lia]. Qed.
Lemma half_eq j i : j / 2 = i -> j = i * 2 \/ j = i * 2 + 1.
Proof. intro H. pose proof (Nat.div_mod j 2 ltac:(lia)). pose proof (Nat.mod_upper_bound j 2 ltac:(lia)). rewrite H in *. lia. Qed.
Lemma half_dbl i : i * 2 / 2 = i.
Proof. apply Nat.div_mul. lia. Qed.
Lemma half_dbl1 i : (i * 2 + 1) / 2 = i.
Proof. symmetry. apply Nat.div_unique with 1; lia. Qed.

Lemma percolate_ord st size : forall fuel el i el', length el > S size -> 1 <= i <= S size -> (forall j, 1 <= j <= S size -> j <> i -> alive st (g el j)) ->
  (forall j, 2 <= j <= S size -> j <> i -> j / 2 <> i -> (vv st (g el j) <= vv st (g el (j / 2)))%R) ->
  (2 <= i -> (forall j, j <= S size -> j / 2 = i -> (vv st (g el j) <= vv st (g el (i / 2)))%R)) ->
  (2 <= i -> (vv st (g el (S size)) <= vv st (g el (i / 2)))%R) ->
  percolate fuel st el size i = Ok el' -> hord st el' size.
Proof.
  induction fuel as [|f IH]; intros el i el' L I A Ho Hc Hl R; [discriminate|].
  assert (Fin : forall el1, vupd i (fun _ => g el (S size)) el = Ok el1 -> (forall j, 2 <= j <= size -> j / 2 = i -> (vv st (g el j) <= vv st (g el (S size)))%R) -> hord st el1 size).
  { intros el1 V K j J. destruct (vupd_g el i (g el (S size)) ltac:(lia)) as (el2 & V2 & _ & E & O). assert (el2 = el1) as -> by congruence. pose proof (half_lt j ltac:(lia)).
    destruct (Nat.eq_dec j i) as [-> | N].
    - rewrite E, O by lia. apply Hl. lia.
    - rewrite (O j N). destruct (Nat.eq_dec (j / 2) i) as [Q | Q]; [rewrite Q, E; apply K; auto | rewrite O by auto; apply Ho; auto; lia]. }
  cbn [percolate] in R. rewrite (vget_g el (S size)) in R by lia. cbn [obind] in R. destruct (Nat.ltb size (i * 2)) eqn:B.
  - apply Nat.ltb_lt in B. apply Fin; auto. intros j J Q. apply half_eq in Q. lia.
  - apply Nat.ltb_ge in B.
    assert (Up : exists u : bool, (if Nat.eqb (i * 2) size then Ok false else let* a := value_at st el (i * 2 + 1) in let* b := value_at st el (i * 2) in Ok (if Rlt_dec b a then true else false)) = Ok u /\
       (if u then i * 2 + 1 else i * 2) <= size /\ forall j, 2 <= j <= size -> j / 2 = i -> (vv st (g el j) <= vv st (g el (if u then i * 2 + 1 else i * 2)))%R).
    { destruct (Nat.eqb (i * 2) size) eqn:Q.
      - apply Nat.eqb_eq in Q. exists false. split; auto. split; [lia|]. intros j J W. apply half_eq in W. assert (j = i * 2) as -> by lia. lra.
      - apply Nat.eqb_neq in Q. rewrite !value_at_g by (try lia; apply A; lia). cbn [obind]. eexists. split; [reflexivity|]. destruct (Rlt_dec _ _); (split; [lia|]); intros j J W; apply half_eq in W as [-> | ->]; lra. }
    destruct Up as (u & U & C & M). rewrite U in R. cbn [obind] in R. set (c := if u then i * 2 + 1 else i * 2) in *. assert (i < c) by (subst c; destruct u; lia). assert (c / 2 = i) as Hci by (subst c; destruct u; [apply half_dbl1 | apply half_dbl]).
    rewrite (value_at_g st el (S size)) in R by (try lia; apply A; lia). cbn [obind] in R. rewrite (value_at_g st el c) in R by (try lia; apply A; lia). cbn [obind] in R.
    destruct (Rlt_dec _ _) as [Lt | Ge].
    + rewrite (vget_g el c) in R by lia. cbn [obind] in R. destruct (vupd_g el i (g el c) ltac:(lia)) as (el1 & V & L1 & E1 & O1). rewrite V in R. cbn [obind] in R.
      apply (IH el1 c el'); auto; try lia.
      * intros j J N. destruct (Nat.eq_dec j i) as [-> | Nj]; [rewrite E1; apply A; lia | rewrite O1 by auto; apply A; lia].
      * intros j J N1 N2. pose proof (half_lt j ltac:(lia)). destruct (Nat.eq_dec j i) as [-> | Nj].
        -- rewrite E1, O1 by lia. apply Hc; auto; lia.
        -- rewrite (O1 j Nj). destruct (Nat.eq_dec (j / 2) i) as [Q | Q]; [|rewrite O1 by auto; apply Ho; auto].
           rewrite Q, E1. destruct (Nat.eq_dec j (S size)) as [-> | Ns]; [lra|]. apply M; auto; lia.
      * intros Hc2 j J Q. assert (2 <= j) by (apply half_eq in Q; lia). pose proof (half_lt j ltac:(lia)). rewrite (O1 j) by lia. rewrite Hci, E1, <- Q. apply Ho; auto; lia.
      * intros _. rewrite (O1 (S size)) by lia. rewrite Hci, E1. lra.
    + apply Fin; auto. intros j J Q. specialize (M j J Q). lra.
Qed.

(** insert *)
Lemma sift_ok st tok v n : forall fuel el i, length el > n -> 1 <= i <= n -> i <= fuel -> (forall j, 1 <= j < i -> alive st (g el j)) -> g el 0 = None ->
  exists el', sift fuel st el i tok v = Ok el' /\ length el' = length el /\ (forall j, j = 0 \/ i < j -> g el' j = g el j) /\
    Permutation (g el i :: row el' 1 n) (Some tok :: row el 1 n).
Proof.
  induction fuel as [|f IH]; intros el i L I F A Z0; [lia|]. cbn [sift].
  assert (End : exists el', vupd i (fun _ => Some tok) el = Ok el' /\ length el' = length el /\ (forall j, j = 0 \/ i < j -> g el' j = g el j) /\ Permutation (g el i :: row el' 1 n) (Some tok :: row el 1 n)).
  { destruct (vupd_g el i (Some tok) ltac:(lia)) as (el' & V & L' & E & O). exists el'. split; [auto|]. split; [auto|]. split; [intros; apply O; lia|]. apply row_upd; auto; lia. }
  assert (Pv : exists r, parent_value st el i = Ok r).
  { unfold parent_value. assert (i / 2 < length el) by (apply Nat.le_lt_trans with i; [apply Nat.div_le_upper_bound; lia | lia]). rewrite vget_g by auto. cbn [obind]. destruct (Nat.eq_dec i 1) as [-> | N1].
    - change (1 / 2) with 0. rewrite Z0. eauto.
    - pose proof (half_lt i ltac:(lia)). destruct (A (i / 2) ltac:(lia)) as (p & -> & Lp). destruct (deref_live _ _ Lp) as (m & _ & ->). cbn [obind]. eauto. }
  destruct Pv as (pv & ->). cbn [obind]. destruct (Nat.ltb 1 i && _) eqn:B; [|exact End].
  apply andb_true_iff in B as [B _]. apply Nat.ltb_lt in B. pose proof (half_lt i ltac:(lia)). rewrite (vget_g el (i / 2)) by lia. cbn [obind].
  destruct (vupd_g el i (g el (i / 2)) ltac:(lia)) as (el1 & V & L1 & E1 & O1). rewrite V. cbn [obind].
  destruct (IH el1 (i / 2) ltac:(lia) ltac:(lia) ltac:(lia)) as (el' & R & L' & O' & P).
  { intros j J. rewrite O1 by lia. apply A. lia. } { rewrite O1 by lia. auto. }
  exists el'. split; [auto|]. split; [lia|]. split; [intros j J; rewrite O' by lia; apply O1; lia|].
  pose proof (row_upd el el1 i _ 1 n ltac:(lia) E1 O1) as W. rewrite (O1 (i / 2)) in P by lia.
  apply Permutation_cons_inv with (a := g el (i / 2)). etransitivity; [apply perm_swap|]. etransitivity; [apply perm_skip, P|]. etransitivity; [apply perm_swap|]. etransitivity; [apply perm_skip, W|]. apply perm_swap.
Qed.
Lemma parent_value_g st el i : 2 <= i -> i < length el -> alive st (g el (i / 2)) -> parent_value st el i = Ok (vv st (g el (i / 2))).
Proof. intros H L (p & E & Lp). pose proof (half_lt i H). unfold parent_value. rewrite vget_g by lia. cbn [obind]. rewrite E. destruct (deref_live _ _ Lp) as (m & N & ->). cbn [obind vv]. rewrite N. auto. Qed.
Lemma sift_ord st tok v n : vv st (Some tok) = v -> forall fuel el i el', length el > n -> 1 <= i <= n -> (forall j, 1 <= j < i -> alive st (g el j)) ->
  (forall j, 2 <= j <= n -> j <> i -> j / 2 <> i -> (vv st (g el j) <= vv st (g el (j / 2)))%R) ->
  (forall j, 2 <= j <= n -> j / 2 = i -> (vv st (g el j) <= v)%R /\ (2 <= i -> (vv st (g el j) <= vv st (g el (i / 2)))%R)) ->
  sift fuel st el i tok v = Ok el' -> hord st el' n.
Proof.
  intro Ht. induction fuel as [|f IH]; intros el i el' L I A Ho Hc R; [discriminate|]. cbn [sift] in R.
  assert (Fin : forall el1, vupd i (fun _ => Some tok) el = Ok el1 -> (2 <= i -> (v <= vv st (g el (i / 2)))%R) -> hord st el1 n).
  { intros el1 V K j J. destruct (vupd_g el i (Some tok) ltac:(lia)) as (el2 & V2 & _ & E & O). assert (el2 = el1) as -> by congruence. pose proof (half_lt j ltac:(lia)).
    destruct (Nat.eq_dec j i) as [-> | N].
    - rewrite E, O, Ht by lia. apply K. lia.
    - rewrite (O j N). destruct (Nat.eq_dec (j / 2) i) as [Q | Q]; [rewrite Q, E, Ht; apply Hc; auto | rewrite O by auto; apply Ho; auto]. }
  destruct (Nat.ltb 1 i) eqn:B; cbn [andb] in R.
  - apply Nat.ltb_lt in B. pose proof (half_lt i ltac:(lia)). rewrite parent_value_g in R by (try lia; apply A; lia). cbn [obind] in R. destruct (Rlt_dec _ _) as [Lt | Ge].
    + rewrite (vget_g el (i / 2)) in R by lia. cbn [obind] in R. destruct (vupd_g el i (g el (i / 2)) ltac:(lia)) as (el1 & V & L1 & E1 & O1). rewrite V in R. cbn [obind] in R.
      set (q := i / 2) in *. apply (IH el1 q el'); auto; try lia.
      * intros j J. rewrite O1 by lia. apply A. lia.
      * intros j J N1 N2. destruct (Nat.eq_dec j i) as [-> | Nj]; [subst q; lia|]. pose proof (half_lt j ltac:(lia)). rewrite (O1 j Nj). destruct (Nat.eq_dec (j / 2) i) as [Q | Q]; [|rewrite O1 by auto; apply Ho; auto].
        rewrite Q, E1. apply Hc; auto; lia.
      * intros j J Q. pose proof (half_lt j ltac:(lia)).
        assert (K : (vv st (g el1 j) <= vv st (g el q))%R).
        { destruct (Nat.eq_dec j i) as [-> | Nj]; [rewrite E1; lra|]. rewrite (O1 j Nj). rewrite <- Q. apply Ho; auto; lia. }
        split; [lra|]. intro Q2. pose proof (half_lt q Q2). rewrite (O1 (q / 2)) by lia. assert ((vv st (g el q) <= vv st (g el (q / 2)))%R) by (apply Ho; lia). lra.
    + apply Fin; auto. intros _. lra.
  - apply Nat.ltb_ge in B. destruct (parent_value st el i); cbn [obind] in R; try discriminate. apply Fin; auto. intro; lia.
Qed.
