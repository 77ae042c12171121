(** Property lemmas for automatic weighting: C107. *)
From Coq Require Import ZArith Bool List Reals Lra Lia Psatz Permutation.
From Verif Require Import Base ListLib L_Vec M_Data S_Data M_Point Loop L_Valid M_Valid T_Valid M_Knn L_Knn M_Ens S_Ens T_Ens M_Dsm T_Dsm M_Awv S_Awv.
Import ListNotations.
Local Open Scope R_scope.

(** *** the first largest of numbers that may be NaN *)
Lemma best_from_nan l : forall bi i, best_from None bi i l = bi.
Proof. induction l as [|x l IH]; intros bi i; cbn; auto. Qed.
Lemma best_from_top l : forall b bi i, exists v, ((best_from (Some b) bi i l = bi /\ v = b) \/ (exists j, best_from (Some b) bi i l = (i + j)%nat /\ nth_error l j = Some (Some v))) /\
  b <= v /\ forall x, In (Some x) l -> x <= v.
Proof.
  induction l as [|[x|] l IH]; intros b bi i; cbn [best_from]; [exists b; split; [left; auto|split; [lra|intros ? []]]| |].
  - cbn [nan_lt]. destruct (Rlt_dec b x) as [L|L].
    + destruct (IH x i (S i)) as (v & P & A & B). exists v. split; [|split; [lra|intros y [E|Hy]; [injection E as <-; lra|auto]]].
      right. destruct P as [(-> & ->)|(j & -> & E)]; [exists 0%nat|exists (S j)]; cbn [nth_error]; split; auto; lia.
    + destruct (IH b bi (S i)) as (v & P & A & B). exists v. split; [|split; [auto|intros y [E|Hy]; [injection E as <-; lra|auto]]].
      destruct P as [(-> & ->)|(j & -> & E)]; [left; auto|right; exists (S j); cbn [nth_error]; split; auto; lia].
  - cbn [nan_lt]. destruct (IH b bi (S i)) as (v & P & A & B). exists v. split; [|split; [auto|intros y [E|Hy]; [discriminate|auto]]].
    destruct P as [(-> & ->)|(j & -> & E)]; [left; auto|right; exists (S j); cbn [nth_error]; split; auto; lia].
Qed.
Lemma best_top l : l <> [] -> exists v, nth_error l (best_index l) = Some v /\ forall x, In x l -> nan_lt v x = false.
Proof.
  destruct l as [|[b|] l]; intro N; [congruence| |]; cbn [best_index].
  - destruct (best_from_top l b 0 1) as (v & P & A & B). exists (Some v). split.
    + destruct P as [(-> & ->)|(j & -> & E)]; [reflexivity|exact E].
    + intros [x|] H; cbn [nan_lt]; [|reflexivity]. destruct (Rlt_dec v x); [|reflexivity]. exfalso. destruct H as [E|H]; [injection E as <-; lra|apply B in H; lra].
  - rewrite best_from_nan. exists None. split; [reflexivity|intros; reflexivity].
Qed.
Lemma best_index_max l : best_index (map Some l) = max_element l.
Proof.
  destruct l as [|x l]; [reflexivity|]. cbn [map best_index max_element]. generalize x, 0%nat, 1%nat. induction l as [|y l IH]; intros b bi i; [reflexivity|]. cbn [map best_from max_from nan_lt]. destruct (Rlt_dec b y); apply IH.
Qed.
Lemma ok_inj {A} (x y : A) : Ok x = Ok y -> x = y.
Proof. now injection 1. Qed.
Lemma bind_ok {A B} (a : outcome A) (f : A -> outcome B) b : obind a f = Ok b -> exists x, a = Ok x /\ f x = Ok b.
Proof. destruct a; cbn; intro H; try discriminate. eauto. Qed.
Lemma map_outcome_nth {A B} (f : A -> outcome B) l : forall r i x, map_outcome f l = Ok r -> nth_error l i = Some x -> exists y, nth_error r i = Some y /\ f x = Ok y.
Proof.
  induction l as [|a l IH]; intros r i x E H; [destruct i; discriminate|]. cbn [map_outcome] in E. apply bind_ok in E as (y & Ey & E). apply bind_ok in E as (q & Eq & E). apply ok_inj in E as <-.
  destruct i as [|i]; cbn in H |- *; [injection H as <-; eauto|eauto].
Qed.
Lemma map_outcome_len {A B} (f : A -> outcome B) l : forall r, map_outcome f l = Ok r -> length r = length l.
Proof. induction l as [|a l IH]; intros r E; cbn [map_outcome] in E; [apply ok_inj in E as <-; reflexivity|]. apply bind_ok in E as (y & Ey & E). apply bind_ok in E as (q & Eq & E). apply ok_inj in E as <-. cbn. f_equal. auto. Qed.
Lemma map_outcome_back {A B} (f : A -> outcome B) l r i y : map_outcome f l = Ok r -> nth_error r i = Some y -> exists x, nth_error l i = Some x /\ f x = Ok y.
Proof.
  intros E H. destruct (nth_error l i) as [x|] eqn:Ex; [|apply nth_error_None in Ex; assert (nth_error r i = None) by (apply nth_error_None; rewrite (map_outcome_len _ _ _ E); auto); congruence].
  destruct (map_outcome_nth f l r i x E Ex) as (y' & Ey & F). exists x. split; [auto|]. congruence.
Qed.

(** *** the generations *)
Section Gen.
Context {T : Type} (m : nat) (fit : nat -> data T -> point T -> Z) (tr te : data T) (ri : nat -> nat -> nat) (rr : nat -> R) (fuel : nat) (simplex : bool).
Let obj := objective m fit tr te.
(** What the loop keeps: the costs are those of the population, none is above the best, and none is above the cost of the same position at the start. *)
Definition kept (costs0 : list (option R)) (best : wvec * option R) (gen : nat) (s : awv) : Prop :=
  eval_population m fit tr te (a_pop s) = Ok (a_costs s) /\ length (a_costs s) = length costs0 /\ a_best s = best /\ a_gen s = gen /\
  (forall c, In c (a_costs s) -> nan_lt (snd best) c = false) /\
  forall i c c0, nth_error (a_costs s) i = Some c -> nth_error costs0 i = Some c0 -> nan_lt c0 c = false.
Lemma breed_ok s : eval_population m fit tr te (a_pop s) = Ok (a_costs s) -> forall n acc pop t,
  ofold (breed m fit tr te ri rr fuel simplex s) (seq 0 n) acc = Ok (Some (pop, t)) -> acc = Some ([], a_t s) ->
  length pop = n /\ forall i v, nth_error pop i = Some v -> exists c ci, obj v = Ok c /\ nth_error (a_costs s) i = Some ci /\ (c = ci \/ nan_le c ci = true).
Proof.
  intro H. induction n as [|n IH]; intros acc pop t E ->; [apply ok_inj in E; injection E as <- <-; split; [reflexivity|intros [|i] v; discriminate]|].
  rewrite seq_S, ofold_app in E. apply bind_ok in E as (acc & E1 & E). cbn [ofold Nat.add] in E. apply bind_ok in E as (x & E2 & E). apply ok_inj in E as ->.
  unfold breed in E2 at 1. destruct acc as [(np, t0)|]; [|discriminate]. destruct (IH _ np t0 E1 eq_refl) as (L & P). clear IH E1.
  apply bind_ok in E2 as (r & En & E2). destruct r as [(si, t')|]; [|discriminate]. apply bind_ok in E2 as (c & Ec & E2). apply bind_ok in E2 as (ci & Eci & E2). apply bind_ok in E2 as (old & Eo & E2).
  apply ok_inj in E2. injection E2 as <- <-. rewrite app_length. cbn [length]. split; [lia|].
  unfold vget in Eci, Eo. destruct (nth_error (a_costs s) n) as [ci'|] eqn:Q; [|discriminate]. apply ok_inj in Eci as ->. destruct (nth_error (a_pop s) n) as [old'|] eqn:Q2; [|discriminate]. apply ok_inj in Eo as ->.
  intros i v Hv. destruct (Nat.lt_ge_cases i n) as [Hi|Hi]; [rewrite nth_error_app1 in Hv by lia; auto|]. rewrite nth_error_app2 in Hv by lia. rewrite L in Hv.
  assert (i = n) as -> by (destruct (i - n)%nat as [|k] eqn:Z; [lia|destruct k; discriminate]). rewrite Nat.sub_diag in Hv. cbn in Hv. injection Hv as <-.
  destruct (nan_le c ci) eqn:Le; [exists c, ci; auto|]. destruct (map_outcome_nth _ _ _ n old H Q2) as (y & Ey & Ob). rewrite Q in Ey. injection Ey as <-. exists ci, ci. auto.
Qed.
Lemma below b c ci : nan_lt b ci = false -> c = ci \/ nan_le c ci = true -> nan_lt b c = false.
Proof.
  intros H [->|L]; [auto|]. destruct c as [c|], ci as [ci|]; try discriminate. destruct b as [b|]; [|reflexivity]. cbn in *. destruct (Rle_dec c ci); [|discriminate]. destruct (Rlt_dec b ci); [discriminate|]. destruct (Rlt_dec b c); [lra|reflexivity].
Qed.
Lemma generation_ok costs0 best gen g s s' : kept costs0 best gen s -> generation m fit tr te ri rr fuel simplex g s = Ok (Some s') -> kept costs0 best gen s'.
Proof.
  intros (H & L & Hb & Hg & A & B) E. unfold generation in E. apply bind_ok in E as (r & Er & E). destruct r as [(pop, t)|]; [|discriminate].
  destruct (breed_ok s H _ _ pop t Er eq_refl) as (Lp & P). clear Er. apply bind_ok in E as (costs & Ec & E). apply bind_ok in E as (cand & Eg & E). apply ok_inj in E. injection E as E.
  pose proof (map_outcome_len _ _ _ H) as L1. pose proof (map_outcome_len _ _ _ Ec) as L2.
  assert (forall i c, nth_error costs i = Some c -> exists ci, nth_error (a_costs s) i = Some ci /\ (c = ci \/ nan_le c ci = true)) as K.
  { intros i c Hc. destruct (map_outcome_back _ _ _ i c Ec Hc) as (v & Hv & Ov). destruct (P i v Hv) as (c' & ci & Oc & Ci & D). unfold obj in Oc. rewrite Ov in Oc. apply ok_inj in Oc as <-. eauto. }
  assert (forall c, In c costs -> nan_lt (snd best) c = false) as A'. { intros c Hc. apply In_nth_error in Hc as (i & Hi). destruct (K i c Hi) as (ci & Ci & D). eapply below; [|exact D]. apply A. eapply nth_error_In; eauto. }
  assert (nan_lt (snd best) (snd cand) = false) as Cn. { unfold get_best_solution in Eg. apply bind_ok in Eg as (v & _ & Eg). apply bind_ok in Eg as (c & Ec' & Eg). apply ok_inj in Eg as <-. cbn [snd]. apply A'. unfold vget in Ec'. destruct (nth_error costs _) eqn:Q; [|discriminate]. apply ok_inj in Ec' as ->. eapply nth_error_In; eauto. }
  rewrite Hb, Cn in E. subst s'. unfold kept. cbn [a_pop a_costs a_best a_gen]. split; [exact Ec|]. split; [lia|]. split; [auto|]. split; [auto|]. split; [auto|].
  intros i c c0 Hc H0. destruct (K i c Hc) as (ci & Ci & D). eapply below; [|exact D]. eauto.
Qed.
Lemma generations_ok costs0 best gen left : forall g s s', kept costs0 best gen s -> generations m fit tr te ri rr fuel simplex left g s = Ok (Some s') -> kept costs0 best gen s'.
Proof.
  induction left as [|l IH]; intros g s s' K E; cbn [generations] in E; [apply ok_inj in E; injection E as <-; auto|]. apply bind_ok in E as (r & Er & E). destruct r as [s1|]; [|discriminate].
  pose proof (generation_ok _ _ _ _ _ _ K Er) as K1. destruct (match snd (a_best s1) with Some x => _ | None => false end); [apply ok_inj in E; injection E as <-; auto|eauto].
Qed.
Lemma search_ok np max_it s : search m fit ri rr fuel np max_it simplex tr te = Ok (Some s) ->
  exists pop costs, init_population rr m np simplex = Ok pop /\ eval_population m fit tr te pop = Ok costs /\ nth_error pop (best_index costs) = Some (fst (a_best s)) /\
    nth_error costs (best_index costs) = Some (snd (a_best s)) /\ kept costs (a_best s) 0 s.
Proof.
  intro E. unfold search in E. apply bind_ok in E as (pop & Ep & E). apply bind_ok in E as (costs & Ec & E). apply bind_ok in E as (best & Eb & E). apply bind_ok in E as (r & Er & E).
  destruct r as [s'|]; [|discriminate]. apply bind_ok in E as (o & Eo & E). apply ok_inj in E. injection E as ->.
  exists pop, costs. split; [auto|]. split; [auto|]. unfold get_best_solution in Eb. apply bind_ok in Eb as (v & Ev & Eb). apply bind_ok in Eb as (c & Ec' & Eb). apply ok_inj in Eb as <-.
  unfold vget in Ev, Ec'. destruct (nth_error pop _) eqn:Q1; [|discriminate]. apply ok_inj in Ev as ->. destruct (nth_error costs _) eqn:Q2; [|discriminate]. apply ok_inj in Ec' as ->.
  assert (kept costs (v, c) 0 s) as K.
  { refine (generations_ok costs (v, c) 0 max_it 0 _ s _ Er). unfold kept. cbn [a_pop a_costs a_best a_gen]. split; [auto|]. split; [auto|]. split; [auto|]. split; [auto|]. cbn [snd]. split.
    - assert (costs <> []) as N by (intros ->; destruct (best_index []); discriminate). destruct (best_top costs N) as (v' & Ev' & M). rewrite Q2 in Ev'. injection Ev' as ->. exact M.
    - intros i x y Hx Hy. rewrite Hx in Hy. injection Hy as ->. destruct y as [y|]; cbn; [destruct (Rlt_dec y y); [lra|reflexivity]|reflexivity]. }
  assert (a_best s = (v, c)) as Hb by apply K. rewrite Hb. cbn [fst snd]. auto.
Qed.
End Gen.

(** *** weights that are numbers *)
Lemma first_largest_unique classes f c c' : first_largest classes f c -> first_largest classes f c' -> c = c'.
Proof.
  intros (b & a & E & B & A) (b' & a' & E' & B' & A'). destruct (Nat.lt_trichotomy (length b) (length b')) as [L|[L|L]].
  - exfalso. assert (In c b') as I. { apply (nth_error_In b' (length b)). rewrite <- (nth_error_app1 b' (c' :: a')) by auto. rewrite <- E', E, nth_error_app2, Nat.sub_diag by lia. reflexivity. }
    assert (In c' a) as I'. { apply (nth_error_In a (length b' - S (length b))). assert (nth_error (b ++ c :: a) (length b') = Some c') as Q by (rewrite <- E, E', nth_error_app2, Nat.sub_diag by lia; reflexivity).
      rewrite nth_error_app2 in Q by lia. replace (length b' - length b)%nat with (S (length b' - S (length b))) in Q by lia. exact Q. }
    apply B' in I. apply A in I'. lra.
  - assert (nth_error classes (length b) = Some c) as Q by (rewrite E, nth_error_app2, Nat.sub_diag by lia; reflexivity). rewrite L, E', nth_error_app2, Nat.sub_diag in Q by lia. cbn in Q. congruence.
  - exfalso. assert (In c' b) as I. { apply (nth_error_In b (length b')). rewrite <- (nth_error_app1 b (c :: a)) by auto. rewrite <- E, E', nth_error_app2, Nat.sub_diag by lia. reflexivity. }
    assert (In c a') as I'. { apply (nth_error_In a' (length b - S (length b'))). assert (nth_error (b' ++ c' :: a') (length b) = Some c) as Q by (rewrite <- E', E, nth_error_app2, Nat.sub_diag by lia; reflexivity).
      rewrite nth_error_app2 in Q by lia. replace (length b - length b')%nat with (S (length b - S (length b'))) in Q by lia. exact Q. }
    apply B in I. apply A' in I'. lra.
Qed.
Lemma hits_unique {T} m fit (tr te : data T) w n n' : hits m fit tr te w n -> hits m fit tr te w n' -> n = n'.
Proof.
  intros (a & F & ->) (a' & F' & ->). replace a' with a; [reflexivity|]. revert a' F'. induction F as [|p x ps a H F IH]; intros a' F'; inversion F'; subst; [reflexivity|]. f_equal; [eapply first_largest_unique; eauto|auto].
Qed.
Lemma upd_some i (f : R -> R) (g : option R -> option R) l l' : (forall v, g (Some v) = Some (f v)) -> upd i f l = Some l' -> upd i g (map Some l) = Some (map Some l').
Proof.
  intro H. revert i l'. induction l as [|x l IH]; intros [|i] l' E; cbn in *; try discriminate; [injection E as <-; cbn; now rewrite H|]. destruct (upd i f l) as [q|] eqn:Q; [|discriminate]. injection E as <-. now rewrite (IH i q Q).
Qed.
Lemma wcast_some w cl pr v i v' : cast w cl pr v i = Ok v' -> wcast (map Some w) cl pr (map Some v) i = Ok (map Some v').
Proof.
  unfold cast, wcast. intro E. apply bind_ok in E as (p & -> & E). cbn [obind]. cbv zeta in *. apply bind_ok in E as (x & Ex & E). apply bind_ok in E as (y & Ey & E).
  unfold pat in *. rewrite !nth_error_map. destruct (nth_error v _) as [a|] eqn:Q; [|discriminate]. destruct (nth_error w i) as [b|] eqn:Q2; [|discriminate]. apply ok_inj in Ey as ->. cbn [option_map obind].
  unfold vupd in *. destruct (upd _ _ v) as [q|] eqn:U; [|discriminate]. apply ok_inj in E as <-. now rewrite (upd_some _ (fun v => v + y) _ v q (fun _ => eq_refl) U).
Qed.
Lemma wcast_fold w cl pr l : forall v v', ofold (cast w cl pr) l v = Ok v' -> ofold (wcast (map Some w) cl pr) l (map Some v) = Ok (map Some v').
Proof. induction l as [|i l IH]; intros v v' E; cbn [ofold] in *; [apply ok_inj in E as <-; reflexivity|]. apply bind_ok in E as (x & E1 & E). rewrite (wcast_some _ _ _ _ _ _ E1). cbn [obind]. auto. Qed.
Lemma wcast_in w cl pr l : forall v v', length v = length cl -> ofold (wcast w cl pr) l v = Ok v' -> forall i p, In i l -> nth_error pr i = Some p -> In p cl.
Proof.
  induction l as [|j l IH]; intros v v' L E i p Hi Hp; [destruct Hi|]. cbn [ofold] in E. apply bind_ok in E as (x & E1 & E).
  unfold wcast in E1. apply bind_ok in E1 as (q & Eq & E1). cbv zeta in E1. apply bind_ok in E1 as (y & Ey & E1). apply bind_ok in E1 as (z & Ez & E1).
  unfold vupd in E1. destruct (upd _ _ v) as [q'|] eqn:U; [|discriminate]. apply ok_inj in E1 as ->. apply upd_length in U.
  destruct Hi as [->|Hi]; [|eapply (IH x v'); eauto; lia]. unfold vget in Eq. rewrite Hp in Eq. apply ok_inj in Eq as <-. unfold pat in Ey. destruct (nth_error v _) eqn:Q; [|discriminate].
  assert (find_pos p cl < length cl)%nat as Lt by (rewrite <- L; apply nth_error_Some; congruence). clear - Lt. induction cl as [|c r IH]; cbn in *; [lia|]. destruct (Z.eqb_spec c p); [auto|right; apply IH; lia].
Qed.
Lemma repeat_some k : repeat (Some 0) k = map Some (repeat 0 k).
Proof. induction k; cbn; congruence. Qed.
Lemma soft_total w cl pr : NoDup cl -> incl pr cl -> length w = length pr -> pr <> [] -> exists c, soft_vote (map Some w) cl pr = Ok c /\ first_largest cl (weight_for w pr) c.
Proof.
  intros ND I L NE. unfold soft_vote. rewrite map_length. destruct (Nat.eqb_spec (length w) 0) as [Z|_]; [destruct pr; [congruence|cbn in *; lia]|].
  rewrite repeat_some, (wcast_fold w cl pr _ _ _ (votes_ok w cl pr ND I ltac:(lia))). cbn [obind]. rewrite best_index_max. apply max_class. intros ->. destruct pr as [|p pr]; [congruence|]. destruct (I p (or_introl eq_refl)).
Qed.
Lemma soft_in w cl pr c : soft_vote w cl pr = Ok c -> incl pr cl /\ w <> [].
Proof.
  unfold soft_vote. intro E. destruct (Nat.eqb_spec (length w) 0) as [|N]; [discriminate|]. split; [|destruct w; [cbn in N; lia|discriminate]].
  apply bind_ok in E as (v & E & _). intros p Hp. apply In_nth_error in Hp as (i & Hi). eapply (wcast_in w cl pr _ _ _ ltac:(apply repeat_length) E i p); [apply in_seq; split; [lia|cbn; apply nth_error_Some; congruence]|auto].
Qed.
Lemma soft_real w cl pr c : NoDup cl -> length w = length pr -> soft_vote (map Some w) cl pr = Ok c -> first_largest cl (weight_for w pr) c.
Proof.
  intros ND L E. destruct (soft_in _ _ _ _ E) as (I & N). destruct (soft_total w cl pr ND I L) as (c' & E' & F); [intros ->; destruct w; [now cbn in N|discriminate]|]. rewrite E in E'. now apply ok_inj in E' as <-.
Qed.
Section Obj.
Context {T : Type} (m : nat) (fit : nat -> data T -> point T -> Z) (tr te : data T).
Hypothesis ND : NoDup (d_classes tr).
Lemma answers_len p : length (answers m fit tr p) = m.
Proof. unfold answers. now rewrite map_length, seq_length. Qed.
Lemma right_hits w n : length w = m -> right_count m fit tr te (map Some w) = Ok n -> hits m fit tr te w n.
Proof.
  intros L. unfold right_count, hits. set (f := fun acc p => _). intro E0. assert (ofold f (d_points te) 0%nat = Ok (0 + n)%nat) as E by exact E0. clear E0. revert E. set (rel := fun p a => first_largest _ _ a). generalize 0%nat as k. revert n. generalize (d_points te) as ps. clear te. intro ps.
  induction ps as [|p ps IH]; intros n k E; cbn [ofold] in E; [apply ok_inj in E; exists []; split; [constructor|cbn; lia]|].
  apply bind_ok in E as (k1 & E1 & E). unfold f in E1. apply bind_ok in E1 as (c & Ec & E1). apply ok_inj in E1.
  assert (k1 <= k + n)%nat as Le. { clear - E. revert E. generalize (k + n)%nat. revert k1. induction ps as [|p ps IH]; intros k1 q E; cbn [ofold] in E; [apply ok_inj in E; lia|]. apply bind_ok in E as (k2 & E1 & E). unfold f in E1. apply bind_ok in E1 as (c & _ & E1). apply ok_inj in E1. apply IH in E. destruct (Z.eqb _ _); lia. }
  destruct (IH (k + n - k1)%nat k1) as (ans & F & Ln). { rewrite E. f_equal. lia. }
  exists (c :: ans). split; [constructor; [|exact F]; unfold rel; apply soft_real; [auto|now rewrite map_length, seq_length|exact Ec]|]. cbn [combine filter fst snd]. rewrite (Z.eqb_sym (p_y p) c). destruct (Z.eqb c (p_y p)); cbn [length]; lia.
Qed.
Lemma objective_hits w c : objective m fit tr te (map Some w) = Ok c -> length w = m /\ exists n, hits m fit tr te w n /\ c = if Nat.eqb (length (d_points te)) 0 then None else Some (100 * (INR n / INR (length (d_points te)))).
Proof.
  unfold objective. rewrite map_length. destruct (Nat.eqb_spec (length w) m) as [L|]; [|discriminate]. intro E. apply bind_ok in E as (n & En & E). apply ok_inj in E as <-. split; [auto|]. exists n. split; [now apply right_hits|].
  unfold size, bop_el. destruct (Nat.eqb_spec (length (d_points te)) 0) as [Z|Z]; [rewrite Z; cbn; destruct (Req_EM_T 0 0); [reflexivity|lra]|]. destruct (Req_EM_T (INR (length (d_points te))) 0) as [Q|_]; [apply INR_eq in Q; [lia|exact Q] || (apply not_0_INR in Z; lra)|reflexivity].
Qed.
End Obj.
Lemma cost_le N n n' : (0 < N)%nat -> (100 * (INR n' / INR N) <= 100 * (INR n / INR N) <-> (n' <= n)%nat).
Proof.
  intro H. apply lt_0_INR in H. split; intro L.
  - apply INR_le. apply (Rmult_le_reg_r (/ INR N)); [now apply Rinv_0_lt_compat|]. unfold Rdiv in L. lra.
  - apply le_INR in L. apply Rmult_le_compat_l; [lra|]. apply Rmult_le_compat_r; [left; now apply Rinv_0_lt_compat|auto].
Qed.
Lemma init_ok rr m simplex i w : unit_draws rr -> initial rr m simplex i w -> init_vector rr m (i * m) simplex = Ok (map Some w).
Proof.
  intros U. unfold initial, init_vector. destruct simplex; [intros ->; reflexivity|]. intros ->. f_equal. rewrite !map_map. apply map_ext. intro t. f_equal. apply Rabs_pos_eq, U.
Qed.
Lemma init_back rr m simplex i v : unit_draws rr -> init_vector rr m (i * m) simplex = Ok v -> exists w, initial rr m simplex i w /\ v = map Some w.
Proof.
  intros U E. unfold initial, init_vector in *. destruct simplex.
  - apply bind_ok in E as (x & Ex & E). apply ok_inj in E as <-. eauto.
  - eexists. split; [reflexivity|]. apply ok_inj in E as <-. rewrite !map_map. apply map_ext. intro t. f_equal. apply Rabs_pos_eq, U.
Qed.
Lemma initial_fun rr m simplex i w w' : initial rr m simplex i w -> initial rr m simplex i w' -> w = w'.
Proof. unfold initial. destruct simplex; intros A B; [rewrite A in B; now apply ok_inj in B|congruence]. Qed.
Lemma split_ok {T} gen dev seed (d tr te : data T) : shufflers gen -> data_ok d -> split gen dev seed d = Ok (tr, te) -> NoDup (d_classes tr).
Proof.
  intros G D E. unfold split in E. destruct (part_spec (gen dev) d 10 (negb (Nat.eqb seed 0)) true D ltac:(lia) (G dev)) as (_ & _ & tr' & te' & _ & _ & _ & E' & _ & _ & _ & C & _). rewrite E in E'. apply ok_inj in E'. injection E' as <- <-. apply C.
Qed.
Lemma pop_nth rr m np simplex pop i v : init_population rr m np simplex = Ok pop -> nth_error pop i = Some v -> (i < np)%nat /\ init_vector rr m (i * m) simplex = Ok v.
Proof.
  intros E H. destruct (map_outcome_back _ _ _ i v E H) as (x & Ex & Ev). assert (i < np)%nat as L by (apply nth_error_Some_lt in Ex; now rewrite seq_length in Ex). split; [auto|].
  rewrite (nth_error_nth' _ 0%nat) in Ex by (rewrite seq_length; auto). rewrite seq_nth in Ex by auto. injection Ex as <-. exact Ev.
Qed.
Lemma train_ok {T} gen dev seed m fit ri rr fuel np max_it simplex (d tr te : data T) s : data_ok d -> shufflers gen -> unit_draws rr -> awv_train gen dev seed m fit ri rr fuel np max_it simplex d = Ok (Some (tr, te, s)) ->
  NoDup (d_classes tr) /\ exists pop costs i w, init_population rr m np simplex = Ok pop /\ eval_population m fit tr te pop = Ok costs /\ i = best_index costs /\ (i < np)%nat /\ initial rr m simplex i w /\ fst (a_best s) = map Some w /\
    nth_error costs i = Some (snd (a_best s)) /\ objective m fit tr te (map Some w) = Ok (snd (a_best s)) /\ kept m fit tr te costs (a_best s) 0 s.
Proof.
  intros D G U E. unfold awv_train in E. apply bind_ok in E as ((tr' & te') & Es & E). apply bind_ok in E as (r & Er & E). destruct r as [s'|]; [|discriminate]. apply ok_inj in E. injection E as -> -> ->.
  split; [eapply split_ok; eauto|]. destruct (search_ok m fit tr te ri rr fuel simplex np max_it s Er) as (pop & costs & Ep & Ec & N1 & N2 & K).
  destruct (pop_nth _ _ _ _ _ _ _ Ep N1) as (Li & Iv). destruct (init_back _ _ _ _ _ U Iv) as (w & Iw & Ew). exists pop, costs, (best_index costs), w. split; [auto|]. split; [auto|]. split; [auto|]. split; [auto|]. split; [auto|]. split; [auto|]. split; [auto|]. split; [|auto].
  destruct (map_outcome_nth _ _ _ _ _ Ec N1) as (y & Ey & Oy). rewrite N2 in Ey. injection Ey as <-. now rewrite <- Ew.
Qed.
Lemma initial_cost {T} rr m fit (tr te : data T) np simplex pop costs j w n : unit_draws rr -> NoDup (d_classes tr) -> init_population rr m np simplex = Ok pop -> eval_population m fit tr te pop = Ok costs -> (j < np)%nat -> initial rr m simplex j w -> hits m fit tr te w n ->
  nth_error costs j = Some (if Nat.eqb (length (d_points te)) 0 then None else Some (100 * (INR n / INR (length (d_points te))))).
Proof.
  intros U ND Ep Ec Hj Ij Hn. assert (nth_error (seq 0 np) j = Some j) as Sj by (rewrite (nth_error_nth' _ 0%nat) by (now rewrite seq_length); now rewrite seq_nth).
  destruct (map_outcome_nth _ _ _ j j Ep Sj) as (v & Ev & Iv). rewrite (init_ok _ _ _ _ _ U Ij) in Iv. apply ok_inj in Iv as <-. destruct (map_outcome_nth _ _ _ j _ Ec Ev) as (c & Ec' & Oc).
  destruct (objective_hits m fit tr te ND w c Oc) as (_ & n' & Hn' & ->). rewrite (hits_unique _ _ _ _ _ _ _ Hn Hn'). exact Ec'.
Qed.

(** C107: training returns one of the weight vectors drawn at the start: the first of those with the most right answers on the validation part. No generation ever replaces it. *)
Lemma c107_best : forall (T : Type) gen dev seed m fit ri rr fuel np max_it simplex (d tr te : data T) s,
  data_ok d -> shufflers gen -> unit_draws rr -> awv_train gen dev seed m fit ri rr fuel np max_it simplex d = Ok (Some (tr, te, s)) ->
  exists i w n, (i < np)%nat /\ initial rr m simplex i w /\ fst (a_best s) = map Some w /\ hits m fit tr te w n /\
    (forall j w' n', (j < np)%nat -> initial rr m simplex j w' -> hits m fit tr te w' n' -> (n' <= n)%nat /\ ((j < i)%nat -> (n' < n)%nat)) /\ a_gen s = 0%nat.
Proof.
  intros T gen dev seed m fit ri rr fuel np max_it simplex d tr te s D G U E. destruct (train_ok _ _ _ _ _ _ _ _ _ _ _ _ _ _ _ D G U E) as (ND & pop & costs & i & w & Ep & Ec & Ei & Li & Iw & Ew & Ni & Ow & K).
  destruct (objective_hits m fit tr te ND w _ Ow) as (Lw & n & Hn & Cn). exists i, w, n. split; [auto|]. split; [auto|]. split; [auto|]. split; [auto|]. split; [|apply K].
  assert (d_points te = [] -> i = 0%nat) as Empty.
  { intro Q. rewrite Ei. destruct costs as [|c r]; [reflexivity|]. cbn [best_index].
    assert (c = None) as ->; [|apply best_from_nan]. destruct (map_outcome_back _ _ _ 0%nat c Ec eq_refl) as (v & Hv & Ov). unfold objective in Ov. destruct (Nat.eqb (length v) m); [|discriminate]. apply bind_ok in Ov as (acc & _ & Ov). apply ok_inj in Ov as <-.
    unfold size. rewrite Q. cbn. destruct (Req_EM_T 0 0); [reflexivity|lra]. }
  - intros j w' n' Hj Ij Hn'. pose proof (initial_cost _ _ _ _ _ _ _ _ _ _ _ _ U ND Ep Ec Hj Ij Hn') as Cj. rewrite Cn in Ni.
    destruct (Nat.eqb_spec (length (d_points te)) 0) as [Z|Z].
    + assert (d_points te = []) as Q by (destruct (d_points te); [auto|discriminate]). split; [|rewrite Empty by auto; lia]. destruct Hn' as (a & _ & ->). rewrite Q. cbn. lia.
    + destruct K as (_ & _ & _ & _ & _ & _).
      assert (forall c, In c costs -> exists x, c = Some x) as AS.
      { intros c Hc. apply In_nth_error in Hc as (q & Hq). destruct (map_outcome_back _ _ _ q c Ec Hq) as (v & Hv & Ov). unfold objective in Ov. destruct (Nat.eqb (length v) m); [|discriminate]. apply bind_ok in Ov as (acc & _ & Ov). apply ok_inj in Ov as <-.
        unfold size, bop_el. destruct (Req_EM_T (INR (length (d_points te))) 0) as [Q|_]; [apply not_0_INR in Z; lra|]. cbn. eauto. }
      assert (exists l, costs = map Some l) as (l & ->). { clear - AS. induction costs as [|c r IH]; [exists []; reflexivity|]. destruct (AS c (or_introl eq_refl)) as (x & ->). destruct IH as (l & ->); [intros; apply AS; now right|]. exists (x :: l). reflexivity. }
      rewrite best_index_max in Ei. rewrite nth_error_map in Ni, Cj. destruct (nth_error l i) as [ci|] eqn:Qi; [|discriminate]. destruct (nth_error l j) as [cj|] eqn:Qj; [|discriminate]. injection Ni as ->. injection Cj as ->.
      destruct (max_element_ok l) as (v & Ev & A & B); [intros ->; destruct i; discriminate|]. rewrite <- Ei, Qi in Ev. injection Ev as <-. assert (0 < length (d_points te))%nat as P by lia. split.
      * apply (cost_le _ n n' P). eapply A; eauto.
      * intro Lt. rewrite <- Ei in B. pose proof (B j _ Lt Qj) as S1. destruct (Nat.lt_ge_cases n' n) as [|Ge]; [auto|]. apply (cost_le _ n' n P) in Ge. lra.
Qed.
(** C107: the generations only make the population worse: no position ever holds a vector with more right answers than the one drawn for it. *)
Lemma c107_improves_refuted : forall (T : Type) gen dev seed m fit ri rr fuel np max_it simplex (d tr te : data T) s,
  data_ok d -> shufflers gen -> unit_draws rr -> awv_train gen dev seed m fit ri rr fuel np max_it simplex d = Ok (Some (tr, te, s)) ->
  length (a_pop s) = np /\ forall i w n w' n', initial rr m simplex i w -> hits m fit tr te w n -> nth_error (a_pop s) i = Some (map Some w') -> hits m fit tr te w' n' -> (n' <= n)%nat.
Proof.
  intros T gen dev seed m fit ri rr fuel np max_it simplex d tr te s D G U E. destruct (train_ok _ _ _ _ _ _ _ _ _ _ _ _ _ _ _ D G U E) as (ND & pop & costs & i0 & w0 & Ep & Ec & _ & _ & _ & _ & _ & _ & (K1 & K2 & _ & _ & _ & K3)).
  assert (length (a_pop s) = np) as L. { rewrite <- (map_outcome_len _ _ _ K1), K2, (map_outcome_len _ _ _ Ec), (map_outcome_len _ _ _ Ep). apply seq_length. } split; [exact L|].
  intros i w n w' n' Iw Hn Ni Hn'. assert (i < np)%nat as Hi by (rewrite <- L; eapply nth_error_Some_lt; eauto). pose proof (initial_cost _ _ _ _ _ _ _ _ _ _ _ _ U ND Ep Ec Hi Iw Hn) as C0.
  destruct (map_outcome_nth _ _ _ _ _ K1 Ni) as (c & Ci & Oc). destruct (objective_hits m fit tr te ND w' c Oc) as (_ & n2 & Hn2 & ->). rewrite (hits_unique _ _ _ _ _ _ _ Hn2 Hn') in Ci.
  specialize (K3 i _ _ Ci C0). destruct (Nat.eqb_spec (length (d_points te)) 0) as [Z|Z].
  - destruct Hn' as (a & _ & ->). destruct (d_points te); [cbn; lia|discriminate].
  - cbn in K3. destruct (Rlt_dec _ _) as [|N]; [discriminate|]. apply (cost_le (length (d_points te))); [lia|]. lra.
Qed.
(** C107: the trained ensemble answers the class of largest total weight, with the weights of c107_best. *)
Lemma c107_evaluate : forall (T : Type) gen dev seed m fit ri rr fuel np max_it simplex (d tr te : data T) s,
  data_ok d -> shufflers gen -> unit_draws rr -> awv_train gen dev seed m fit ri rr fuel np max_it simplex d = Ok (Some (tr, te, s)) ->
  exists w, fst (a_best s) = map Some w /\ length w = m /\ forall p, (0 < m)%nat -> (forall i, (i < m)%nat -> In (fit i tr p) (d_classes tr)) ->
    exists c, awv_evaluate m fit tr s p = Ok c /\ first_largest (d_classes tr) (weight_for w (map (fun i => fit i tr p) (seq 0 m))) c.
Proof.
  intros T gen dev seed m fit ri rr fuel np max_it simplex d tr te s D G U E. destruct (train_ok _ _ _ _ _ _ _ _ _ _ _ _ _ _ _ D G U E) as (ND & pop & costs & i0 & w & _ & _ & _ & _ & _ & Ew & _ & Ow & _).
  destruct (objective_hits m fit tr te ND w _ Ow) as (Lw & _). exists w. split; [auto|]. split; [auto|]. intros p Hm I. unfold awv_evaluate. rewrite Ew, map_length, Lw, Nat.eqb_refl. apply soft_total; [auto| |symmetry; unfold answers; now rewrite map_length, seq_length|].
  - intros x Hx. unfold answers in Hx. apply in_map_iff in Hx as (i & <- & Hi). apply in_seq in Hi. apply I. lia.
  - intro Q. apply (f_equal (@length _)) in Q. unfold answers in Q. rewrite map_length, seq_length in Q. cbn in Q. lia.
Qed.

(** *** one member *)
Section One.
Context {T : Type} (fit : nat -> data T -> point T -> Z) (tr te : data T) (ri : nat -> nat -> nat) (rr : nat -> R) (fuel : nat).
Let n := length (filter (fun p => Z.eqb (fit 0%nat tr p) (p_y p)) (d_points te)).
Let K := 100 * (INR n / INR (length (d_points te))).
Hypotheses (ND : NoDup (d_classes tr)) (NE : d_points te <> []) (I : forall p, In p (d_points te) -> In (fit 0%nat tr p) (d_classes tr))
  (U : forall t, 0 < rr t < 1) (Hri : forall t b, (ri t b <= b)%nat) (NZ : forall t1 t2 t3, rr t3 + 8 / 10 * (rr t1 - rr t2) <> 0).
Lemma one_vote x cl c : NoDup cl -> 0 < x -> In c cl -> soft_vote [Some x] cl [c] = Ok c.
Proof.
  clear. intros ND X H. destruct (soft_total [x] cl [c] ND) as (c' & E & (b & a & Q & B & A)); [intros y [<-|[]]; auto|reflexivity|discriminate|]. cbn [map] in E. rewrite E. f_equal.
  destruct (Z.eq_dec c' c) as [|N]; [auto|exfalso]. rewrite Q in H. assert (weight_for [x] [c] c = x) as V1 by (cbn [weight_for]; destruct (Z.eq_dec c c); [lra|congruence]). assert (weight_for [x] [c] c' = 0) as V2 by (cbn [weight_for]; destruct (Z.eq_dec c c'); [congruence|lra]).
  apply in_app_or in H. destruct H as [H|[H|H]]; [apply B in H; lra|congruence|apply A in H; lra].
Qed.
Lemma one_objective x : 0 < x -> objective 1 fit tr te [Some x] = Ok (Some K).
Proof.
  intro X. unfold objective. cbn [length Nat.eqb]. unfold right_count.
  assert (forall k, ofold (fun acc p => let* c := soft_vote [Some x] (d_classes tr) (answers 1 fit tr p) in Ok (if Z.eqb c (p_y p) then S acc else acc)) (d_points te) k = Ok (k + n)%nat) as ->.
  { unfold n. revert I. generalize (d_points te) as ps. clear - ND X. intros ps I. induction ps as [|p ps IH]; intro k; cbn [ofold filter]; [cbn; f_equal; lia|]. change (answers 1 fit tr p) with [fit 0%nat tr p]. rewrite one_vote by (auto; apply I; now left). cbn [obind].
    rewrite IH by (intros q Hq; apply I; now right). f_equal. destruct (Z.eqb _ _); cbn [length]; lia. }
  cbn [obind Nat.add]. unfold size, bop_el. destruct (Req_EM_T (INR (length (d_points te))) 0) as [Q|_]; [|reflexivity]. exfalso. apply (not_0_INR (length (d_points te))); [|auto]. destruct (d_points te); [congruence|discriminate].
Qed.
Lemma one_pick f : forall excl (pop : list wvec) t, (0 < length pop)%nat -> (forall q v, nth_error pop q = Some v -> exists x, v = [Some (rr x)]) ->
  exists r, pick_parent ri f excl pop t = Ok r /\ (r = None \/ exists q t', r = Some ([Some (rr q)], t')).
Proof.
  clear - Hri. intros excl pop t Lp F. revert t. induction f as [|f IH]; intros t; cbn [pick_parent]; [eauto|]. destruct (vget_lt pop (ri t (length pop - 1)%nat)) as (v & Ev & ->); [pose proof (Hri t (length pop - 1)%nat); lia|]. cbn [obind].
  destruct (existsb _ _); [apply IH|]. destruct (F _ _ Ev) as (x & ->). eexists. split; [reflexivity|]. eauto.
Qed.
Lemma one_sample (p0 : wvec) (pop : list wvec) t : (0 < length pop)%nat -> (forall q v, nth_error pop q = Some v -> exists x, v = [Some (rr x)]) ->
  exists r, new_sample ri rr fuel 1 false p0 pop t = Ok r /\ (r = None \/ exists t', r = Some ([Some 1], t')).
Proof.
  intros Lp F. unfold new_sample, parents.
  destruct (one_pick fuel [p0] pop t Lp F) as (r1 & -> & [-> | (a & t1 & ->)]); cbn [obind]; [eauto|]. set (pa := [Some (rr a)] : wvec). destruct (one_pick fuel [p0; pa] pop t1 Lp F) as (r2 & -> & [-> | (b & t2 & ->)]); cbn [obind]; [eauto|].
  set (pb := [Some (rr b)] : wvec). destruct (one_pick fuel [p0; pa; pb] pop t2 Lp F) as (r3 & -> & [-> | (c & t3 & ->)]); cbn [obind]; [eauto|]. unfold pa, pb. clear pa pb.
  unfold cross. cbn [seq map_outcome Nat.sub]. pose proof (Hri t3 0%nat) as Z. assert (ri t3 0%nat = 0%nat) as -> by lia. cbn [Nat.eqb orb pat nth_error obind lift1 lift2 bop_el]. eexists. split; [reflexivity|]. right. eexists. f_equal. f_equal.
  unfold unit_abs. cbn [numbers map]. set (v := rr c + 8 / 10 * (rr a - rr b)). assert (v <> 0) as N by apply NZ. unfold suml. cbn [map fold_left]. rewrite Rplus_0_l. change (v * v) with (Rsqr v). rewrite sqrt_Rsqr_abs.
  unfold bop_el. destruct (Req_EM_T (Rabs v) 0) as [Q|_]; [apply Rabs_no_R0 in N; lra|]. cbn [lift1]. do 2 f_equal. unfold Rdiv. rewrite Rabs_mult, Rabs_inv, Rabs_Rabsolu. apply Rinv_r. now apply Rabs_no_R0.
Qed.
Lemma one_breed s k : (forall q v, nth_error (a_pop s) q = Some v -> exists x, v = [Some (rr x)]) -> a_costs s = repeat (Some K) (length (a_pop s)) -> (k <= length (a_pop s))%nat ->
  exists r, ofold (breed 1 fit tr te ri rr fuel false s) (seq 0 k) (Some ([], a_t s)) = Ok r /\ (r = None \/ exists t, r = Some (repeat [Some 1] k, t)).
Proof.
  intros P C. induction k as [|k IH]; intro Hk; [eexists; split; [reflexivity|right; exists (a_t s); reflexivity]|]. destruct (IH ltac:(lia)) as (acc & E & A). clear IH.
  rewrite seq_S, ofold_app, E. cbn [obind ofold Nat.add]. destruct A as [-> | (t & ->)]; [eexists; split; [reflexivity|auto]|]. unfold breed.
  destruct (one_sample (fst (a_best s)) (a_pop s) t ltac:(lia) P) as (r & -> & [-> | (t' & ->)]); cbn [obind]; [eauto|]. rewrite one_objective by lra. cbn [obind]. rewrite C. unfold vget at 1. rewrite nth_error_repeat by lia. cbn [obind].
  destruct (vget_lt (a_pop s) k ltac:(lia)) as (old & _ & ->). cbn [obind nan_le]. destruct (Rle_dec K K) as [_|]; [|lra]. eexists. split; [reflexivity|]. right. exists t'. now rewrite <- repeat_cons.
Qed.
Lemma all_costs (pop : list wvec) : Forall (fun v => exists x, 0 < x /\ v = [Some x]) pop -> eval_population 1 fit tr te pop = Ok (repeat (Some K) (length pop)).
Proof. intro F. unfold eval_population. induction F as [|v pop (x & X & ->) F IH]; [reflexivity|]. cbn [map_outcome]. rewrite one_objective by auto. cbn [obind]. rewrite IH. reflexivity. Qed.
Lemma no_second f : forall excl k t, (0 < k)%nat -> existsb (weq [Some 1]) excl = true -> pick_parent ri f excl (repeat [Some 1] k) t = Ok None.
Proof.
  clear - Hri. induction f as [|f IH]; intros excl k t Hk H; [reflexivity|]. cbn [pick_parent]. rewrite repeat_length. unfold vget. rewrite nth_error_repeat by (pose proof (Hri t (k - 1)%nat); lia). cbn [obind]. rewrite H. auto.
Qed.
Lemma breed_none s l : ofold (breed 1 fit tr te ri rr fuel false s) l None = Ok None.
Proof. induction l as [|i l IH]; [reflexivity|]. exact IH. Qed.
Lemma one_search np max_it : (0 < np)%nat -> (2 <= max_it)%nat -> K <> 1 -> search 1 fit ri rr fuel np max_it false tr te = Ok None.
Proof.
  intros Hnp Hm HK. destruct max_it as [|[|mi]]; [lia|lia|]. unfold search. set (pop := map (fun i => [Some (rr i)] : wvec) (seq 0 np)).
  assert (init_population rr 1 np false = Ok pop) as ->.
  { unfold init_population, pop. rewrite (L_Valid.map_outcome_ok _ (fun i => [Some (rr i)] : wvec)); [reflexivity|]. intros i _. unfold init_vector. rewrite Nat.mul_1_r. cbn [seq map]. rewrite Rabs_pos_eq by (specialize (U i); lra). reflexivity. }
  cbn [obind]. assert (forall q v, nth_error pop q = Some v -> exists t, v = [Some (rr t)]) as P. { intros q v Hq. unfold pop in Hq. rewrite nth_error_map in Hq. destruct (nth_error _ q); [|discriminate]. injection Hq as <-. eauto. }
  assert (length pop = np) as Lp by (unfold pop; now rewrite map_length, seq_length).
  rewrite all_costs. 2:{ apply Forall_forall. intros v Hv. apply In_nth_error in Hv as (q & Hq). destruct (P q v Hq) as (t & ->). exists (rr t). split; [apply U|auto]. }
  cbn [obind]. rewrite Lp. set (costs := repeat (Some K) np). assert (exists v : wvec, get_best_solution pop costs = Ok (v, Some K) /\ exists t, v = [Some (rr t)]) as (b & -> & tb & ->).
  { unfold get_best_solution. assert (best_index costs < np)%nat as Lb.
    { destruct (best_top costs) as (c & Ec & _); [unfold costs; destruct np; [lia|discriminate]|]. apply nth_error_Some_lt in Ec. unfold costs in Ec at 2. now rewrite repeat_length in Ec. }
    set (bi := best_index costs) in *. destruct (vget_lt pop bi ltac:(lia)) as (v & Ev & ->). exists v. cbn [obind]. unfold vget, costs. rewrite nth_error_repeat by auto. cbn [obind]. split; [reflexivity|eauto]. }
  cbn [obind]. match goal with |- context [generations _ _ _ _ _ _ _ _ _ _ ?q] => set (s0 := q) end.
  assert (forall g, exists r, generation 1 fit tr te ri rr fuel false g s0 = Ok r /\ (r = None \/ exists t, r = Some (mkAwv (repeat [Some 1] np) costs ([Some (rr tb)], Some K) 0 t))) as G1.
  { intro g. unfold generation. destruct (one_breed s0 np P) as (r & Er & A); [cbn [s0 a_costs a_pop]; unfold costs; now rewrite Lp|cbn [s0 a_pop]; lia|]. replace (length (a_pop s0)) with np by (cbn [s0 a_pop]; auto). rewrite Er. cbn [obind].
    destruct A as [-> | (t & ->)]; [eauto|]. rewrite all_costs by (apply Forall_forall; intros v Hv; apply repeat_spec in Hv as ->; exists 1; split; [lra|auto]). cbn [obind]. rewrite repeat_length. fold costs.
    destruct (best_top costs) as (c & Ec & _); [unfold costs; destruct np; [lia|discriminate]|]. pose proof (nth_error_In _ _ Ec) as Ic. apply repeat_spec in Ic as ->. apply nth_error_Some_lt in Ec as Lb. unfold costs in Lb at 2. rewrite repeat_length in Lb.
    unfold get_best_solution, vget. rewrite nth_error_repeat by auto. rewrite Ec. cbn [obind snd s0 a_best nan_lt]. destruct (Rlt_dec K K) as [|_]; [lra|]. eexists. split; [reflexivity|]. right. exists t. reflexivity. }
  cbn [generations]. destruct (G1 0%nat) as (r & -> & [-> | (t & ->)]); cbn [obind]; [reflexivity|]. cbn [a_best snd]. destruct (Req_EM_T K 1) as [|_]; [contradiction|].
  set (s1 := mkAwv _ _ _ _ _). assert (generation 1 fit tr te ri rr fuel false 1 s1 = Ok None) as ->; [|reflexivity].
  unfold generation. cbn [s1 a_pop a_t]. rewrite repeat_length. destruct np as [|np']; [lia|]. cbn [seq ofold].
  assert (breed 1 fit tr te ri rr fuel false s1 (Some ([], t)) 0 = Ok None) as ->; [|cbn [obind]; rewrite breed_none; reflexivity]. unfold breed.
  match goal with |- context [new_sample ?a ?b ?c ?d ?e ?f ?g ?h] => assert (new_sample a b c d e f g h = Ok None) as ->; [|reflexivity] end. cbn [s1 a_pop a_best fst].
  unfold new_sample, parents. match goal with |- context [pick_parent ri fuel ?e ?p t] => assert (exists r, pick_parent ri fuel e p t = Ok r /\ (r = None \/ exists t', r = Some ([Some 1] : wvec, t'))) as (r & -> & [-> | (t' & ->)]) end; cbn [obind]; [|reflexivity|].
  { destruct fuel as [|f]; cbn [pick_parent]; [eauto|]. rewrite repeat_length. unfold vget. rewrite nth_error_repeat by (pose proof (Hri t (S np' - 1)%nat); lia). cbn [obind existsb weq]. destruct (Req_EM_T 1 (rr tb)) as [Q|_]; [specialize (U tb); lra|]. cbn [andb orb]. eauto. }
  rewrite no_second; [reflexivity|lia|]. cbn [existsb weq]. destruct (Req_EM_T 1 1); [|lra]. cbn. apply orb_true_r.
Qed.
End One.

(** C107: with a single member and free weights (no projection), training for two generations or more never ends: all vectors of the second population are equal, so no
    second parent is ever found. *)
Lemma c107_one_member_refuted : forall (T : Type) gen dev seed fit ri rr fuel np max_it (d tr te : data T),
  data_ok d -> shufflers gen -> split gen dev seed d = Ok (tr, te) -> d_points te <> [] -> (forall p, In p (d_points te) -> In (fit 0%nat tr p) (d_classes tr)) ->
  (forall t, 0 < rr t < 1) -> (forall t b, (ri t b <= b)%nat) -> (forall t1 t2 t3, rr t3 + 8 / 10 * (rr t1 - rr t2) <> 0) -> (0 < np)%nat -> (2 <= max_it)%nat ->
  (100 * length (filter (fun p => Z.eqb (fit 0%nat tr p) (p_y p)) (d_points te)) <> length (d_points te))%nat ->
  awv_train gen dev seed 1 fit ri rr fuel np max_it false d = Ok None.
Proof.
  intros T gen dev seed fit ri rr fuel np max_it d tr te D G E NE I U Hri NZ Hnp Hm HK. unfold awv_train. rewrite E. cbn [obind].
  rewrite (one_search fit tr te ri rr fuel (split_ok _ _ _ _ _ _ G D E) NE I U Hri NZ np max_it Hnp Hm); [reflexivity|].
  set (n := length (filter _ _)) in *. set (N := length (d_points te)) in *. assert (0 < N)%nat as P by (unfold N; destruct (d_points te); [congruence|cbn; lia]). apply lt_0_INR in P. intro Q. apply HK. apply INR_eq. rewrite mult_INR.
  apply (Rmult_eq_compat_r (INR N)) in Q. replace (100 * (INR n / INR N) * INR N) with (100 * INR n) in Q by (field; lra). cbn [INR] in *. lra.
Qed.

(** *** a concrete case *)
Definition d10 : data Z := T_Data.build false (map (fun i => mkPoint [Z.of_nat i] 5%Z 0%Z 0%Z) (seq 1 10)).
Definition genx (s site m : nat) : list nat := if Nat.eqb s 0 then seq 0 m else rev (seq 0 m).
Definition rrx (t : nat) : R := 1 / 2 + / (INR t + 4).
Definition rix (t b : nat) : nat := Nat.min b (match (t mod 5)%nat with 4 => 1 | 0 => 2 | 1 => 3 | _ => 0 end)%nat.
Definition fitx (i : nat) (tr : data Z) (p : point Z) : Z := 5%Z.
Definition partsx := match split genx 0 1 d10 with Ok v => v | _ => (d10, d10) end.
Lemma d10_ok : data_ok d10.
Proof. apply (T_Data.build_ok false 1); [|discriminate|lia|vm_compute; reflexivity]. intros p Hp. apply in_map_iff in Hp as (i & <- & _). reflexivity. Qed.
Lemma genx_ok : shufflers genx.
Proof. intros s site m. unfold genx. destruct (Nat.eqb s 0); [apply Permutation_refl|apply Permutation_sym, Permutation_rev]. Qed.
Lemma rrx_in t : 1 / 2 < rrx t <= 3 / 4.
Proof.
  unfold rrx. pose proof (pos_INR t). split; [assert (0 < / (INR t + 4)) by (apply Rinv_0_lt_compat; lra); lra|]. assert (/ (INR t + 4) <= / 4) by (apply Rinv_le_contravar; lra). lra.
Qed.
Lemma rrx_inj a b : a <> b -> rrx a <> rrx b.
Proof. intros N E. unfold rrx in E. apply Rplus_eq_reg_l in E. apply (f_equal Rinv) in E. rewrite !Rinv_inv in E. apply N, INR_eq. lra. Qed.
Lemma partsx_ok : split genx 0 1 d10 = Ok (fst partsx, snd partsx).
Proof. vm_compute. reflexivity. Qed.
Lemma tex_ok : d_classes (fst partsx) = [5%Z] /\ exists p, d_points (snd partsx) = [p] /\ p_y p = 5%Z.
Proof. split; [vm_compute; reflexivity|]. eexists. split; vm_compute; reflexivity. Qed.
Lemma c107_one_member_refuted_ex : data_ok d10 /\ shufflers genx /\ split genx 0 1 d10 = Ok (fst partsx, snd partsx) /\ d_points (snd partsx) <> [] /\ (forall p, In p (d_points (snd partsx)) -> In (fitx 0%nat (fst partsx) p) (d_classes (fst partsx))) /\
  (forall t, 0 < rrx t < 1) /\ (forall t b, (rix t b <= b)%nat) /\ (forall t1 t2 t3, rrx t3 + 8 / 10 * (rrx t1 - rrx t2) <> 0) /\
  (100 * length (filter (fun p => Z.eqb (fitx 0%nat (fst partsx) p) (p_y p)) (d_points (snd partsx))) <> length (d_points (snd partsx)))%nat.
Proof.
  destruct tex_ok as (C & p & P & Y). rewrite P, C. split; [apply d10_ok|]. split; [apply genx_ok|]. split; [apply partsx_ok|]. split; [discriminate|]. split; [intros q _; now left|]. split; [intro t; pose proof (rrx_in t); lra|].
  split; [intros t b; unfold rix; lia|]. split; [intros t1 t2 t3; pose proof (rrx_in t1); pose proof (rrx_in t2); pose proof (rrx_in t3); lra|]. cbn [filter]. rewrite Y. cbn. lia.
Qed.
(** C107: the seed given to the ensemble does not fix the split: two runs with the same seed can validate on different points. *)
Lemma c107_seed_refuted : exists gen (d : data Z), shufflers gen /\ data_ok d /\ forall seed, exists dev dev' tr te tr' te',
  split gen dev seed d = Ok (tr, te) /\ split gen dev' seed d = Ok (tr', te') /\ exists p, In p (d_points te) /\ ~ In (content p) (map content (d_points te')).
Proof.
  exists genx, d10. split; [apply genx_ok|]. split; [apply d10_ok|]. intros [|seed]; exists 0%nat, 1%nat; do 4 eexists.
  - split; [vm_compute; reflexivity|]. split; [vm_compute; reflexivity|]. eexists. split; [left; reflexivity|]. vm_compute. intros [H|[]]; discriminate.
  - unfold split. cbn [Nat.eqb negb]. split; [vm_compute; reflexivity|]. split; [vm_compute; reflexivity|]. eexists. split; [left; reflexivity|]. vm_compute. intros [H|[]]; discriminate.
Qed.
Lemma sample_x t : (t mod 5 = 4)%nat -> forall p0, p0 = [Some (rrx 0)] -> exists v, new_sample rix rrx 1 1 false p0 [[Some (rrx 0)]; [Some (rrx 1)]; [Some (rrx 2)]; [Some (rrx 3)]] t = Ok (Some ([Some v], t + 5)%nat) /\ 0 < v.
Proof.
  intros Ht p0 ->. assert (S t mod 5 = 0 /\ S (S t) mod 5 = 1)%nat as [H1 H2].
  { rewrite (Nat.div_mod t 5) by lia. rewrite Ht. split; [replace (S (5 * (t / 5) + 4))%nat with (0 + (t / 5 + 1) * 5)%nat by lia; now rewrite Nat.mod_add by lia|replace (S (S (5 * (t / 5) + 4)))%nat with (1 + (t / 5 + 1) * 5)%nat by lia; now rewrite Nat.mod_add by lia]. }
  assert (forall a b, a <> b -> weq [Some (rrx a)] [Some (rrx b)] = false) as W. { intros a b N. cbn [weq]. destruct (Req_EM_T (rrx a) (rrx b)) as [Q|_]; [apply rrx_inj in Q; [destruct Q|auto]|reflexivity]. }
  unfold new_sample, parents. cbn [pick_parent length Nat.sub]. unfold rix at 1. rewrite Ht. cbn [Nat.min vget nth_error obind existsb]. rewrite W by lia. cbn [orb obind].
  cbn [pick_parent length Nat.sub]. unfold rix at 1. rewrite H1. cbn [Nat.min vget nth_error obind existsb]. rewrite !W by lia. cbn [orb obind].
  cbn [pick_parent length Nat.sub]. unfold rix at 1. rewrite H2. cbn [Nat.min vget nth_error obind existsb]. rewrite !W by lia. cbn [orb obind].
  unfold cross. cbn [seq map_outcome Nat.sub]. assert (rix (S (S (S t))) 0 = 0)%nat as -> by (unfold rix; apply Nat.min_0_l). cbn [Nat.eqb orb pat nth_error obind lift1 lift2 bop_el].
  unfold unit_abs. cbn [numbers map]. set (v := rrx 3 + 8 / 10 * (rrx 1 - rrx 2)). assert (0 < v) as N by (unfold v; pose proof (rrx_in 1); pose proof (rrx_in 2); pose proof (rrx_in 3); lra). unfold suml. cbn [map fold_left]. rewrite Rplus_0_l.
  change (v * v) with (Rsqr v). rewrite sqrt_Rsqr_abs, Rabs_pos_eq by lra. unfold bop_el. destruct (Req_EM_T v 0) as [|_]; [lra|]. cbn [lift1]. exists (Rabs (v / v)). split; [do 3 f_equal; lia|]. unfold Rdiv. rewrite Rinv_r by lra. rewrite Rabs_R1. lra.
Qed.
Lemma c107_best_ex : exists tr te s, data_ok d10 /\ shufflers genx /\ unit_draws rrx /\ awv_train genx 0 1 1 fitx rix rrx 1 4 1 false d10 = Ok (Some (tr, te, s)).
Proof.
  exists (fst partsx), (snd partsx). cut (exists s, awv_train genx 0 1 1 fitx rix rrx 1 4 1 false d10 = Ok (Some (fst partsx, snd partsx, s))).
  { intros (s & E). exists s. split; [apply d10_ok|]. split; [apply genx_ok|]. split; [intro t; pose proof (rrx_in t); lra|exact E]. }
  unfold awv_train. rewrite partsx_ok. cbn [obind]. set (tr := fst partsx). set (te := snd partsx). destruct tex_ok as (C & p & P & Y). fold tr in C. fold te in P.
  assert (exists K, forall x, 0 < x -> objective 1 fitx tr te [Some x] = Ok (Some K)) as (K & OK).
  { eexists. intros x X. apply (one_objective fitx tr te); [rewrite C; repeat constructor; auto|rewrite P; discriminate|intros q _; rewrite C; now left|auto]. }
  clearbody tr te. assert (forall t, 0 < rrx t) as PR by (intro t; pose proof (rrx_in t); lra). unfold search.
  assert (init_population rrx 1 4 false = Ok [[Some (rrx 0)]; [Some (rrx 1)]; [Some (rrx 2)]; [Some (rrx 3)]]) as ->.
  { unfold init_population. cbn [seq map_outcome]. unfold init_vector. cbn [Nat.mul Nat.add seq map obind]. now rewrite !Rabs_pos_eq by (left; apply PR). }
  cbn [obind]. unfold eval_population at 1. cbn [map_outcome]. rewrite !OK by apply PR. cbn [obind]. unfold get_best_solution at 1. cbn [best_index best_from nan_lt]. destruct (Rlt_dec K K) as [|_]; [lra|]. cbn [vget nth_error obind].
  cbn [generations]. unfold generation. cbn [a_pop length seq ofold]. unfold breed. cbn [a_pop a_best a_costs fst a_t].
  change (4 * 1)%nat with 4%nat. destruct (sample_x 4 eq_refl _ eq_refl) as (v1 & -> & V1). cbn [obind]. rewrite OK by auto. cbn [obind vget nth_error nan_le]. destruct (Rle_dec K K) as [_|]; [|lra].
  destruct (sample_x (4 + 5) eq_refl _ eq_refl) as (v2 & -> & V2). cbn [obind]. rewrite OK by auto. cbn [obind vget nth_error nan_le].
  destruct (sample_x (4 + 5 + 5) eq_refl _ eq_refl) as (v3 & -> & V3). cbn [obind]. rewrite OK by auto. cbn [obind vget nth_error nan_le].
  destruct (sample_x (4 + 5 + 5 + 5) eq_refl _ eq_refl) as (v4 & -> & V4). cbn [obind]. rewrite OK by auto. cbn [obind vget nth_error nan_le app]. destruct (Rle_dec K K) as [_|]; [|lra].
  unfold eval_population. cbn [map_outcome]. rewrite !OK by auto. cbn [obind]. unfold get_best_solution. cbn [best_index best_from nan_lt]. destruct (Rlt_dec K K) as [|_]; [lra|]. cbn [vget nth_error obind snd nan_lt]. destruct (Rlt_dec K K) as [|_]; [lra|].
  cbn [a_best snd obind]. destruct (Req_EM_T K 1); cbn [a_best fst obind]; rewrite OK by apply PR; cbn [obind]; eauto.
Qed.
(** *** the candidates of a generation *)
Lemma weq_eq a : forall b, weq (map Some a) (map Some b) = true <-> a = b.
Proof.
  induction a as [|x a IH]; intros [|y b]; cbn [map weq]; try (split; [discriminate|discriminate]); [tauto|]. destruct (Req_EM_T x y) as [->|N]; cbn [andb]; [rewrite IH; split; [congruence|now injection 1]|]. split; [discriminate|now injection 1].
Qed.
Lemma pick_ok ri (pop excl : list (list R)) : forall fuel t q t', pick_parent ri fuel (map (map Some) excl) (map (map Some) pop) t = Ok (Some (q, t')) -> exists p, In p pop /\ q = map Some p /\ ~ In p excl.
Proof.
  induction fuel as [|f IH]; intros t q t' E; [discriminate|]. cbn [pick_parent] in E. apply bind_ok in E as (w & Ew & E). apply vget_Ok in Ew. destruct (existsb (weq w) _) eqn:X; [eauto|]. apply ok_inj in E. injection E as <- <-.
  rewrite nth_error_map in Ew. destruct (nth_error pop _) as [p|] eqn:Ep; [|discriminate]. injection Ew as <-. exists p. split; [eapply nth_error_In; eauto|]. split; [auto|]. intro I.
  assert (existsb (weq (map Some p)) (map (map Some) excl) = true); [|congruence]. apply existsb_exists. exists (map Some p). split; [now apply in_map|now apply weq_eq].
Qed.
Lemma pat_some (p : list R) i : (i < length p)%nat -> pat (map Some p) i = Ok (Some (nth i p 0)).
Proof. intro L. unfold pat. rewrite nth_error_map, (nth_error_nth' p 0 L). reflexivity. Qed.
Lemma numbers_some v : numbers (map Some v) = Some v.
Proof. induction v as [|x v IH]; cbn [map numbers]; [auto|]. now rewrite IH. Qed.
Lemma suml_sum l : suml l = S_Ens.sum l.
Proof. unfold suml. replace (S_Ens.sum l) with (0 + S_Ens.sum l) by lra. generalize 0. induction l as [|x l IH]; intro a; cbn; [lra|]. rewrite IH. lra. Qed.
Lemma squares_zero v : S_Ens.sum (map (fun a => a * a) v) = 0 -> forall x, In x v -> x = 0.
Proof.
  assert (forall l, 0 <= S_Ens.sum (map (fun a => a * a) l)) as P by (induction l; cbn; nra). induction v as [|a v IH]; intros E x I; [destruct I|]. cbn in E. pose proof (P v). assert (a * a = 0) by nra. destruct I as [<-|I]; [nra|]. apply IH; [nra|auto].
Qed.
(** C107: a candidate crosses the best vector with three vectors of the population, pairwise different and different from the best one; it is scaled to length 1 in absolute value, or projected.
    If the crossing has only zeros the candidate has no numbers. *)
Lemma c107_candidate : forall (ri : nat -> nat -> nat) (rr : nat -> R) fuel m simplex (p0 : list R) (pop : list (list R)) t s t', (forall t b, (ri t b <= b)%nat) -> (0 < m)%nat -> length p0 = m -> (forall p, In p pop -> length p = m) ->
  new_sample ri rr fuel m simplex (map Some p0) (map (map Some) pop) t = Ok (Some (s, t')) ->
  exists p1 p2 p3 v, In p1 pop /\ In p2 pop /\ In p3 pop /\ NoDup [p0; p1; p2; p3] /\ crossed m p0 p1 p2 p3 v /\
    if simplex then exists x, simplex_projection (map Rabs v) = Ok x /\ s = map Some x
    else (exists x, scaled v x /\ s = map Some x) \/ ((forall a, In a v -> a = 0) /\ s = map (fun _ => None) v).
Proof.
  intros ri rr fuel m simplex p0 pop t s t' Hri Hm L0 Lp E. unfold new_sample, parents in E. apply bind_ok in E as (ps & Ep & E). apply bind_ok in Ep as ([[q1 t1]|] & E1 & Ep); [|apply ok_inj in Ep; subst ps; discriminate].
  apply bind_ok in Ep as ([[q2 t2]|] & E2 & Ep); [|apply ok_inj in Ep; subst ps; discriminate]. apply bind_ok in Ep as ([[q3 t3]|] & E3 & Ep); apply ok_inj in Ep; subst ps; [|discriminate].
  destruct (pick_ok ri pop [p0] _ _ _ _ E1) as (p1 & I1 & -> & N1). destruct (pick_ok ri pop [p0; p1] _ _ _ _ E2) as (p2 & I2 & -> & N2). destruct (pick_ok ri pop [p0; p1; p2] _ _ _ _ E3) as (p3 & I3 & -> & N3).
  apply bind_ok in E as (c & Ec & E). apply bind_ok in E as (s' & Es & E). apply ok_inj in E. injection E as <- _.
  set (mutant := fun i => nth i p3 0 + 8 / 10 * (nth i p1 0 - nth i p2 0)). set (hot := fun i => Nat.eqb i (ri t3 (m - 1)%nat) || (if Rlt_dec (rr (t3 + 1 + i)%nat) (9 / 10) then true else false)).
  set (v := map (fun i => if hot i then mutant i else nth i p0 0) (seq 0 m)).
  assert (c = map Some v) as ->.
  { unfold cross in Ec. rewrite (map_outcome_ok _ (fun i => Some (if hot i then mutant i else nth i p0 0))) in Ec; [apply ok_inj in Ec; subst c; unfold v; now rewrite map_map|].
    intros i I. apply in_seq in I. pose proof (Lp _ I1). pose proof (Lp _ I2). pose proof (Lp _ I3). fold (hot i). rewrite !pat_some by lia. cbn [obind]. destruct (hot i); reflexivity. }
  assert (forall i, (i < m)%nat -> nth i v 0 = if hot i then mutant i else nth i p0 0) as Hv. { intros i Li. unfold v. set (g := fun i => if hot i then mutant i else nth i p0 0). rewrite (nth_indep _ 0 (g 0%nat)) by now rewrite map_length, seq_length. rewrite (map_nth g), seq_nth by auto. reflexivity. }
  exists p1, p2, p3, v. split; [auto|]. split; [auto|]. split; [auto|]. split.
  { repeat constructor; cbn in *; intuition congruence. } split.
  { split; [unfold v; now rewrite map_length, seq_length|]. split; [intros i Li; rewrite Hv by auto; destruct (hot i); auto|]. exists (ri t3 (m - 1)%nat). pose proof (Hri t3 (m - 1)%nat). split; [lia|]. rewrite Hv by lia. unfold hot. now rewrite Nat.eqb_refl. }
  destruct simplex.
  - rewrite numbers_some in Es. apply bind_ok in Es as (x & Ex & Es). apply ok_inj in Es as <-. eauto.
  - apply ok_inj in Es as <-. unfold unit_abs. rewrite numbers_some, suml_sum. set (q := S_Ens.sum (map (fun a => a * a) v)).
    assert (0 <= q) as Q by (unfold q; generalize v; intro l; induction l; cbn; nra). destruct (Req_dec q 0) as [Zq|Nq].
    + right. split; [now apply squares_zero|]. rewrite Zq, sqrt_0. apply map_ext. intro x. unfold bop_el. destruct (Req_EM_T 0 0); [reflexivity|congruence].
    + left. exists (map (fun a => Rabs a / sqrt q) v). assert (0 < sqrt q) by (apply sqrt_lt_R0; lra). split; [exists (sqrt q); split; [auto|]; split; [now apply sqrt_sqrt|reflexivity]|]. rewrite map_map. apply map_ext. intro x. unfold bop_el. destruct (Req_EM_T (sqrt q) 0); [lra|]. cbn [lift1]. f_equal. unfold Rdiv. rewrite Rabs_mult, (Rabs_pos_eq (/ sqrt q)); [reflexivity|]. left. now apply Rinv_0_lt_compat.
Qed.
Lemma c107_candidate_ex : exists s, new_sample rix rrx 1 1 false (map Some [rrx 0]) (map (map Some) [[rrx 0]; [rrx 1]; [rrx 2]; [rrx 3]]) 4 = Ok (Some (s, 9%nat)) /\ (forall t b, (rix t b <= b)%nat) /\ (forall p, In p [[rrx 0]; [rrx 1]; [rrx 2]; [rrx 3]] -> length p = 1%nat).
Proof.
  destruct (sample_x 4 eq_refl _ eq_refl) as (v & E & _). exists [Some v]. split; [exact E|]. split; [intros t b; unfold rix; lia|]. intros p [<-|[<-|[<-|[<-|[]]]]]; reflexivity.
Qed.
