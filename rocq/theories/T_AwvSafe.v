(** Property lemmas for the safety of automatic weighting: C142. *)
From Coq Require Import ZArith Bool List Reals Lra Lia Permutation.
From Verif Require Import Base ListLib L_Vec M_Data S_Data M_Point Loop L_Valid M_Valid T_Valid M_Knn L_Knn M_Ens S_Ens T_Ens M_Dsm T_Dsm M_Awv S_Awv T_Awv.
Import ListNotations.
Local Open Scope R_scope.

(** *** every step has a result *)
Lemma rsort_len l : length (rsort l) = length l.
Proof. apply Permutation_length. apply isort_perm. Qed.
Lemma projection_total y : (2 <= length y)%nat -> exists x, simplex_projection y = Ok x /\ length x = length y /\ Forall (fun v => 0 <= v) x.
Proof.
  intro L. assert (exists x, simplex_projection y = Ok x) as (x & E).
  { unfold simplex_projection. destruct (Nat.ltb_spec (length y) 2); [lia|]. destruct (rev (rsort y)) as [|a us] eqn:Q; [apply (f_equal (@length _)) in Q; rewrite rev_length, rsort_len in Q; cbn in Q; lia|]. destruct (simplex_scan us 2 0). eauto. }
  exists x. split; [auto|]. now apply c54_nonneg.
Qed.
Lemma find_pos_lt c l : In c l -> (find_pos c l < length l)%nat.
Proof. induction l as [|x l IH]; intros []; cbn. - subst. rewrite Z.eqb_refl. lia. - destruct (Z.eqb x c); [lia|]. apply IH in H. lia. Qed.
Lemma wcast_total w cl pr : incl pr cl -> (length pr <= length w)%nat -> forall l v, length v = length cl -> (forall i, In i l -> (i < length pr)%nat) -> exists v', ofold (wcast w cl pr) l v = Ok v' /\ length v' = length cl.
Proof.
  intros I Lw l. induction l as [|i l IH]; intros v Lv Hl; [exists v; auto|]. cbn [ofold]. unfold wcast at 1.
  destruct (nth_error pr i) as [p|] eqn:Ep; [|apply nth_error_None in Ep; specialize (Hl i (or_introl eq_refl)); lia]. unfold vget. rewrite Ep. cbn [obind]. cbv zeta.
  pose proof (find_pos_lt p cl (I p (nth_error_In _ _ Ep))) as Fp. unfold pat.
  destruct (nth_error v (find_pos p cl)) eqn:Q; [|apply nth_error_None in Q; lia]. cbn [obind]. specialize (Hl i (or_introl eq_refl)) as Hi. destruct (nth_error w i) as [x|] eqn:Q2; [|apply nth_error_None in Q2; lia]. cbn [obind].
  destruct (upd_lt (find_pos p cl) (fun v => lift2 (bop_el Add) v x) v ltac:(lia)) as (r & U). unfold vupd. rewrite U. cbn [obind]. apply IH; [rewrite (upd_length _ _ _ _ U); auto|]. intros j Hj. apply Hl. now right.
Qed.
Lemma best_from_lt l : forall b bi i, (bi < i)%nat -> (best_from b bi i l < i + length l)%nat.
Proof. induction l as [|x l IH]; intros b bi i H; cbn; [lia|]. destruct (nan_lt b x); [specialize (IH x i (S i))|specialize (IH b bi (S i))]; lia. Qed.
Lemma best_index_lt l : l <> [] -> (best_index l < length l)%nat.
Proof. destruct l as [|x l]; [congruence|]. intros _. cbn [best_index length]. pose proof (best_from_lt l x 0 1). lia. Qed.
Lemma soft_safe w cl pr : incl pr cl -> length w = length pr -> pr <> [] -> exists c, soft_vote w cl pr = Ok c.
Proof.
  intros I L NE. unfold soft_vote. destruct (Nat.eqb_spec (length w) 0) as [Z|_]; [destruct pr; [congruence|cbn in *; lia]|].
  destruct (wcast_total w cl pr I ltac:(lia) (seq 0 (length pr)) (repeat (Some 0) (length cl))) as (v & -> & Lv); [apply repeat_length|intros i Hi; apply in_seq in Hi; lia|]. cbn [obind].
  assert (v <> []) as NV. { intros ->. destruct pr as [|p pr]; [congruence|]. destruct cl; [destruct (I p (or_introl eq_refl))|discriminate]. }
  apply best_index_lt in NV. unfold vget. destruct (nth_error cl (best_index v)) eqn:Q; [eauto|]. apply nth_error_None in Q. lia.
Qed.
Lemma ofold_total {A B} (f : B -> A -> outcome B) l : (forall b a, In a l -> exists b', f b a = Ok b') -> forall b, exists b', ofold f l b = Ok b'.
Proof. induction l as [|a l IH]; intros H b; cbn [ofold]; [eauto|]. destruct (H b a (or_introl eq_refl)) as (b' & ->). cbn [obind]. apply IH. intros; apply H. now right. Qed.
Lemma map_outcome_total {A B} (f : A -> outcome B) l : (forall a, In a l -> exists b, f a = Ok b) -> exists r, map_outcome f l = Ok r.
Proof. induction l as [|a l IH]; intro H; cbn [map_outcome]; [eauto|]. destruct (H a (or_introl eq_refl)) as (b & ->). cbn [obind]. destruct IH as (r & ->); [intros; apply H; now right|]. cbn [obind]. eauto. Qed.

Section Safe.
Context {T : Type} (m : nat) (fit : nat -> data T -> point T -> Z) (tr te : data T) (ri : nat -> nat -> nat) (rr : nat -> R) (fuel : nat) (simplex : bool).
Hypothesis Hri : forall t b, (ri t b <= b)%nat.
Hypothesis Hm : (if simplex then 2 <= m else 1 <= m)%nat.
Hypothesis Known : forall p, In p (d_points te) -> forall i, (i < m)%nat -> In (fit i tr p) (d_classes tr).
Definition sound (v : wvec) : Prop := length v = m /\ (simplex = true -> exists w, v = map Some w /\ Forall (fun x => 0 <= x) w).
Lemma m_pos : (1 <= m)%nat. Proof. clear - Hm. destruct simplex; lia. Qed.
Lemma objective_safe v : length v = m -> exists c, objective m fit tr te v = Ok c.
Proof using Hm Known.
  pose proof m_pos as P. intro L. unfold objective. rewrite L, Nat.eqb_refl. unfold right_count.
  destruct (ofold_total (fun acc p => let* c := soft_vote v (d_classes tr) (answers m fit tr p) in Ok (if Z.eqb c (p_y p) then S acc else acc)) (d_points te)) with (b := 0%nat) as (n & ->); [|cbn [obind]; eauto].
  intros acc p Hp. destruct (soft_safe v (d_classes tr) (answers m fit tr p)) as (c & ->); [| | |cbn [obind]; eauto].
  - intros x Hx. unfold answers in Hx. apply in_map_iff in Hx as (i & <- & Hi). apply in_seq in Hi. apply Known; [auto|lia].
  - unfold answers. now rewrite map_length, seq_length.
  - intro Q. apply (f_equal (@length _)) in Q. unfold answers in Q. rewrite map_length, seq_length in Q. cbn in Q. lia.
Qed.
Lemma eval_safe pop : Forall sound pop -> exists c, eval_population m fit tr te pop = Ok c /\ length c = length pop.
Proof using Hm Known.
  intro F. destruct (map_outcome_total (objective m fit tr te) pop) as (c & E); [intros v Hv; apply objective_safe; rewrite Forall_forall in F; now apply F|]. exists c. split; [exact E|]. now apply map_outcome_len in E.
Qed.
Lemma best_safe pop costs : Forall sound pop -> pop <> [] -> length costs = length pop -> exists b, get_best_solution pop costs = Ok b /\ sound (fst b).
Proof using.
  intros F N L. assert (costs <> []) as NC by (intros ->; destruct pop; [congruence|discriminate]). apply best_index_lt in NC. unfold get_best_solution, vget.
  destruct (nth_error pop _) as [v|] eqn:Q; [|apply nth_error_None in Q; lia]. destruct (nth_error costs _) as [c|] eqn:Q2; [|apply nth_error_None in Q2; lia]. cbn [obind]. eexists. split; [reflexivity|]. cbn. rewrite Forall_forall in F. apply F. eapply nth_error_In; eauto.
Qed.
Lemma pick_safe pop : pop <> [] -> Forall sound pop -> forall f excl t, exists r, pick_parent ri f excl pop t = Ok r /\ match r with None => True | Some (v, _) => sound v end.
Proof using Hri.
  intros N F. induction f as [|f IH]; intros excl t; cbn [pick_parent]; [exists None; auto|]. pose proof (Hri t (length pop - 1)). unfold vget.
  destruct (nth_error pop _) as [v|] eqn:Q; [|apply nth_error_None in Q; destruct pop; [congruence|cbn in *; lia]]. cbn [obind]. destruct (existsb _ _); [apply IH|]. eexists. split; [reflexivity|]. cbn. rewrite Forall_forall in F. apply F. eapply nth_error_In; eauto.
Qed.
Lemma parents_safe p0 pop t : pop <> [] -> Forall sound pop -> exists r, parents ri fuel p0 pop t = Ok r /\ match r with None => True | Some (a, b, c, _) => sound a /\ sound b /\ sound c end.
Proof using Hri.
  intros N F. unfold parents. destruct (pick_safe pop N F fuel [p0] t) as ([(a & t1)|] & -> & Sa); cbn [obind]; [|exists None; auto].
  destruct (pick_safe pop N F fuel [p0; a] t1) as ([(b & t2)|] & -> & Sb); cbn [obind]; [|exists None; auto]. destruct (pick_safe pop N F fuel [p0; a; b] t2) as ([(c & t3)|] & -> & Sc); cbn [obind]; [|exists None; auto]. exists (Some (a, b, c, t3)). split; [reflexivity|]. split; [exact Sa|]. split; [exact Sb|exact Sc].
Qed.
Lemma pat_total {A} (v : list A) i : (i < length v)%nat -> exists x, pat v i = Ok x /\ nth_error v i = Some x.
Proof. intro H. unfold pat. destruct (nth_error v i) eqn:Q; [eauto|]. apply nth_error_None in Q. lia. Qed.
Definition isnum (x : option R) : Prop := x <> None.
Lemma numbers_of v : Forall isnum v -> exists w, numbers v = Some w /\ length w = length v.
Proof. induction 1 as [|[x|] l H F (w & IH & L)]; cbn; [exists []; auto| |now destruct H]. rewrite IH. exists (x :: w). cbn. auto. Qed.
Lemma isnum_some w : Forall isnum (map Some w).
Proof. induction w; cbn; constructor; [discriminate|auto]. Qed.
Lemma cross_safe p0 p1 p2 p3 t : sound p0 -> sound p1 -> sound p2 -> sound p3 -> exists v, cross ri rr m p0 p1 p2 p3 t = Ok v /\ length v = m /\ (simplex = true -> Forall isnum v).
Proof using.
  intros (L0 & N0) (L1 & N1) (L2 & N2) (L3 & N3). unfold cross. match goal with |- context [map_outcome ?g _] => set (f := g) end.
  assert (forall i, In i (seq 0 m) -> exists y, f i = Ok y /\ (simplex = true -> isnum y)) as H.
  { intros i Hi. apply in_seq in Hi. unfold f. destruct (pat_total p0 i ltac:(lia)) as (x0 & -> & G0). destruct (pat_total p1 i ltac:(lia)) as (x1 & -> & G1). destruct (pat_total p2 i ltac:(lia)) as (x2 & -> & G2). destruct (pat_total p3 i ltac:(lia)) as (x3 & -> & G3).
    cbn [obind]. assert (forall p x, (simplex = true -> exists w, p = map Some w /\ Forall (fun x => 0 <= x) w) -> nth_error p i = Some x -> simplex = true -> isnum x) as K.
    { intros p x Hp Hx E. destruct (Hp E) as (w & -> & _). pose proof (isnum_some w) as W. rewrite Forall_forall in W. apply W. eapply nth_error_In; eauto. }
    destruct (orb _ _); [|exists x0; split; [auto|eauto]]. eexists. split; [reflexivity|]. intro E. pose proof (K p3 x3 N3 G3 E). pose proof (K p1 x1 N1 G1 E). pose proof (K p2 x2 N2 G2 E). unfold isnum in *. destruct x1, x2, x3; try congruence. cbn. discriminate. }
  destruct (map_outcome_all (fun _ y => simplex = true -> isnum y) f (seq 0 m) H) as (v & E & F). exists v. split; [exact E|]. split; [rewrite (map_outcome_len _ _ _ E); apply seq_length|].
  intro S. clear - F S. induction F; constructor; auto.
Qed.
Lemma sample_safe p0 pop t : sound p0 -> pop <> [] -> Forall sound pop -> exists r, new_sample ri rr fuel m simplex p0 pop t = Ok r /\ match r with None => True | Some (v, _) => sound v end.
Proof using Hri Hm.
  intros S0 N F. unfold new_sample. destruct (parents_safe p0 pop t N F) as ([(((a & b) & c) & t3)|] & -> & P); cbn [obind]; [|exists None; auto]. destruct P as (Sa & Sb & Sc).
  destruct (cross_safe p0 a b c t3 S0 Sa Sb Sc) as (v & -> & Lv & Nv). cbn [obind]. unfold sound. destruct simplex.
  - destruct (numbers_of v (Nv eq_refl)) as (w & -> & Lw). destruct (projection_total (map Rabs w)) as (x & -> & Lx & Px); [rewrite map_length; lia|]. cbn [obind]. eexists. split; [reflexivity|]. cbn. rewrite map_length in *. split; [lia|]. intros _. eauto.
  - cbn [obind]. eexists. split; [reflexivity|]. cbn. split; [|discriminate]. unfold unit_abs. destruct (numbers v) eqn:Q; rewrite map_length; [|auto]. clear - Q Lv. rewrite <- Lv. clear Lv. revert l Q. induction v as [|[x|] v IH]; intros l Q; cbn in Q; [injection Q as <-; reflexivity| |discriminate]. destruct (numbers v); [|discriminate]. injection Q as <-. cbn. now rewrite (IH l0).
Qed.
(** The object holds as many costs as vectors, at least one, all sound. *)
Definition fine (np : nat) (s : awv) : Prop := length (a_pop s) = np /\ Forall sound (a_pop s) /\ length (a_costs s) = np /\ sound (fst (a_best s)).
Lemma breed_safe np s : (0 < np)%nat -> fine np s -> forall n, (n <= np)%nat -> exists r, ofold (breed m fit tr te ri rr fuel simplex s) (seq 0 n) (Some ([], a_t s)) = Ok r /\ match r with None => True | Some (pop, _) => length pop = n /\ Forall sound pop end.
Proof using Hri Hm Known.
  intros Pn (Lp & F & Lc & Sb). assert (a_pop s <> []) as N by (intro Q; rewrite Q in Lp; cbn in Lp; lia).
  induction n as [|n IH]; intro Hn; [eexists; split; [reflexivity|]; cbn; auto|]. destruct IH as (r & E & P); [lia|]. rewrite seq_S, ofold_app, E. cbn [obind ofold Nat.add]. destruct r as [(pop & t)|]; cbn [breed obind]; [|exists None; auto]. destruct P as (Ln & Fn).
  destruct (sample_safe (fst (a_best s)) (a_pop s) t Sb N F) as ([(v & t')|] & -> & Sv); cbn [obind]; [|exists None; auto].
  destruct (objective_safe v (proj1 Sv)) as (c & ->). cbn [obind]. unfold vget. destruct (nth_error (a_costs s) n) as [ci|] eqn:Q; [|apply nth_error_None in Q; lia]. destruct (nth_error (a_pop s) n) as [old|] eqn:Q2; [|apply nth_error_None in Q2; lia]. cbn [obind].
  eexists. split; [reflexivity|]. cbv iota beta. rewrite app_length. cbn [length]. split; [lia|]. apply Forall_app. split; [auto|]. constructor; [|constructor]. destruct (nan_le c ci); [auto|]. rewrite Forall_forall in F. apply F. eapply nth_error_In; eauto.
Qed.
Lemma generation_safe np g s : (0 < np)%nat -> fine np s -> exists r, generation m fit tr te ri rr fuel simplex g s = Ok r /\ match r with None => True | Some s' => fine np s' end.
Proof using Hri Hm Known.
  intros Pn K. unfold generation. destruct (breed_safe np s Pn K np (le_n _)) as (r & E & P). destruct K as (Lp & F & Lc & Sb). rewrite Lp, E. cbn [obind]. destruct r as [(pop & t)|]; [|exists None; auto]. destruct P as (Ln & Fn).
  destruct (eval_safe pop Fn) as (c & -> & Lc'). cbn [obind]. destruct (best_safe pop c Fn) as (b & -> & Sb'); [intros ->; cbn in *; lia|auto|]. cbn [obind]. eexists. split; [reflexivity|]. cbv iota beta. destruct (nan_lt _ _); unfold fine; cbn [a_pop a_costs a_best]; repeat split; auto; try lia; apply Sb || apply Sb'.
Qed.
Lemma generations_safe np : (0 < np)%nat -> forall left g s, fine np s -> exists r, generations m fit tr te ri rr fuel simplex left g s = Ok r /\ match r with None => True | Some s' => fine np s' end.
Proof using Hri Hm Known.
  intros Pn. induction left as [|l IH]; intros g s K; cbn [generations]; [exists (Some s); auto|]. destruct (generation_safe np g s Pn K) as (r & -> & P). cbn [obind]. destruct r as [s'|]; [|exists None; auto]. destruct (match snd (a_best s') with Some x => _ | None => false end); [exists (Some s'); auto|]. now apply IH.
Qed.
Lemma init_safe np : exists pop, init_population rr m np simplex = Ok pop /\ length pop = np /\ Forall sound pop.
Proof using Hm.
  assert (forall i, In i (seq 0 np) -> exists v, init_vector rr m (i * m) simplex = Ok v /\ sound v) as H.
  { intros i _. unfold init_vector, sound. destruct simplex.
    - destruct (projection_total (map rr (seq (i * m) m))) as (x & -> & Lx & Px); [rewrite map_length, seq_length; auto|]. cbn [obind]. eexists. split; [reflexivity|]. rewrite map_length in *. rewrite seq_length in Lx. split; [auto|]. intros _. eauto.
    - eexists. split; [reflexivity|]. rewrite !map_length, seq_length. split; [auto|discriminate]. }
  destruct (map_outcome_all (fun _ v => sound v) _ _ H) as (pop & E & F). exists pop. split; [exact E|]. split; [rewrite (map_outcome_len _ _ _ E); apply seq_length|]. clear - F. induction F; constructor; auto.
Qed.
Lemma search_safe np max_it : (0 < np)%nat -> exists r, search m fit ri rr fuel np max_it simplex tr te = Ok r /\ match r with None => True | Some s => fine np s end.
Proof using Hri Hm Known.
  intro Pn. unfold search. destruct (init_safe np) as (pop & -> & Lp & F). cbn [obind]. destruct (eval_safe pop F) as (c & -> & Lc). cbn [obind]. destruct (best_safe pop c F) as (b & -> & Sb); [intros ->; cbn in Lp; lia|auto|]. cbn [obind].
  destruct (generations_safe np Pn max_it 0 (mkAwv pop c b 0 (np * m))) as (r & -> & P); [unfold fine; cbn [a_pop a_costs a_best]; repeat split; auto; try lia; apply Sb|]. cbn [obind]. destruct r as [s|]; [|exists None; auto].
  destruct (objective_safe (fst (a_best s))) as (o & ->); [apply P|]. cbn [obind]. exists (Some s). auto.
Qed.
End Safe.

(** C142: training the automatic weighting never fails and never leaves defined behaviour once the samples are split, if the members answer classes of the training part; every vector of the population has one weight per member, and in the projected mode its weights are numbers, none negative. *)
Lemma c142_safe : forall (T : Type) gen dev seed m fit ri rr fuel np max_it (simplex : bool) (d tr te : data T),
  (forall t b, (ri t b <= b)%nat) -> (if simplex then 2 <= m else 1 <= m)%nat -> (0 < np)%nat -> split gen dev seed d = Ok (tr, te) ->
  (forall p, In p (d_points te) -> forall i, (i < m)%nat -> In (fit i tr p) (d_classes tr)) ->
  awv_train gen dev seed m fit ri rr fuel np max_it simplex d = Ok None \/
  exists s, awv_train gen dev seed m fit ri rr fuel np max_it simplex d = Ok (Some (tr, te, s)) /\ length (a_pop s) = np /\
    forall v, In v (a_pop s) -> length v = m /\ (simplex = true -> exists w, v = map Some w /\ Forall (fun x => 0 <= x) w).
Proof.
  intros T gen dev seed m fit ri rr fuel np max_it simplex d tr te Hri Hm Pn E K. destruct (search_safe m fit tr te ri rr fuel simplex Hri Hm K np max_it Pn) as (r & Es & P). unfold awv_train. rewrite E. cbn [obind]. rewrite Es. cbn [obind].
  destruct r as [s|]; [right|left; reflexivity]. exists s. split; [reflexivity|]. destruct P as (L & F & _). split; [auto|]. intros v Hv. rewrite Forall_forall in F. exact (F v Hv).
Qed.
(** C142: with one member the projected mode stops on a failed assertion; so does either mode without members. *)
Lemma c142_one_refuted : forall (T : Type) gen dev seed m fit ri rr fuel np max_it (simplex : bool) (d tr te : data T),
  (0 < np)%nat -> split gen dev seed d = Ok (tr, te) -> (simplex = true /\ m < 2 \/ m = 0 /\ d_points te <> [])%nat -> awv_train gen dev seed m fit ri rr fuel np max_it simplex d = Abort.
Proof.
  intros T gen dev seed m fit ri rr fuel np max_it simplex d tr te Pn E H. unfold awv_train. rewrite E. cbn [obind]. unfold search, init_population. destruct np as [|np]; [lia|]. cbn [seq map_outcome].
  assert (simplex = true /\ (m < 2)%nat \/ simplex = false /\ m = 0%nat /\ d_points te <> []) as [(-> & L)|(-> & -> & N)] by (destruct simplex; [left; split; auto; destruct H as [H|H]; lia|destruct H as [H|H]; [destruct H; discriminate|right; tauto]]).
  - unfold init_vector at 1. rewrite c54_short_refuted by (rewrite map_length, seq_length; auto). reflexivity.
  - unfold init_vector at 1. cbn [map seq obind]. destruct (map_outcome_total (fun i => init_vector rr 0 (i * 0) false) (seq 1 np)) as (r & ->); [intros; unfold init_vector; eauto|]. cbn [obind]. unfold eval_population at 1. cbn [map_outcome]. unfold objective at 1. cbn [length Nat.eqb]. unfold right_count. destruct (d_points te) as [|p ps]; [congruence|]. reflexivity.
Qed.
(** C142: the hypotheses hold of the split of C107, with two members. *)
Lemma c142_safe_ex : (forall t b, (rix t b <= b)%nat) /\ split genx 0 1 d10 = Ok (fst partsx, snd partsx) /\ (forall p, In p (d_points (snd partsx)) -> forall i, (i < 2)%nat -> In (fitx i (fst partsx) p) (d_classes (fst partsx))) /\ d_points (snd partsx) <> [].
Proof.
  split; [intros t b; unfold rix; lia|]. split; [apply partsx_ok|]. destruct tex_ok as (C & p & P & Y). rewrite C, P. split; [|discriminate]. intros q _ i _. now left.
Qed.
