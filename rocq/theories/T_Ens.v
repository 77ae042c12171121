(** Property lemmas for ensembles: C52, C53, C54, C82, C83. *)
From Coq Require Import ZArith Bool List Reals Lra Lia Psatz Permutation Sorted.
From Verif Require Import Base ListLib M_Data L_Vec Loop L_Valid M_Knn L_Knn M_Ens S_Ens.
Import ListNotations.
Local Open Scope R_scope.

(** *** largest element *)
Lemma max_from_ok l : forall pre b bi, nth_error pre bi = Some b -> (forall i x, nth_error pre i = Some x -> x <= b) -> (forall i x, (i < bi)%nat -> nth_error pre i = Some x -> x < b) ->
  let j := max_from b bi (length pre) l in exists v, nth_error (pre ++ l) j = Some v /\ (forall i x, nth_error (pre ++ l) i = Some x -> x <= v) /\ (forall i x, (i < j)%nat -> nth_error (pre ++ l) i = Some x -> x < v).
Proof.
  induction l as [|x l IH]; intros pre b bi E A B; cbn [max_from].
  - rewrite app_nil_r. exists b. auto.
  - assert (bi < length pre)%nat as Lb by (apply nth_error_Some; congruence). replace (pre ++ x :: l) with ((pre ++ [x]) ++ l) by now rewrite <- app_assoc. replace (S (length pre)) with (length (pre ++ [x])) by (rewrite app_length; cbn; lia).
    assert (forall i y, nth_error (pre ++ [x]) i = Some y -> (i < length pre)%nat /\ nth_error pre i = Some y \/ i = length pre /\ y = x) as C.
    { intros i y Q. destruct (Nat.lt_ge_cases i (length pre)); [left; split; [auto|now rewrite nth_error_app1 in Q]|]. right. rewrite nth_error_app2 in Q by auto.
      destruct (i - length pre)%nat eqn:Z; [|cbn in Q; destruct n; discriminate]. injection Q as <-. split; [lia|auto]. }
    destruct (Rlt_dec b x) as [Q|Q]; apply IH.
    + rewrite nth_error_app2, Nat.sub_diag by auto. reflexivity.
    + intros i y Hi. destruct (C i y Hi) as [[_ Z]|[_ ->]]; [apply A in Z; lra|lra].
    + intros i y Hi Z. destruct (C i y Z) as [[_ Z']|[-> _]]; [apply A in Z'; lra|lia].
    + now rewrite nth_error_app1.
    + intros i y Hi. destruct (C i y Hi) as [[_ Z]|[_ ->]]; [apply A in Z; lra|lra].
    + intros i y Hi Z. destruct (C i y Z) as [[_ Z']|[-> _]]; [apply (B i); auto|lia].
Qed.
Lemma max_element_ok l : l <> [] -> exists v, nth_error l (max_element l) = Some v /\ (forall i x, nth_error l i = Some x -> x <= v) /\ (forall i x, (i < max_element l)%nat -> nth_error l i = Some x -> x < v).
Proof.
  destruct l as [|x l]; [congruence|]. intros _. apply (max_from_ok l [x] x 0); [reflexivity| |].
  - intros [|[|i]] y E; cbn in E; try discriminate; injection E as <-; lra.
  - intros i y Hi; lia.
Qed.
Lemma max_class classes (value : Z -> R) : classes <> [] -> exists c, vget classes (max_element (map value classes)) = Ok c /\ first_largest classes value c.
Proof.
  intro N. assert (map value classes <> []) as N' by (destruct classes; [congruence|discriminate]). destruct (max_element_ok _ N') as (v & E & A & B). set (j := max_element _) in *.
  rewrite nth_error_map in E. destruct (nth_error classes j) as [c|] eqn:Ec; [|discriminate]. cbn in E. injection E as <-. exists c. unfold vget. rewrite Ec. split; [reflexivity|].
  apply nth_error_split in Ec as Sp. destruct Sp as (b & a & Eq & Lb). exists b, a. split; [auto|]. split.
  - intros x Hx. apply In_nth_error in Hx as (i & Ei). assert (i < length b)%nat by (apply nth_error_Some; congruence). apply (B i); [lia|]. rewrite nth_error_map, Eq, nth_error_app1 by auto. now rewrite Ei.
  - intros x Hx. apply In_nth_error in Hx as (i & Ei). apply (A (length b + S i)%nat). rewrite nth_error_map, Eq, nth_error_app2 by lia. replace (length b + S i - length b)%nat with (S i) by lia. cbn. now rewrite Ei.
Qed.

(** *** votes *)
Lemma weight_for_snoc ws ps w p c : length ws = length ps -> weight_for (ws ++ [w]) (ps ++ [p]) c = weight_for ws ps c + (if Z.eq_dec p c then w else 0).
Proof. revert ps. induction ws as [|x ws IH]; intros [|q ps] L; try discriminate; cbn [app weight_for]; [cbn; lra|]. rewrite IH by (cbn in L; lia). lra. Qed.
Lemma weight_for_tail ws ps tl c : length ws = length ps -> weight_for (ws ++ tl) ps c = weight_for ws ps c.
Proof. revert ps. induction ws as [|x ws IH]; intros [|q ps] L; try discriminate; cbn [app weight_for]; [destruct tl; reflexivity|]. rewrite IH by (cbn in L; lia). reflexivity. Qed.
Lemma add_at classes (value : Z -> R) p w : NoDup classes -> In p classes ->
  vupd (find_pos p classes) (fun v => v + w) (map value classes) = Ok (map (fun c => value c + (if Z.eq_dec p c then w else 0)) classes).
Proof.
  intros ND. induction classes as [|c r IH]; intro H; [destruct H|]. destruct H as [->|H]; cbn [find_pos map].
  - rewrite Z.eqb_refl. unfold vupd. cbn [upd]. inversion ND; subst. destruct (Z.eq_dec p p); [|congruence]. f_equal. f_equal. apply map_ext_in. intros a Ha. destruct (Z.eq_dec p a) as [<-|]; [contradiction|lra].
  - inversion ND; subst. destruct (Z.eqb_spec c p) as [->|N]; [contradiction|]. specialize (IH H3 H). unfold vupd in *. cbn [upd]. destruct (upd _ _ _) as [l|]; [|discriminate]. injection IH as ->. destruct (Z.eq_dec p c) as [->|_]; [congruence|]. now rewrite Rplus_0_r.
Qed.
Lemma votes_ok weights classes preds : NoDup classes -> incl preds classes -> (length preds <= length weights)%nat ->
  ofold (cast weights classes preds) (seq 0 (length preds)) (repeat 0 (length classes)) = Ok (map (weight_for weights preds) classes).
Proof.
  intros ND I L.
  destruct (ofold_seq (cast weights classes preds) (fun i v => v = map (weight_for (firstn i weights) (firstn i preds)) classes) (length preds) (repeat 0 (length classes))) as (t & -> & ->).
  - cbn. clear. induction classes; cbn; congruence.
  - intros i t Hi ->. unfold cast. destruct (nth_error preds i) as [p|] eqn:Ep; [|apply nth_error_None in Ep; lia]. destruct (nth_error weights i) as [w|] eqn:Ew; [|apply nth_error_None in Ew; lia].
    unfold vget. rewrite Ep. cbn [obind]. assert (In p classes) as Hp by (apply I; eapply nth_error_In; eauto). unfold pat at 1.
    destruct (nth_error (map _ _) (find_pos p classes)) eqn:Q; [|apply nth_error_None in Q; rewrite map_length in Q; apply find_pos_In in Hp; lia]. cbn [obind]. unfold pat. rewrite Ew. cbn [obind].
    rewrite add_at by auto. eexists. split; [reflexivity|]. apply map_ext. intro c.
    assert (forall A (l : list A) k x, nth_error l k = Some x -> firstn (S k) l = firstn k l ++ [x]) as F.
    { clear. intros A l. induction l as [|y l IH]; intros [|k] x E; cbn in *; try discriminate; [now injection E as ->|]. f_equal. now apply IH. }
    rewrite (F _ _ _ _ Ep), (F _ _ _ _ Ew). rewrite weight_for_snoc; [reflexivity|]. rewrite !firstn_length. lia.
  - f_equal. rewrite firstn_all. rewrite <- (firstn_skipn (length preds) weights) at 2. apply map_ext. intro c. symmetry. apply weight_for_tail. rewrite firstn_length. lia.
Qed.
(** C52: voting with the given weights: the first class of largest total weight. *)
Lemma c52_weighted : forall w classes preds, NoDup classes -> classes <> [] -> incl preds classes -> length w = length preds -> preds <> [] ->
  exists c, voter_evaluate (mkVoter w true) classes preds = Ok (mkVoter w true, c) /\ first_largest classes (weight_for w preds) c.
Proof.
  intros w classes preds ND NE I L NP. unfold voter_evaluate. cbn [vo_soft vo_weights]. destruct (Nat.eqb_spec (length w) 0) as [Q|_]; [destruct preds; [congruence|cbn in L; lia]|].
  unfold weighted_vote. rewrite votes_ok by (auto; lia). cbn [obind]. destruct (max_class classes (weight_for w preds) NE) as (c & -> & F). cbn [obind]. eauto.
Qed.
Lemma c52_weighted_ex : NoDup [1; -1; 3]%Z /\ [1; -1; 3]%Z <> [] /\ incl [3; 1]%Z [1; -1; 3]%Z /\ length [/ 4; / 2] = length [3; 1]%Z /\ [3; 1]%Z <> [].
Proof. split; [repeat constructor; cbn; lia|]. split; [discriminate|]. split; [intros x [<-|[<-|[]]]; cbn; auto|]. split; [reflexivity|discriminate]. Qed.
Lemma weight_ones preds tl c : weight_for (repeat 1 (length preds) ++ tl) preds c = INR (ballots preds c).
Proof.
  unfold ballots. induction preds as [|p ps IH]; [cbn; destruct tl; reflexivity|]. cbn [length repeat app weight_for count_occ]. rewrite IH. destruct (Z.eq_dec p c); [rewrite S_INR; lra|lra].
Qed.
Lemma first_largest_ext classes f g c : (forall x, f x = g x) -> first_largest classes f c -> first_largest classes g c.
Proof. intros E (b & a & Q & B & A). exists b, a. split; [auto|]. split; intros x Hx; rewrite <- !E; auto. Qed.
(** C52: hard voting, committees and bagging: the first class with the most learners, whatever weights were set before. *)
Lemma c52_hard : forall w classes preds, NoDup classes -> classes <> [] -> incl preds classes ->
  exists v c, voter_evaluate (mkVoter w false) classes preds = Ok (v, c) /\ first_largest classes (fun x => INR (ballots preds x)) c.
Proof.
  intros w classes preds ND NE I. unfold voter_evaluate. cbn [vo_soft vo_weights]. unfold weighted_vote. rewrite votes_ok by (auto; rewrite app_length, repeat_length; lia). cbn [obind].
  destruct (max_class classes (weight_for (repeat 1 (length preds) ++ skipn (length preds) w) preds) NE) as (c & -> & F). cbn [obind]. do 2 eexists. split; [reflexivity|].
  eapply first_largest_ext; [|exact F]. intro x. apply weight_ones.
Qed.
Lemma c52_hard_ex : NoDup [1; -1; 3]%Z /\ [1; -1; 3]%Z <> [] /\ incl [3; 3; 1]%Z [1; -1; 3]%Z.
Proof. split; [repeat constructor; cbn; lia|]. split; [discriminate|]. intros x [<-|[<-|[<-|[]]]]; cbn; auto. Qed.
Lemma c52_committee : forall classes preds, NoDup classes -> classes <> [] -> incl preds classes ->
  exists c, committee_evaluate classes preds = Ok c /\ first_largest classes (fun x => INR (ballots preds x)) c.
Proof.
  intros classes preds ND NE I. unfold committee_evaluate.
  match goal with |- context [ofold ?f _ _] => set (step := f) end.
  destruct (ofold_list step (fun done v => v = map (fun x => INR (ballots done x)) classes) preds (repeat 0 (length classes))) as (t & -> & ->).
  - cbn. clear. induction classes; cbn; congruence.
  - intros d p r t E ->. unfold step. cbv zeta. assert (In p classes) as Hp by (apply I; rewrite E; apply in_or_app; right; now left). unfold pat.
    destruct (nth_error (map _ _) (find_pos p classes)) eqn:Q; [|apply nth_error_None in Q; rewrite map_length in Q; apply find_pos_In in Hp; lia]. cbn [obind]. rewrite (add_at classes (fun x => INR (ballots d x)) p 1) by auto.
    eexists. split; [reflexivity|]. apply map_ext. intro c. unfold ballots. rewrite count_occ_app. cbn [count_occ]. destruct (Z.eq_dec p c); rewrite plus_INR; cbn [INR]; lra.
  - cbn [obind]. apply max_class; auto.
Qed.
Lemma c52_committee_ex : NoDup [1; -1; 3]%Z /\ [1; -1; 3]%Z <> [] /\ incl [3; 3; 1]%Z [1; -1; 3]%Z.
Proof. apply c52_hard_ex. Qed.
(** C52: so a class with a strict majority is returned. *)
Lemma ballots_two preds a b : a <> b -> (ballots preds a + ballots preds b <= length preds)%nat.
Proof. intro N. unfold ballots. induction preds as [|p ps IH]; cbn; [lia|]. destruct (Z.eq_dec p a), (Z.eq_dec p b); try congruence; cbn; lia. Qed.
Lemma c52_majority : forall w classes preds v c m, NoDup classes -> incl preds classes -> voter_evaluate (mkVoter w false) classes preds = Ok (v, c) ->
  (length preds < 2 * ballots preds m)%nat -> c = m.
Proof.
  intros w classes preds v c m ND I E M. assert (In m preds) as Hm by (apply (count_occ_In Z.eq_dec); unfold ballots in M; lia).
  assert (classes <> []) as NE by (intro; subst; destruct (I m Hm)). destruct (c52_hard w classes preds ND NE I) as (v' & c' & E' & (b & a & Q & B & A)). rewrite E in E'. injection E' as <- <-.
  destruct (Z.eq_dec c m) as [|N]; [auto|]. exfalso. assert (In m classes) as Hc by auto. rewrite Q in Hc. pose proof (ballots_two preds c m N) as T. assert (ballots preds m <= ballots preds c)%nat; [|lia].
  apply in_app_or in Hc as [Hc|[Hc|Hc]]; [specialize (B m Hc); apply INR_lt in B; lia|congruence|specialize (A m Hc); now apply INR_le in A].
Qed.
Lemma c52_majority_ex : exists v c, voter_evaluate (mkVoter [] false) [1; -1; 3]%Z [3; 3; 1]%Z = Ok (v, c) /\ (length [3; 3; 1]%Z < 2 * ballots [3; 3; 1]%Z 3)%nat.
Proof. destruct c52_hard_ex as (A & B & C). destruct (c52_hard [] _ _ A B C) as (v & c & E & _). exists v, c. split; [exact E|]. cbn. lia. Qed.
(** C52: the guard: a learner that answers something else than a class of the training data fails an assertion. *)
Lemma c52_unknown_refuted : forall w soft classes p, ~ In p classes -> length w = 1%nat -> voter_evaluate (mkVoter w soft) classes [p] = Abort.
Proof.
  intros w soft classes p N L. assert (forall w', ofold (cast w' classes [p]) (seq 0 1) (repeat 0 (length classes)) = Abort) as X.
  { intro w'. cbn [seq ofold]. unfold cast. cbn [vget nth_error obind]. unfold pat at 1. assert (find_pos p classes = length classes) as -> by (apply find_pos_eqb_true in N; now apply Nat.eqb_eq). now rewrite (proj2 (nth_error_None _ _)) by (rewrite repeat_length; lia). }
  unfold voter_evaluate. cbn [vo_soft vo_weights]. unfold weighted_vote. cbn [length]. destruct soft; rewrite X; [|reflexivity]. rewrite L. reflexivity.
Qed.
Lemma c52_unknown_refuted_ex : ~ In 2%Z [1; -1]%Z /\ length [1] = 1%nat.
Proof. split; [cbn; lia|reflexivity]. Qed.
(** C83: an evaluation with hard voting overwrites the weights that were set: a later evaluation with soft voting uses ones. *)
Lemma c83_weights_refuted : exists w classes preds v1 v2 v3 c1 c2, set_weights (mkVoter [] true) 3 w = Ok v1 /\ weighted_vote w classes preds = Ok (-1)%Z /\
  voter_evaluate (set_voting_type v1 false) classes preds = Ok (v2, c1) /\ voter_evaluate (set_voting_type v2 true) classes preds = Ok (v3, c2) /\ c2 = 1%Z.
Proof.
  exists [1; 5; 1], [1; -1]%Z, [1; -1; 1]%Z, (mkVoter [1; 5; 1] true), (mkVoter [1; 1; 1] false), (mkVoter [1; 1; 1] true), 1%Z, 1%Z.
  split; [reflexivity|]. unfold voter_evaluate. cbn [set_voting_type vo_soft vo_weights length repeat skipn app Nat.eqb]. unfold weighted_vote.
  cbn [length seq ofold cast vget nth_error find_pos Z.eqb Pos.eqb obind pat repeat vupd upd]. unfold cast. cbn [vget nth_error find_pos Z.eqb Pos.eqb obind pat repeat vupd upd max_element max_from].
  destruct (Rlt_dec (0 + 1 + 1) (0 + 5)); [|lra]. destruct (Rlt_dec (0 + 1 + 1) (0 + 1)); [lra|]. repeat split.
Qed.
(** C83: without a hard evaluation in between, the weights that were set are used by every soft evaluation. *)
Lemma c83_weights : forall w n classes preds v, set_weights (mkVoter [] true) n w = Ok v -> NoDup classes -> classes <> [] -> incl preds classes -> length preds = n -> preds <> [] ->
  exists c, voter_evaluate v classes preds = Ok (v, c) /\ first_largest classes (weight_for w preds) c.
Proof.
  intros w n classes preds v E ND NE I L NP. unfold set_weights in E. destruct (Nat.eqb_spec (length w) n); [|discriminate]. injection E as <-. cbn [vo_soft]. apply c52_weighted; auto. congruence.
Qed.
Lemma c83_weights_ex : exists v, set_weights (mkVoter [] true) 2 [/ 4; / 2] = Ok v /\ incl [3; 1]%Z [1; -1; 3]%Z.
Proof. eexists. split; [reflexivity|]. apply c52_weighted_ex. Qed.

(** The weights last given and the type last given in a history. *)
Fixpoint last_weights (calls : list vcall) (w : list R) : list R :=
  match calls with [] => w | V_weights _ w' :: r => last_weights r w' | _ :: r => last_weights r w end.
Fixpoint last_type (calls : list vcall) (soft : bool) : bool :=
  match calls with [] => soft | V_type s :: r => last_type r s | _ :: r => last_type r soft end.
Lemma evaluate_type v classes preds v' c : voter_evaluate v classes preds = Ok (v', c) -> vo_soft v' = vo_soft v /\ (vo_soft v = true -> v' = v).
Proof.
  unfold voter_evaluate. destruct (vo_soft v) eqn:S.
  - destruct (Nat.eqb _ 0); [discriminate|]. destruct (weighted_vote _ _ _); cbn [obind]; try discriminate. intro E. injection E as <- <-. auto.
  - destruct (weighted_vote _ _ _); cbn [obind]; try discriminate. intro E. injection E as <- <-. split; [reflexivity|discriminate].
Qed.
(** C83, histories: the voting type is always the last one given. *)
Lemma c83_type : forall calls v v', voter_run calls v = Ok v' -> vo_soft v' = last_type calls (vo_soft v).
Proof.
  unfold voter_run. induction calls as [|c calls IH]; intros v v' E; cbn [ofold] in E; [injection E as <-; reflexivity|].
  destruct (vcall_run v c) as [v1| |] eqn:C; cbn [obind] in E; try discriminate. rewrite (IH _ _ E). destruct c as [n w|s|cl pr]; cbn [vcall_run last_type] in *.
  - unfold set_weights in C. destruct (Nat.eqb _ n); [|discriminate]. injection C as <-. reflexivity.
  - injection C as <-. reflexivity.
  - destruct (voter_evaluate v cl pr) as [[v2 c]| |] eqn:V; cbn [obind fst] in C; try discriminate. injection C as <-. apply evaluate_type in V as [-> _]. reflexivity.
Qed.
(** C83, histories in which every evaluation happens under soft voting: the weights are the last ones given.
    Evaluations under hard voting overwrite them: c83_weights_refuted. *)
Lemma c83_history : forall calls v v', voter_run calls v = Ok v' ->
  (forall before classes preds after, calls = before ++ V_eval classes preds :: after -> last_type before (vo_soft v) = true) ->
  vo_weights v' = last_weights calls (vo_weights v).
Proof.
  unfold voter_run. induction calls as [|c calls IH]; intros v v' E H; cbn [ofold] in E; [injection E as <-; reflexivity|].
  destruct (vcall_run v c) as [v1| |] eqn:C; cbn [obind] in E; try discriminate.
  assert (vo_soft v1 = last_type [c] (vo_soft v)) as Q. { apply c83_type. unfold voter_run. cbn [ofold]. rewrite C. reflexivity. }
  rewrite (IH v1 v' E).
  - destruct c as [n w|s|cl pr]; cbn [vcall_run last_weights] in *.
    + unfold set_weights in C. destruct (Nat.eqb _ n); [|discriminate]. injection C as <-. reflexivity.
    + injection C as <-. reflexivity.
    + destruct (voter_evaluate v cl pr) as [[v2 c]| |] eqn:V; cbn [obind fst] in C; try discriminate. injection C as <-. apply evaluate_type in V as [_ V]. rewrite V; [reflexivity|]. exact (H [] cl pr calls eq_refl).
  - intros before classes preds after ->. rewrite Q. specialize (H (c :: before) classes preds after eq_refl). destruct c; exact H.
Qed.
Lemma c83_history_ex : exists v, voter_run [V_weights 2 [/ 4; / 2]; V_type true; V_eval [1; -1; 3]%Z [3; 1]%Z] (mkVoter [] false) = Ok v.
Proof.
  destruct c52_weighted_ex as (A & B & C & D & F). destruct (c52_weighted [/ 4; / 2] [1; -1; 3]%Z [3; 1]%Z A B C D F) as (c & E & _).
  exists (mkVoter [/ 4; / 2] true). unfold voter_run. cbn [ofold]. change (vcall_run (mkVoter [] false) (V_weights 2 [/ 4; / 2])) with (Ok (mkVoter [/ 4; / 2] false)). cbn [obind].
  change (vcall_run (mkVoter [/ 4; / 2] false) (V_type true)) with (Ok (mkVoter [/ 4; / 2] true)). cbn [obind vcall_run]. rewrite E. reflexivity.
Qed.

(** *** boosting *)
Lemma fold_plus l : forall a, fold_left Rplus l a = a + sum l.
Proof. induction l as [|x l IH]; intro a; cbn; [lra|]. rewrite IH. lra. Qed.
Lemma suml_sum l : suml l = sum l.
Proof. unfold suml. rewrite fold_plus. lra. Qed.
Lemma sum_pos l : l <> [] -> Forall (fun x => 0 < x) l -> 0 < sum l.
Proof.
  intros N F. induction F as [|x l H F IH]; [congruence|]. cbn. destruct l; [cbn; lra|]. specialize (IH ltac:(discriminate)). lra.
Qed.
Lemma sum_nonneg l : Forall (fun x => 0 <= x) l -> 0 <= sum l.
Proof. induction 1; cbn; lra. Qed.
Lemma sum_map_scal c l : sum (map (fun x => x / c) l) = sum l / c.
Proof. unfold Rdiv. induction l as [|x l IH]; cbn; [lra|]. rewrite IH. lra. Qed.
Lemma sum_app a b : sum (a ++ b) = sum a + sum b.
Proof. induction a as [|x a IH]; cbn; [lra|]. rewrite IH. lra. Qed.
Lemma sum_repeat x n : sum (repeat x n) = INR n * x.
Proof. induction n as [|n IH]; [cbn; lra|]. cbn [repeat sum]. rewrite IH, S_INR. lra. Qed.
(** the list of errors, by recursion on the weights *)
Fixpoint errs (good : nat -> bool) (i : nat) (w : list R) : list R :=
  match w with [] => [] | x :: r => (if good i then 0 else x) :: errs good (S i) r end.
Lemma errs_ok (good : nat -> bool) w : map (fun i => if good i then 0 else nth i w 0) (seq 0 (length w)) = errs good 0 w.
Proof.
  assert (forall v pre, map (fun i => if good i then 0 else nth i (pre ++ v) 0) (seq (length pre) (length v)) = errs good (length pre) v) as H; [|exact (H w [])].
  induction v as [|x v IH]; intro pre; [reflexivity|]. cbn [length seq map errs]. f_equal; [rewrite app_nth2, Nat.sub_diag by lia; reflexivity|].
  specialize (IH (pre ++ [x])). rewrite <- app_assoc, app_length in IH. cbn [length app] in IH. rewrite Nat.add_1_r in IH. exact IH.
Qed.
Lemma errs_length good w : forall i, length (errs good i w) = length w.
Proof. induction w; intro i; cbn; congruence. Qed.
Lemma errs_sum good w : forall i, Forall (fun x => 0 < x) w -> 0 <= sum (errs good i w) <= sum w.
Proof. induction w as [|x w IH]; intros i F; cbn; [lra|]. inversion F; subst. specialize (IH (S i) H2). destruct (good i); lra. Qed.
Lemma dotl_errs good w : forall i, dotl w (errs good i w) = sum (map (fun x => x * x) (errs good i w)).
Proof.
  unfold dotl. setoid_rewrite suml_sum. induction w as [|x w IH]; intro i; [reflexivity|]. cbn [errs combine map sum fst snd]. rewrite IH. destruct (good i); lra.
Qed.
(** the squares of weights below one sum to less than one *)
Lemma squares_below l : Forall (fun x => 0 <= x < 1) l -> 0 <= sum (map (fun x => x * x) l) <= sum l /\ (0 < sum l -> sum (map (fun x => x * x) l) < sum l).
Proof.
  induction 1 as [|x l H F [[A B] C]]; cbn; [split; [lra|lra]|]. assert (0 <= x * x) by nra. assert (x * x <= x) by nra. split; [lra|]. intro P. destruct (Req_dec x 0) as [->|N]; [lra|]. assert (x * x < x) by nra. lra.
Qed.
Lemma below_one w : Forall (fun x => 0 < x) w -> sum w = 1 -> (2 <= length w)%nat -> Forall (fun x => 0 < x < 1) w.
Proof.
  intros F S L. apply Forall_forall. intros x Hx. split; [rewrite Forall_forall in F; auto|]. apply in_split in Hx as (a & b & ->). rewrite sum_app in S. cbn [sum] in S. apply Forall_app in F as [Fa Fb]. inversion Fb; subst.
  rewrite app_length in L. cbn [length] in L. assert (0 < sum (a ++ b)) as P. { apply sum_pos; [|apply Forall_app; auto]. intro E. apply (f_equal (@length R)) in E. rewrite app_length in E. cbn in E. lia. }
  rewrite sum_app in P. lra.
Qed.
Lemma errs_below good w : forall i, Forall (fun x => 0 < x < 1) w -> Forall (fun x => 0 <= x < 1) (errs good i w).
Proof. induction w as [|x w IH]; intros i F; cbn; constructor; inversion F; subst; [destruct (good i); lra|auto]. Qed.
Lemma squares_nonneg l : 0 <= sum (map (fun x => x * x) l).
Proof. induction l as [|x l IH]; cbn; [lra|]. assert (0 <= x * x) by nra. lra. Qed.
Lemma err_below good w : distribution w -> (2 <= length w)%nat -> 0 <= dotl w (errs good 0 w) < 1.
Proof.
  intros [F S] L. rewrite dotl_errs. pose proof (squares_below _ (errs_below good w 0 (below_one w F S L))) as [[A B] C]. pose proof (errs_sum good w 0 F) as [D E]. split; [auto|].
  destruct (Req_dec (sum (errs good 0 w)) 0) as [Z|N]; [lra|]. specialize (C ltac:(lra)). lra.
Qed.
Lemma log_ok x : 0 < x -> log x = Some (ln x).
Proof. intro H. unfold log. destruct (Rlt_dec 0 x); [auto|contradiction]. Qed.
Lemma alpha_ok e K : 0 <= e < 1 -> (2 <= K)%nat -> boost_alpha e K = Some ((if Rlt_dec 0 e then ln ((1 - e) / e) else 1) + ln (INR (K - 1))).
Proof.
  intros E HK. unfold boost_alpha. rewrite (log_ok (INR (K - 1))) by (apply (lt_INR 0); lia). destruct (Rlt_dec 0 e); [|reflexivity]. rewrite log_ok; [reflexivity|]. apply Rdiv_lt_0_compat; lra.
Qed.
(** the new weights *)
Definition boosted (a : R) (good : nat -> bool) (w : list R) : list R := map (fun p => fst p * exp (a * snd p)) (combine w (errs good 0 w)).
Lemma boosted_pos a good w : Forall (fun x => 0 < x) w -> Forall (fun x => 0 < x) (boosted a good w).
Proof.
  intro F. unfold boosted. generalize (errs good 0 w). induction F as [|x w H F IH]; intros [|e es]; cbn; constructor; auto. cbn. apply Rmult_lt_0_compat; [auto|apply exp_pos].
Qed.
Lemma boosted_length a good w : length (boosted a good w) = length w.
Proof. unfold boosted. rewrite map_length, combine_length, errs_length. lia. Qed.
Lemma round_ok K good w : distribution w -> (2 <= length w)%nat -> (2 <= K)%nat ->
  exists a, boost_alpha (dotl w (errs good 0 w)) K = Some a /\ 0 < sum (boosted a good w) /\ boost_round K good w = Some (a, map (fun x => x / sum (boosted a good w)) (boosted a good w)).
Proof.
  intros D L HK. pose proof (err_below good w D L) as E. destruct D as [F S]. unfold boost_round. cbv zeta. rewrite errs_ok, suml_sum, S. destruct (Req_EM_T 1 0); [lra|]. replace (dotl w (errs good 0 w) / 1) with (dotl w (errs good 0 w)) by field.
  rewrite (alpha_ok _ K E HK). set (a := _ + _). fold (boosted a good w). rewrite suml_sum. assert (0 < sum (boosted a good w)) as P by (apply sum_pos; [intro Q; apply (f_equal (@length R)) in Q; rewrite boosted_length in Q; cbn in Q; lia|now apply boosted_pos]).
  exists a. split; [reflexivity|]. split; [auto|]. destruct (Req_EM_T _ 0); [lra|reflexivity].
Qed.
Lemma round_distribution K good w a w' : distribution w -> (2 <= length w)%nat -> (2 <= K)%nat -> boost_round K good w = Some (a, w') -> distribution w' /\ length w' = length w.
Proof.
  intros D L HK E. destruct (round_ok K good w D L HK) as (a' & _ & P & E'). rewrite E in E'. injection E' as <- ->. split; [|now rewrite map_length, boosted_length]. split.
  - apply Forall_map. eapply Forall_impl; [|apply (boosted_pos a good w), D]. intros x Hx. now apply Rdiv_lt_0_compat.
  - rewrite sum_map_scal. field. lra.
Qed.
(** C53: with at least two points and two classes, after any number of rounds with any learners the weights are positive and sum to one. *)
Lemma c53_distribution : forall n K answers, (2 <= n)%nat -> (2 <= K)%nat ->
  exists alphas w, adaboost_train n K answers = Some (alphas, w) /\ length alphas = length answers /\ length w = n /\ distribution w.
Proof.
  intros n K answers Hn HK. unfold adaboost_train.
  assert (forall w, distribution w -> length w = n -> exists alphas w', boost_rounds K answers w = Some (alphas, w') /\ length alphas = length answers /\ length w' = n /\ distribution w') as H.
  { induction answers as [|g r IH]; intros w D L; cbn [boost_rounds]; [exists [], w; auto|]. destruct (round_ok K g w D ltac:(lia) HK) as (a & _ & _ & E). rewrite E.
    destruct (round_distribution K g w _ _ D ltac:(lia) HK E) as [D' L']. destruct (IH _ D' ltac:(congruence)) as (al & w' & -> & La & Lw & Dw). exists (a :: al), w'. cbn. auto. }
  apply H; [|apply repeat_length]. assert (0 < INR n) by (apply (lt_INR 0); lia). split.
  - apply Forall_forall. intros x Hx. apply repeat_spec in Hx. subst. apply Rdiv_lt_0_compat; lra.
  - rewrite sum_repeat. field. lra.
Qed.
Lemma c53_distribution_ex : (2 <= 3)%nat /\ (2 <= 2)%nat.
Proof. lia. Qed.
(** C53: the guards: with one class, or one point that a learner gets wrong, a logarithm of zero is taken. *)
Lemma c53_one_class_refuted : forall n answer answers, (1 <= n)%nat -> adaboost_train n 1 (answer :: answers) = None.
Proof.
  intros n g r Hn. unfold adaboost_train. cbn [boost_rounds]. unfold boost_round. cbv zeta. destruct (Req_EM_T _ 0); [reflexivity|]. unfold boost_alpha. cbn [Nat.sub INR]. unfold log at 2. destruct (Rlt_dec 0 0); [lra|].
  destruct (if Rlt_dec 0 _ then _ else _); reflexivity.
Qed.
Lemma c53_one_class_refuted_ex : (1 <= 3)%nat.
Proof. lia. Qed.
Lemma c53_one_point_refuted : forall K answer answers, answer 0%nat = false -> adaboost_train 1 K (answer :: answers) = None.
Proof.
  intros K g r Hg. unfold adaboost_train. cbn [boost_rounds]. unfold boost_round. cbv zeta. rewrite errs_ok, suml_sum, dotl_errs. cbn [repeat errs INR sum map]. rewrite Hg. replace (1 / 1 + 0) with 1 by field. destruct (Req_EM_T 1 0); [reflexivity|].
  replace ((1 / 1 * (1 / 1) + 0) / 1) with 1 by field. unfold boost_alpha. destruct (Rlt_dec 0 1); [|lra]. replace ((1 - 1) / 1) with 0 by field. unfold log at 1. destruct (Rlt_dec 0 0); [lra|reflexivity].
Qed.
Lemma c53_one_point_refuted_ex : (fun _ : nat => false) 0%nat = false.
Proof. reflexivity. Qed.
(** C53: the answer is the first class of the training data of largest total vote of the learners. *)
Lemma c53_evaluate : forall alphas classes preds, classes <> [] -> length alphas = length preds ->
  exists c, adaboost_evaluate alphas classes preds = Ok c /\ In c classes /\ first_largest classes (weight_for alphas preds) c.
Proof.
  intros alphas classes preds NE L. unfold adaboost_evaluate.
  assert (map_outcome (fun c => ofold (fun s m => let* p := vget preds m in if Z.eqb p c then let* a := pat alphas m in Ok (s + a) else Ok s) (seq 0 (length preds)) 0) classes = Ok (map (weight_for alphas preds) classes)) as ->.
  { apply map_outcome_ok. intros c _.
    match goal with |- ofold ?f _ _ = _ => destruct (ofold_seq f (fun i v => v = weight_for (firstn i alphas) (firstn i preds) c) (length preds) 0) as (t & -> & ->) end.
    - reflexivity.
    - intros i t Hi ->. destruct (nth_error preds i) as [p|] eqn:Ep; [|apply nth_error_None in Ep; lia]. destruct (nth_error alphas i) as [w|] eqn:Ew; [|apply nth_error_None in Ew; lia].
      unfold vget, pat. rewrite Ep, Ew. cbn [obind].
      assert (forall A (l : list A) k x, nth_error l k = Some x -> firstn (S k) l = firstn k l ++ [x]) as F.
      { clear. intros A l. induction l as [|y l IH]; intros [|k] x E; cbn in *; try discriminate; [now injection E as ->|]. f_equal. now apply IH. }
      rewrite (F _ _ _ _ Ep), (F _ _ _ _ Ew). rewrite weight_for_snoc by (rewrite !firstn_length; lia). destruct (Z.eqb_spec p c), (Z.eq_dec p c); try congruence; eexists; (split; [reflexivity|lra]).
    - f_equal. rewrite firstn_all. rewrite <- L, firstn_all. reflexivity. }
  cbn [obind]. destruct (max_class classes (weight_for alphas preds) NE) as (c & E & F). exists c. split; [auto|]. split; [|auto]. destruct F as (b & a & -> & _). apply in_or_app. right. now left.
Qed.
Lemma c53_evaluate_ex : [1; 2]%Z <> [] /\ length [1; 3] = length [2; 2]%Z.
Proof. split; [discriminate|reflexivity]. Qed.

(** C82: the vote of a learner and the weights do not follow the multi-class boosting rule: the error uses the squares of the weights.
    With n points of equal weight and one of them wrong the error is 1/n, and the vote is that of an error of 1/n^2. *)
Lemma errs_all_good good w : forall i, (forall j, (i <= j)%nat -> good j = true) -> errs good i w = repeat 0 (length w).
Proof. induction w as [|x w IH]; intros i H; cbn; [reflexivity|]. rewrite (H i) by lia. f_equal. apply IH. intros j Hj. apply H. lia. Qed.
Lemma c82_alpha_refuted : forall n K, (2 <= n)%nat -> (2 <= K)%nat ->
  let good := fun i => negb (Nat.eqb i 0) in let w := repeat (1 / INR n) n in
  wrong_weight good w = 1 / INR n /\
  exists a w', boost_round K good w = Some (a, w') /\ a = samme_alpha K (1 / INR n * (1 / INR n)) /\ a <> samme_alpha K (1 / INR n).
Proof.
  intros n K Hn HK good w. assert (2 <= INR n) as Hr by (apply (le_INR 2); lia). destruct n as [|n]; [lia|]. set (x := 1 / INR (S n)) in *. assert (0 < x < 1) as Hx.
  { unfold x. split; [apply Rdiv_lt_0_compat; lra|]. apply (Rmult_lt_reg_r (INR (S n))); [lra|]. field_simplify; lra. }
  assert (errs good 0 w = x :: repeat 0 n) as E. { unfold w. cbn [repeat errs]. cbn [good Nat.eqb negb]. f_equal. rewrite errs_all_good, repeat_length; [reflexivity|]. intros [|j] Hj; [lia|reflexivity]. }
  assert (distribution w) as D. { split; [apply Forall_forall; intros y Hy; apply repeat_spec in Hy; subst; lra|]. unfold w. rewrite sum_repeat. unfold x. field. lra. }
  assert (forall f, f 0 = 0 -> sum (map f (repeat 0 n)) = 0) as Z. { intros f Hf. clear -Hf. induction n; cbn; [auto|]. rewrite IHn, Hf. lra. }
  split; [unfold wrong_weight; rewrite errs_ok, E; cbn [sum]; rewrite sum_repeat; lra|].
  destruct (round_ok K good w D) as (a & A & _ & R); [unfold w; rewrite repeat_length; auto|auto|]. rewrite dotl_errs, E in A. cbn [map sum] in A. rewrite (Z (fun y => y * y)) in A by ring. rewrite Rplus_0_r in A.
  assert (0 < x * x < x) as Hxx by nra. rewrite alpha_ok in A by (auto; lra). destruct (Rlt_dec 0 (x * x)); [|lra]. injection A as A. do 2 eexists. split; [exact R|]. split; [unfold samme_alpha; now rewrite A|].
  rewrite <- A. unfold samme_alpha. intro Q. apply Rplus_eq_reg_r in Q. apply ln_inv in Q; [|apply Rdiv_lt_0_compat; lra|apply Rdiv_lt_0_compat; lra].
  assert ((1 - x * x) / (x * x) = 1 / (x * x) - 1) as Q1 by (field; lra). assert ((1 - x) / x = 1 / x - 1) as Q2 by (field; lra). rewrite Q1, Q2 in Q.
  assert (/ (x * x) = / x) as Q3 by (unfold Rdiv in Q; lra). apply (f_equal Rinv) in Q3. rewrite !Rinv_inv in Q3. lra.
Qed.
Lemma c82_alpha_refuted_ex : (2 <= 4)%nat /\ (2 <= 3)%nat.
Proof. lia. Qed.
(** C82: what does hold: a round in which the learner is right everywhere leaves the weights alone, and in any round the weight of a point
    the learner gets wrong grows relative to one it gets right exactly when its vote is positive. *)
Lemma boosted_nth a good w i : (i < length w)%nat -> nth i (boosted a good w) 0 = nth i w 0 * exp (a * (if good i then 0 else nth i w 0)).
Proof.
  intro Hi. unfold boosted. rewrite <- errs_ok. assert (forall (u v : list R) k, (k < length u)%nat -> length u = length v -> nth k (map (fun p => fst p * exp (a * snd p)) (combine u v)) 0 = nth k u 0 * exp (a * nth k v 0)) as H.
  { clear. induction u as [|x u IH]; intros [|y v] [|k] Hk L; cbn in *; try lia; try discriminate; [reflexivity|]. apply IH; lia. }
  rewrite H by (rewrite ?map_length, ?seq_length; auto). rewrite (nth_map_seq R (fun k => if good k then 0 else nth k w 0)) by auto. reflexivity.
Qed.
Lemma c82_direction : forall K good w a w' i j, distribution w -> (2 <= length w)%nat -> (2 <= K)%nat -> boost_round K good w = Some (a, w') ->
  (i < length w)%nat -> (j < length w)%nat -> good i = false -> good j = true ->
  (0 < a <-> nth i w 0 / nth j w 0 < nth i w' 0 / nth j w' 0).
Proof.
  intros K good w a w' i j D L HK E Hi Hj Gi Gj. destruct (round_ok K good w D L HK) as (a' & _ & P & E'). rewrite E in E'. injection E' as <- ->. set (S := sum (boosted a good w)) in *.
  assert (forall k, (k < length w)%nat -> nth k (map (fun x => x / S) (boosted a good w)) 0 = nth k (boosted a good w) 0 / S) as N.
  { intros k Hk. rewrite (nth_indep _ 0 (0 / S)) by (now rewrite map_length, boosted_length). apply (map_nth (fun x => x / S)). }
  rewrite !N, !boosted_nth, Gi, Gj by auto. rewrite Rmult_0_r, exp_0, Rmult_1_r. destruct D as [F _]. rewrite Forall_forall in F. assert (0 < nth i w 0) as Pi by (apply F, nth_In; auto). assert (0 < nth j w 0) as Pj by (apply F, nth_In; auto).
  set (wi := nth i w 0) in *. set (wj := nth j w 0) in *. assert (wi * exp (a * wi) / S / (wj / S) = wi / wj * exp (a * wi)) as -> by (field; lra). assert (0 < wi / wj) as Q by now apply Rdiv_lt_0_compat.
  split; intro H.
  - assert (exp 0 < exp (a * wi)) as X by (apply exp_increasing, Rmult_lt_0_compat; auto). rewrite exp_0 in X. nra.
  - assert (1 < exp (a * wi)) as X by nra. rewrite <- exp_0 in X. apply exp_lt_inv in X. nra.
Qed.
Lemma c82_direction_ex : exists a w', distribution [/ 2; / 2] /\ boost_round 2 (fun i => Nat.eqb i 0) [/ 2; / 2] = Some (a, w').
Proof. assert (distribution [/ 2; / 2]) as D by (split; [repeat constructor; lra|cbn; lra]). destruct (round_ok 2 (fun i => Nat.eqb i 0) _ D) as (a & _ & _ & E); [cbn; lia|lia|]. eauto. Qed.
Lemma c82_all_right : forall K w a w', distribution w -> (2 <= length w)%nat -> (2 <= K)%nat -> boost_round K (fun _ => true) w = Some (a, w') -> w' = w /\ a = 1 + ln (INR (K - 1)).
Proof.
  intros K w a w' D L HK E. destruct (round_ok K (fun _ => true) w D L HK) as (a' & A & P & E'). rewrite E in E'. injection E' as <- ->.
  assert (boosted a (fun _ => true) w = w) as B. { unfold boosted. rewrite errs_all_good by auto. clear. induction w as [|x w IH]; cbn; [reflexivity|]. rewrite Rmult_0_r, exp_0, Rmult_1_r. f_equal. exact IH. }
  split.
  - rewrite B in *. destruct D as [_ ->]. rewrite <- (map_id w) at 2. apply map_ext. intro x. field.
  - rewrite errs_all_good in A by auto. assert (dotl w (repeat 0 (length w)) = 0) as Z. { unfold dotl. rewrite suml_sum. clear. induction w as [|x w IH]; cbn; [reflexivity|]. rewrite IH. ring. } rewrite Z in A.
    rewrite alpha_ok in A by (auto; lra). destruct (Rlt_dec 0 0); [lra|]. now injection A as <-.
Qed.
Lemma c82_all_right_ex : exists a w', distribution [/ 2; / 2] /\ boost_round 2 (fun _ => true) [/ 2; / 2] = Some (a, w').
Proof. assert (distribution [/ 2; / 2]) as D by (split; [repeat constructor; lra|cbn; lra]). destruct (round_ok 2 (fun _ => true) _ D) as (a & _ & _ & E); [cbn; lia|lia|]. eauto. Qed.

(** *** simplex *)
Lemma scan_none us : forall k s, (forall a u b, us = a ++ u :: b -> s + sum a + u - 1 < u * INR (k + length a)) -> (1 <= k)%nat -> simplex_scan us k s = (s + sum us, None).
Proof.
  induction us as [|u us IH]; intros k s H Hk; cbn [simplex_scan sum]; [now rewrite Rplus_0_r|]. assert (0 < INR k) as Pk by (apply (lt_INR 0); lia).
  destruct (Rle_dec u ((s + u - 1) / INR k)) as [Q|Q].
  - exfalso. specialize (H [] u us eq_refl). cbn [sum length] in H. rewrite Nat.add_0_r in H. apply (Rmult_le_compat_r (INR k)) in Q; [|lra]. unfold Rdiv in Q. rewrite Rmult_assoc, Rinv_l in Q by lra. lra.
  - rewrite IH; [f_equal; lra| |lia]. intros a v b E. specialize (H (u :: a) v b). cbn [app sum length] in H. rewrite E in H. specialize (H eq_refl). rewrite Nat.add_succ_r in H. cbn [Nat.add]. lra.
Qed.
Lemma rle_total (a b : R) : (if Rle_dec a b then true else false) = false -> (if Rle_dec b a then true else false) = true.
Proof. destruct (Rle_dec a b), (Rle_dec b a); auto; lra. Qed.
Lemma sorted_tail {A} (Q : A -> A -> Prop) u v : StronglySorted Q (u ++ v) -> True /\ StronglySorted Q v.
Proof. induction u as [|x u IH]; cbn; intro S; [auto|]. inversion S; auto. Qed.
Lemma sum_perm a b : Permutation a b -> sum a = sum b.
Proof. induction 1; cbn; lra. Qed.
Lemma sum_rev a : sum (rev a) = sum a.
Proof. apply sum_perm. symmetry. apply Permutation_rev. Qed.
Lemma sum_bound m l : Forall (fun v => m <= v) l -> INR (length l) * m <= sum l.
Proof. induction 1 as [|x l H F IH]; [cbn; lra|]. cbn [length sum]. rewrite S_INR. lra. Qed.
Lemma sum_ubound m l : Forall (fun v => v <= m) l -> sum l <= INR (length l) * m.
Proof. induction 1 as [|x l H F IH]; [cbn; lra|]. cbn [length sum]. rewrite S_INR. lra. Qed.
(** C54: the result never has a negative weight. *)
Lemma c54_nonneg : forall y x, simplex_projection y = Ok x -> length x = length y /\ Forall (fun v => 0 <= v) x.
Proof.
  intros y x E. unfold simplex_projection in E. destruct (Nat.ltb _ 2); [discriminate|]. destruct (rev (rsort y)) as [|l us]; [discriminate|]. destruct (simplex_scan us 2 0) as [s t]. injection E as <-. split; [apply map_length|].
  apply Forall_map, Forall_forall. intros v _. destruct (Rlt_dec _ 0); lra.
Qed.
(** C54: two or more non-negative weights whose excess over a common lower bound is at most one: the result is on the simplex, and is the projection: all weights move by the same amount. *)
Lemma c54_simplex : forall y m, (2 <= length y)%nat -> 0 <= m -> Forall (fun v => m <= v) y -> sum y - INR (length y) * m <= 1 ->
  exists x t, simplex_projection y = Ok x /\ on_simplex x /\ x = map (fun v => v - t) y.
Proof.
  intros y m L Hm F X. unfold simplex_projection. destruct (Nat.ltb_spec (length y) 2); [lia|].
  pose proof (isort_perm (fun a b => if Rle_dec a b then true else false) y) as P. fold (rsort y) in P.
  assert (StronglySorted (fun a b => a <= b) (rsort y)) as SS.
  { unfold rsort. assert (StronglySorted (fun a b => (if Rle_dec a b then true else false) = true) (isort (fun a b => if Rle_dec a b then true else false) y)) as Q.
    - apply isort_sorted; [intros a b; destruct (Rle_dec a b), (Rle_dec b a); auto; lra|intros a b c; destruct (Rle_dec a b), (Rle_dec b c), (Rle_dec a c); auto; lra].
    - revert Q. generalize (isort (fun a b => if Rle_dec a b then true else false) y). induction 1 as [|a l Q1 IH Q2]; constructor; auto. eapply Forall_impl; [|exact Q2]. cbn. intros b Hb. destruct (Rle_dec a b); [auto|discriminate]. }
  destruct (rev (rsort y)) as [|last us] eqn:Rv.
  { apply (f_equal (@length R)) in Rv. rewrite rev_length, (Permutation_length P) in Rv. cbn in Rv. lia. }
  assert (Permutation (last :: us) y) as P2 by (rewrite <- Rv; etransitivity; [symmetry; apply Permutation_rev|exact P]). assert (Forall (fun v => m <= v) (last :: us)) as F2 by (eapply Permutation_Forall; [symmetry; exact P2|auto]).
  pose proof (sum_perm _ _ P2) as S2. pose proof (Permutation_length P2) as L2. rewrite <- S2 in X. rewrite <- L2 in *. cbn [sum length] in S2, X, L |- *. inversion F2 as [|? ? Fl Fu]; subst.
  rewrite scan_none; [|intros a u b E|lia].
  - cbv zeta iota. set (t := (0 + sum us + last - 1) / INR (S (length us))). assert (0 < INR (S (length us))) as Pn by (apply (lt_INR 0); lia).
    assert (t <= m) as T. { apply (Rmult_le_reg_r (INR (S (length us)))); [auto|]. unfold t. field_simplify; lra. }
    assert (map (fun v => if Rlt_dec (v - t) 0 then 0 else v - t) y = map (fun v => v - t) y) as ->.
    { apply map_ext_in. intros v Hv. rewrite Forall_forall in F. specialize (F v Hv). cbv zeta. destruct (Rlt_dec (v - t) 0); lra. }
    do 2 eexists. split; [reflexivity|]. split; [|reflexivity]. split.
    + apply Forall_map. eapply Forall_impl; [|exact F]. cbn. intros v Hv. lra.
    + assert (forall l, sum (map (fun v => v - t) l) = sum l - INR (length l) * t) as Q. { induction l as [|v l IH]; [cbn; lra|]. cbn [map sum length]. rewrite IH, S_INR. lra. }
      rewrite Q, <- S2, <- L2. cbn [length]. unfold t. field. lra.
  - subst us. apply Forall_app in Fu as [Fa Fb]. inversion Fb as [|? ? Hu Fbb]; subst. rewrite sum_app in X, S2. cbn [sum] in X, S2.
    pose proof (f_equal (@rev R) Rv) as R2. rewrite rev_involutive in R2. cbn [rev] in R2. rewrite rev_app_distr in R2. cbn [rev] in R2. rewrite <- !app_assoc in R2. cbn [app] in R2. rewrite R2 in SS.
    assert (forall v, In v a -> u <= v) as Q1. { intros v Hv. apply sorted_tail in SS. destruct SS as [_ SS]. inversion SS; subst. rewrite Forall_forall in H3. apply H3. apply in_or_app. left. now apply in_rev in Hv. }
    assert (forall v, In v a -> v <= last) as Q2.
    { intros v Hv. apply sorted_tail in SS. destruct SS as [_ SS]. inversion SS; subst. clear - H2 Hv. apply in_rev in Hv. revert H2 Hv. generalize (rev a). intros l. induction l as [|z l IH]; intros S H; [destruct H|]. destruct H as [->|H].
      - inversion S; subst. rewrite Forall_forall in H2. apply H2. apply in_or_app. right. now left.
      - inversion S; subst. auto. }
    pose proof (sum_bound m a Fa) as Ba. pose proof (sum_bound m b Fbb) as Bb. assert (sum a <= INR (length a) * last) as Bl by (apply sum_ubound, Forall_forall; auto).
    rewrite S_INR, app_length in X. cbn [length] in X. rewrite plus_INR, S_INR in X. rewrite plus_INR. cbn [INR]. set (na := INR (length a)) in *. set (nb := INR (length b)) in *. assert (0 <= na) by apply pos_INR. assert (0 <= nb) by apply pos_INR.
    assert (sum a - na * m <= 1 - (last - m)) as K by lra. destruct (Rtotal_order u 0) as [N|[->|N]]; [lra| |nra].
    assert (m = 0) by lra. subst m. destruct (Rlt_dec (sum a) 1) as [|G]; [lra|]. assert (last = 0) by lra. subst last. lra.
Qed.
Lemma c54_simplex_ex : (2 <= length [1/4; 1; 1/2])%nat /\ 0 <= 1/4 /\ Forall (fun v => 1/4 <= v) [1/4; 1; 1/2] /\ sum [1/4; 1; 1/2] - INR (length [1/4; 1; 1/2]) * (1/4) <= 1.
Proof. split; [cbn; lia|]. split; [lra|]. split; [repeat constructor; lra|cbn; lra]. Qed.
(** C54: outside that guard the result can miss the simplex, also for weights between zero and one: (0, 1, 1) is returned as it is; one weight fails an assertion. *)
Lemma c54_sum_refuted : exists y x, Forall (fun v => 0 <= v <= 1) y /\ simplex_projection y = Ok x /\ sum x = 2.
Proof.
  exists [0; 1; 1], [0; 1; 1]. split; [repeat constructor; lra|]. split; [|cbn; lra].
  assert (rsort [0; 1; 1] = [0; 1; 1]) as E. { unfold rsort. cbn [isort insert_sorted]. destruct (Rle_dec 1 1); [|lra]. cbn [insert_sorted]. destruct (Rle_dec 0 1); [reflexivity|lra]. }
  unfold simplex_projection. rewrite E. cbn [length Nat.ltb Nat.leb rev app simplex_scan]. destruct (Rle_dec 1 ((0 + 1 - 1) / INR 2)) as [Q|_]; [cbn in Q; lra|].
  destruct (Rle_dec 0 ((0 + 1 + 0 - 1) / INR 3)) as [_|Q]; [|exfalso; apply Q; cbn; lra]. cbn [map]. assert ((0 + 1 + 0 - 1) / INR 3 = 0) as -> by (cbn; lra).
  destruct (Rlt_dec (0 - 0) 0); [lra|]. destruct (Rlt_dec (1 - 0) 0); [lra|]. repeat f_equal; lra.
Qed.
Lemma c54_short_refuted : forall y, (length y < 2)%nat -> simplex_projection y = Abort.
Proof. intros y H. unfold simplex_projection. now apply Nat.ltb_lt in H as ->. Qed.
Lemma c54_short_refuted_ex : (length [1] < 2)%nat.
Proof. cbn. lia. Qed.
