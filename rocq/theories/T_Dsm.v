(** Property lemmas for the choice of subspaces: C106. *)
From Coq Require Import String ZArith Bool List Reals Lra Lia Psatz.
From Verif Require Import Base ListLib L_Vec M_Data S_Data M_Point S_Point L_Point Loop L_Data2 L_Join L_Smo M_Stat S_Stat T_Stat M_Eq S_Eq T_Eq M_Dsm S_Dsm.
Import ListNotations.
Local Open Scope R_scope.

Lemma best_from_ok l : forall b bi i, (bi < i)%nat -> exists c, best_from (Some b) bi i (map Some l) = c /\
  ((c = bi /\ forall x, In x l -> x <= b) \/ (exists j, c = (i + j)%nat /\ (j < length l)%nat /\ b < nth j l 0 /\ (forall j', (j' < length l)%nat -> nth j' l 0 <= nth j l 0) /\ forall j', (j' < j)%nat -> nth j' l 0 < nth j l 0)).
Proof.
  induction l as [|x l IH]; intros b bi i H; cbn [map best_from]; [exists bi; split; [auto|left; split; [auto|intros ? []]]|]. cbn [nan_lt]. destruct (Rlt_dec b x) as [L|L].
  - destruct (IH x i (S i) ltac:(lia)) as (c & -> & [(-> & A)|(j & -> & J & B & C & D)]); eexists; (split; [reflexivity|]); right.
    + exists 0%nat. cbn [nth length]. split; [lia|]. split; [lia|]. split; [auto|]. split; [|intros j' Hj; lia]. intros [|j'] Hj; cbn [nth]; [lra|]. apply A, nth_In. cbn in Hj. lia.
    + exists (S j). cbn [nth length]. split; [lia|]. split; [lia|]. split; [lra|]. split; [intros [|j'] Hj; cbn [nth]; [lra|apply C; cbn in Hj; lia]|]. intros [|j'] Hj; cbn [nth]; [lra|apply D; lia].
  - destruct (IH b bi (S i) ltac:(lia)) as (c & -> & [(-> & A)|(j & -> & J & B & C & D)]); eexists; (split; [reflexivity|]); [left|right].
    + split; [auto|]. intros y [<-|Hy]; [lra|auto].
    + exists (S j). cbn [nth length]. split; [lia|]. split; [lia|]. split; [auto|]. split; [intros [|j'] Hj; cbn [nth]; [lra|apply C; cbn in Hj; lia]|]. intros [|j'] Hj; cbn [nth]; [lra|apply D; lia].
Qed.
Lemma best_ok (w : nat -> R) m : (0 < m)%nat -> exists c, best_index (map (fun c => Some (w c)) (seq 0 m)) = c /\ (c < m)%nat /\ forall c', (c' < m)%nat -> w c' <= w c /\ ((c' < c)%nat -> w c' < w c).
Proof.
  intro M. destruct m as [|m]; [lia|]. cbn [seq map best_index]. rewrite <- (map_map w Some). destruct (best_from_ok (map w (seq 1 m)) (w 0%nat) 0 1 ltac:(lia)) as (c & -> & H). exists c. split; [reflexivity|].
  assert (forall j, (j < m)%nat -> nth j (map w (seq 1 m)) 0 = w (S j)) as N. { intros j Hj. rewrite (nth_indep _ 0 (w 0%nat)) by (rewrite map_length, seq_length; lia). rewrite map_nth, seq_nth by lia. reflexivity. }
  rewrite map_length, seq_length in H. destruct H as [(-> & A)|(j & -> & J & B & C & D)].
  - split; [lia|]. intros c' Hc. split; [|lia]. destruct c' as [|c']; [lra|]. apply A. rewrite <- N by lia. apply nth_In. rewrite map_length, seq_length. lia.
  - cbn [Nat.add]. rewrite N in B by lia. split; [lia|]. intros [|c'] Hc; [split; intros; lra|]. split; [rewrite <- !N by lia; apply C; lia|]. intro L. rewrite <- !N by lia. apply D. lia.
Qed.
Lemma common_le a : forall b, (common a b <= length b)%nat.
Proof.
  induction a as [|x a IH]; intro b; [destruct b; cbn; lia|]. induction b as [|y b IHb]; [cbn; lia|].
  change (common (x :: a) (y :: b)) with (if Z.ltb x y then common a (y :: b) else if Z.ltb y x then common (x :: a) b else S (common a b)).
  destruct (Z.ltb x y); [apply IH|]. destruct (Z.ltb y x); [cbn [length]; lia|]. specialize (IH b). cbn [length]. lia.
Qed.
Lemma div_ms_ok subs i : (i < length subs)%nat -> exists v, div_ms subs i = Ok v /\ 0 <= v <= 1.
Proof.
  intro H. unfold div_ms. set (f := fun mx j => _).
  destruct (ofold_seq f (fun _ mx => 0 <= mx <= 1) (length subs) 0) as (mx & -> & B); [lra| |exists (1 - mx); split; [reflexivity|lra]].
  intros j mx Hj Hm. unfold f. destruct (Nat.eqb j i); [eauto|]. destruct (vget_lt subs i H) as (a & _ & ->). destruct (vget_lt subs j Hj) as (b & _ & ->). cbn [obind].
  eexists. split; [reflexivity|]. cbn [bop_el]. destruct (Req_EM_T (INR (length b)) 0) as [Z|Z]; [auto|]. assert (0 < INR (length b)) as P by (pose proof (pos_INR (length b)); lra).
  destruct (Rlt_dec _ _); [|auto]. split; [lra|]. apply (Rmult_le_reg_r (INR (length b))); [auto|]. unfold Rdiv. rewrite Rmult_assoc, Rinv_l, Rmult_1_r, Rmult_1_l by auto. apply le_INR, common_le.
Qed.
Lemma div_mx_ok subs c : (0 < length subs)%nat -> div_mx subs (Z.of_nat c) = Some (1 - share subs c) /\ 0 <= share subs c <= 1.
Proof.
  intro H. assert (0 < INR (length subs)) as P by now apply lt_0_INR. unfold div_mx, bop_el, share, contains. destruct (Req_EM_T _ _) as [Z|_]; [lra|]. split; [reflexivity|].
  set (f := filter _ _). assert (length f <= length subs)%nat as L. { unfold f. clear. induction subs as [|r s IH]; cbn; [lia|]. destruct (existsb _ _); cbn; lia. }
  split; [apply Rmult_le_pos; [apply pos_INR|left; now apply Rinv_0_lt_compat]|]. apply (Rmult_le_reg_r (INR (length subs))); [auto|]. unfold Rdiv. rewrite Rmult_assoc, Rinv_l, Rmult_1_r, Rmult_1_l by lra. now apply le_INR.
Qed.
Lemma scatter_ext n f f' g g' : (forall i, (i < n)%nat -> f i = f' i) -> (forall i, (i < n)%nat -> g i = g' i) -> scatter n f g = scatter n f' g'.
Proof.
  intros F G. unfold scatter, avg. rewrite (sumn_ext n f f' F), (sumn_ext n g g' G). apply sumn_ext. intros i Hi. now rewrite F, G.
Qed.
Lemma scatter_pos n f : varies n f -> 0 < scatter n f f.
Proof.
  intros (i & j & Hi & Hj & N). destruct (scatter_nonneg n f) as [P|Z]; [auto|]. exfalso. apply N. apply (proj1 (scatter_zero n f ltac:(lia)) (eq_sym Z)); auto.
Qed.
Lemma correlation_bound n f g : varies n f -> varies n g -> -1 <= correlation n f g <= 1.
Proof.
  intros F G. apply scatter_pos in F, G. unfold correlation. pose proof (cauchy n (fun i => f i - avg n f) (fun i => g i - avg n g)) as C. cbv beta in C. fold (scatter n f g) (scatter n f f) (scatter n g g) in C.
  set (a := scatter n f f) in *. set (b := scatter n g g) in *. set (x := scatter n f g) in *. assert (0 < a * b) as P by nra. pose proof (sqrt_lt_R0 _ P) as Q. pose proof (sqrt_sqrt (a * b) ltac:(lra)) as S2.
  assert (x * x <= sqrt (a * b) * sqrt (a * b)) as X by (rewrite S2; cbn [pow] in C; lra). split.
  - apply (Rmult_le_reg_r (sqrt (a * b))); [auto|]. unfold Rdiv. rewrite Rmult_assoc, Rinv_l, Rmult_1_r by lra. nra.
  - apply (Rmult_le_reg_r (sqrt (a * b))); [auto|]. unfold Rdiv. rewrite Rmult_assoc, Rinv_l, Rmult_1_r by lra. nra.
Qed.
Lemma column_ok d c : data_ok d -> (c < d_dim d)%nat -> exists col, getFeature d (Z.of_nat c) = Ok col /\ length col = length (d_points d) /\ forall i, (i < length (d_points d))%nat -> nz col i = at_ d i c.
Proof.
  intros D H. destruct (c101_feature R d (Z.of_nat c) D ltac:(lia)) as (col & E & L & P). exists col. split; [auto|]. split; [exact L|]. intros i Hi.
  destruct (vget_lt (d_points d) i Hi) as (p & Ep & _). specialize (P i p Ep). rewrite Nat2Z.id in P. unfold at_, nz. rewrite (nth_error_nth _ _ _ (map_nth_error p_x i (d_points d) Ep)).
  destruct (nth_error col i) as [v|] eqn:Ec; [|apply nth_error_None in Ec; unfold size in L; lia]. rewrite (nth_error_nth _ _ _ Ec). symmetry. apply nth_error_nth. now rewrite <- P.
Qed.
Lemma quality_ok d labels c : data_ok d -> (c < d_dim d)%nat -> length labels = length (d_points d) -> (2 <= length labels)%nat -> varies (length labels) (nz labels) -> varies (length labels) (fun i => at_ d i c) ->
  qual_correlation labels d (Z.of_nat c) = Ok (Some (INR (length labels) / (INR (length labels) - 1) * correlation (length labels) (fun i => at_ d i c) (nz labels))).
Proof.
  intros D H L N Vl Vc. destruct (column_ok d c D H) as (col & Ec & Lc & Pc). unfold qual_correlation. rewrite Ec. cbn [obind].
  assert (length col = length labels) as Lcl by congruence. assert (col <> [] /\ labels <> []) as [Nc Nl] by (split; intros ->; cbn in *; lia).
  rewrite (covar_ok col labels) by (auto; lia). cbn [obind]. destruct (c65_vector col Nc) as (_ & _ & -> & _). destruct (c65_vector labels Nl) as (_ & _ & -> & _). cbn [obind lift2 bop_el].
  rewrite <- Lcl in *. set (n := length col) in *. assert (INR 2 <= INR n) as I2 by now apply le_INR. cbn in I2. set (f := fun i => at_ d i c) in *.
  assert (forall i, (i < n)%nat -> nz col i = f i) as Q by (intros i Hi; apply Pc; rewrite <- Lc; exact Hi).
  unfold variance. rewrite (scatter_ext n (nz col) f (nz col) f Q Q), (scatter_ext n (nz col) f (nz labels) (nz labels) Q) by auto. unfold correlation.
  pose proof (scatter_pos _ _ Vl) as P1. pose proof (scatter_pos _ _ Vc) as P2. set (a := scatter n f f) in *. set (b := scatter n (nz labels) (nz labels)) in *. set (x := scatter n f (nz labels)).
  pose proof (sqrt_lt_R0 a P2) as Qa. pose proof (sqrt_lt_R0 b P1) as Qb.
  assert (sqrt (a / INR n) * sqrt (b / INR n) = sqrt (a * b) / INR n) as ->.
  { rewrite !sqrt_div by lra. rewrite sqrt_mult by lra. pose proof (sqrt_sqrt (INR n) ltac:(lra)) as S2. pose proof (sqrt_lt_R0 (INR n) ltac:(lra)) as Qn. rewrite <- S2 at 3. field. lra. }
  assert (0 < sqrt (a * b)) as Qab by (apply sqrt_lt_R0; nra). assert (sqrt (a * b) / INR n <> 0) as NZ. { intro Z. apply (Rmult_eq_compat_r (INR n)) in Z. unfold Rdiv in Z. rewrite Rmult_assoc, Rinv_l in Z by lra. lra. }
  destruct (Req_EM_T _ _) as [Z|_]; [contradiction|]. do 2 f_equal. field. lra.
Qed.
Lemma contains_in r c : contains r c = true <-> In c r.
Proof. unfold contains. rewrite existsb_exists. split; [intros (x & Hx & E); apply Z.eqb_eq in E; now subst|intro H; exists c; split; [auto|apply Z.eqb_refl]]. Qed.
Lemma greedy_app m w s1 : forall s2 a b c, greedy m w s1 a b -> greedy m w s2 b c -> greedy m w (s1 ++ s2) a c.
Proof. induction s1 as [|[i j] s1 IH]; intros s2 a b c H G; inversion H; subst; cbn [app]; [auto|]. econstructor; eauto. Qed.
Lemma mset_replaced subs j i (v : Z) r : nth_error subs j = Some r -> (i < length r)%nat -> exists subs' r', mset subs j i v = Ok subs' /\ replaced subs j i v subs' /\ upd i (fun _ => v) r = Some r' /\ upd j (fun _ => r') subs = Some subs'.
Proof.
  intros Er Hi. unfold mset, vget. rewrite Er. cbn [obind]. destruct (vupd_lt i (fun _ => v) r Hi) as (r' & Ur & ->). cbn [obind].
  destruct (vupd_lt j (fun _ => r') subs) as (subs' & Us & ->); [apply nth_error_Some; congruence|]. exists subs', r'. split; [auto|]. split; [|auto].
  destruct (upd_split _ _ _ _ Ur) as (a & x & b & -> & -> & La). destruct (upd_split _ _ _ _ Us) as (ab & y & be & -> & -> & Lb).
  rewrite nth_error_app2, Lb, Nat.sub_diag in Er by lia. injection Er as ->. exists ab, a, x, b, be. auto.
Qed.
Section Run.
Context (d : data R) (labels : list R) (alpha : R) (n k : nat).
Let m := d_dim d.
Let N := length labels.
Let w := merit d labels alpha.
Hypotheses (D : data_ok d) (L : length labels = length (d_points d)) (N2 : (2 <= length labels)%nat) (A : 0 <= alpha <= 1) (G : alpha * INR (length labels) < 101 / 100 * (INR (length labels) - 1))
  (Vl : varies (length labels) (nz labels)) (Vc : forall c, (c < d_dim d)%nat -> varies (length labels) (fun i => at_ d i c)) (Cm : (Z.of_nat (d_dim d) <= unset)%Z).
Definition raw (subs : list (list Z)) (v : R) (r : list Z) (c : nat) : R := if contains r (Z.of_nat c) then - (101 / 100) else merit d labels alpha subs c + (1 - alpha) / 2 * v.
Lemma fscore_ok subs j r s0 : nth_error subs j = Some r -> exists v, 0 <= v <= 1 /\ fscore (mkDsm alpha n labels s0) subs d j = Ok (map (fun c => Some (raw subs v r c)) (seq 0 m)).
Proof using D L N2 Vl Vc.
  intros Er. assert (j < length subs)%nat as Hj by (apply nth_error_Some; congruence). destruct (div_ms_ok subs j Hj) as (v & Ev & Bv). exists v. split; [auto|].
  unfold fscore. rewrite (dim_ok' d D). fold m. apply map_outcome_ok. intros c Hc. apply in_seq in Hc. unfold vget. rewrite Er. cbn [obind s_labels s_alpha]. unfold raw.
  destruct (contains r (Z.of_nat c)); [reflexivity|]. rewrite (quality_ok d labels c D ltac:(fold m; lia) L N2 Vl (Vc c ltac:(fold m; lia))). cbn [obind]. unfold div_m. rewrite Ev. cbn [obind].
  destruct (div_mx_ok subs c ltac:(lia)) as [-> _]. cbn [lift1 lift2]. do 2 f_equal. unfold merit. set (q := INR _ / _). lra.
Qed.
Lemma merit_low subs c : (c < m)%nat -> (0 < length subs)%nat -> - (101 / 100) < merit d labels alpha subs c.
Proof using N2 A G Vl Vc.
  intros Hc Hs. destruct (div_mx_ok subs c Hs) as [_ B]. pose proof (correlation_bound _ _ _ (Vc c Hc) Vl) as C. unfold merit. fold N in C, G, N2 |- *. set (r := correlation _ _ _) in *. set (s := share subs c) in *.
  assert (INR 2 <= INR N) as I2 by now apply le_INR. cbn in I2. assert (alpha * (INR N / (INR N - 1)) < 101 / 100) as Q.
  { apply (Rmult_lt_reg_r (INR N - 1)); [lra|]. replace (alpha * (INR N / (INR N - 1)) * (INR N - 1)) with (alpha * INR N) by (field; lra). exact G. }
  assert (0 <= alpha * (INR N / (INR N - 1))) as Q0. { apply Rmult_le_pos; [lra|]. apply Rmult_le_pos; [lra|]. left. apply Rinv_0_lt_compat. lra. }
  assert (0 <= (1 - alpha) / 2 * (1 - s)) by (apply Rmult_le_pos; lra). set (q := alpha * (INR N / (INR N - 1))) in *. assert (- q <= q * r) by nra. lra.
Qed.
Lemma pick_ok subs j i r s0 c0 : nth_error subs j = Some r -> (i < length r)%nat -> (c0 < m)%nat -> ~ In (Z.of_nat c0) r ->
  exists c subs', dsm_pick (mkDsm alpha n labels s0) d i subs j = Ok subs' /\ first_best m (merit d labels alpha subs) r c /\ replaced subs j i (Z.of_nat c) subs' /\
    exists r', upd i (fun _ => Z.of_nat c) r = Some r' /\ upd j (fun _ => r') subs = Some subs'.
Proof using D L N2 A G Vl Vc.
  intros Er Hi H0 N0. assert (j < length subs)%nat as Hj by (apply nth_error_Some; congruence). destruct (fscore_ok subs j r s0 Er) as (v & Bv & Ef).
  destruct (best_ok (raw subs v r) m ltac:(lia)) as (c & Ec & Hc & B). unfold dsm_pick. rewrite Ef. cbn [obind]. rewrite Ec.
  destruct (mset_replaced subs j i (Z.of_nat c) r Er Hi) as (subs' & r' & -> & Rp & Ur & Us). exists c, subs'. split; [auto|]. split; [|split; [auto|eauto]].
  assert (forall x, ~ In (Z.of_nat x) r -> raw subs v r x = merit d labels alpha subs x + (1 - alpha) / 2 * v) as Out.
  { intros x Hx. unfold raw. destruct (contains r (Z.of_nat x)) eqn:E; [apply contains_in in E; contradiction|reflexivity]. }
  assert (~ In (Z.of_nat c) r) as Nc.
  { intro I. apply contains_in in I. destruct (B c0 H0) as [Q _]. rewrite (Out c0 N0) in Q. unfold raw in Q. rewrite I in Q. pose proof (merit_low subs c0 H0 ltac:(lia)) as Lw. assert (0 <= (1 - alpha) / 2 * v) by (apply Rmult_le_pos; lra). lra. }
  split; [auto|]. split; [auto|]. intros c' Hc' Nc'. destruct (B c' Hc') as [B1 B2]. rewrite (Out c Nc), (Out c' Nc') in *. split; [lra|]. intro Q. specialize (B2 Q). lra.
Qed.
Record rowinv (i : nat) (r : list Z) : Prop := {
  ri_len : length r = n;
  ri_inj : forall p q x, nth_error r p = Some x -> nth_error r q = Some x -> x <> unset -> p = q;
  ri_rng : forall x, In x r -> x = unset \/ (0 <= x < Z.of_nat m)%Z;
  ri_full : forall p x, (p < i)%nat -> nth_error r p = Some x -> x <> unset;
  ri_rest : (n < m)%nat \/ ((n <= m)%nat /\ forall p x, (i <= p)%nat -> nth_error r p = Some x -> x = unset) }.
Lemma free_feature i r : rowinv i r -> (i < n)%nat -> exists c, (c < m)%nat /\ ~ In (Z.of_nat c) r.
Proof using Cm L N2.
  intros I Hi. destruct (Forall_Exists_dec (fun c => In (Z.of_nat c) r) (fun c => in_dec Z.eq_dec (Z.of_nat c) r) (seq 0 m)) as [F|E].
  - exfalso. assert (NoDup (map Z.of_nat (seq 0 m))) as Nd by (apply FinFun.Injective_map_NoDup; [intros a b; lia|apply seq_NoDup]).
    assert (incl (map Z.of_nat (seq 0 m)) r) as In1 by (intros x Hx; apply in_map_iff in Hx as (c & <- & Hc); rewrite Forall_forall in F; auto).
    destruct (ri_rest _ _ I) as [Lt|[Le U]].
    + pose proof (NoDup_incl_length Nd In1) as Q. rewrite map_length, seq_length, (ri_len _ _ I) in Q. lia.
    + destruct (vget_lt r i ltac:(rewrite (ri_len _ _ I); lia)) as (x & Ex & _). pose proof (U i x (le_n i) Ex) as ->.
      assert (NoDup (unset :: map Z.of_nat (seq 0 m))) as Nd'. { constructor; [|auto]. intro H. apply in_map_iff in H as (c & E & Hc). apply in_seq in Hc. fold m in Cm. lia. }
      pose proof (NoDup_incl_length Nd' (l' := r)) as Q. cbn [length] in Q. rewrite map_length, seq_length, (ri_len _ _ I) in Q. assert (S m <= n)%nat; [|lia]. apply Q. intros x [<-|Hx]; [now apply nth_error_In in Ex|auto].
  - apply Exists_exists in E as (c & Hc & Nc). apply in_seq in Hc. exists c. split; [lia|auto].
Qed.
Lemma rowinv_step i r c r' : rowinv i r -> (i < n)%nat -> (c < m)%nat -> ~ In (Z.of_nat c) r -> upd i (fun _ => Z.of_nat c) r = Some r' -> rowinv (S i) r'.
Proof using Cm L N2.
  intros [L1 I1 R1 F1 U1] Hi Hc Nc U. pose proof (upd_nth_same _ _ _ _ U) as Sm. destruct (vget_lt r i ltac:(lia)) as (x0 & E0 & _). rewrite E0 in Sm. cbn in Sm.
  assert (forall p x, nth_error r' p = Some x -> (p = i /\ x = Z.of_nat c) \/ (p <> i /\ nth_error r p = Some x)) as Ca.
  { intros p x E. destruct (Nat.eq_dec i p) as [<-|Np]; [left; split; congruence|right]. rewrite (upd_nth_other _ _ _ _ _ U Np) in E. auto. }
  assert (Z.of_nat c <> unset) as Cu by (fold m in Cm; lia).
  constructor.
  - rewrite (upd_length _ _ _ _ U). auto.
  - intros p q x Hp Hq Nx. destruct (Ca p x Hp) as [[-> ->]|[Np Ep]], (Ca q _ Hq) as [[-> Eq]|[Nq Eq]]; [auto| | |]; try congruence.
    + elim Nc. now apply nth_error_In in Eq.
    + subst x. elim Nc. now apply nth_error_In in Ep.
    + eapply I1; eauto.
  - intros x Hx. apply In_nth_error in Hx as (p & Hp). destruct (Ca p x Hp) as [[_ ->]|[_ E]]; [right; lia|]. apply R1. now apply nth_error_In in E.
  - intros p x Hp E. destruct (Ca p x E) as [[_ ->]|[Np Ex]]; [auto|]. apply (F1 p x); [lia|auto].
  - destruct U1 as [Q|[Q U1]]; [auto|right]. split; [auto|]. intros p x Hp E. destruct (Ca p x E) as [[-> _]|[Np Ex]]; [lia|]. apply (U1 p x); [lia|auto].
Qed.
Definition inv (i j : nat) (subs : list (list Z)) : Prop := length subs = k /\ forall x r, nth_error subs x = Some r -> rowinv (if Nat.ltb x j then S i else i) r.
Lemma nth_of subs j (r : list Z) : nth_error subs j = Some r -> nth j subs [] = r.
Proof. apply nth_error_nth. Qed.
Lemma inner_ok i s0 subs : (i < n)%nat -> inv i 0 subs -> exists subs', ofold (dsm_pick (mkDsm alpha n labels s0) d i) (seq 0 (length subs)) subs = Ok subs' /\ inv (S i) 0 subs' /\ greedy m w (map (fun j => (i, j)) (seq 0 k)) subs subs'.
Proof using D L N2 A G Vl Vc Cm.
  intros Hi I0. destruct (ofold_seq (dsm_pick (mkDsm alpha n labels s0) d i) (fun j t => inv i j t /\ greedy m w (map (fun j => (i, j)) (seq 0 j)) subs t) (length subs) subs) as (t & E & I & Gr).
  - split; [auto|constructor].
  - intros j t Hj [[Lt It] Gr]. destruct I0 as [L0 _]. destruct (vget_lt t j ltac:(lia)) as (r & Er & _). pose proof (It j r Er) as Ir. rewrite Nat.ltb_irrefl in Ir.
    destruct (free_feature i r Ir Hi) as (c0 & H0 & Nc0). destruct (pick_ok t j i r s0 c0 Er ltac:(rewrite (ri_len _ _ Ir); auto) H0 Nc0) as (c & t' & Ep & Fb & Rp & r' & Ur & Us).
    exists t'. split; [auto|]. split.
    + split; [rewrite (upd_length _ _ _ _ Us); auto|]. intros x q Hx. destruct (Nat.eq_dec j x) as [<-|Nx].
      * rewrite (upd_nth_same _ _ _ _ Us), Er in Hx. injection Hx as <-. rewrite (proj2 (Nat.ltb_lt j (S j))) by lia. apply (rowinv_step i r c); auto; apply Fb.
      * rewrite (upd_nth_other _ _ _ _ _ Us Nx) in Hx. specialize (It x q Hx). destruct (Nat.ltb_spec x j), (Nat.ltb_spec x (S j)); auto; lia.
    + rewrite seq_S, map_app. cbn [map Nat.add]. apply (greedy_app _ _ _ _ _ t); [auto|]. econstructor; [rewrite (nth_of t j r Er); exact Fb|exact Rp|constructor].
  - exists t. split; [auto|]. destruct I as [Lt It], I0 as [L0 _]. split; [|rewrite L0 in Gr; exact Gr]. split; [auto|]. intros x r Hx. assert (x < length t)%nat by (apply nth_error_Some; congruence).
    specialize (It x r Hx). rewrite (proj2 (Nat.ltb_lt x _)) in It by lia. exact It.
Qed.
Lemma outer_ok s0 subs : inv 0 0 subs -> exists subs', ofold (fun subs i => ofold (dsm_pick (mkDsm alpha n labels s0) d i) (seq 0 (length subs)) subs) (seq 0 n) subs = Ok subs' /\ inv n 0 subs' /\ greedy m w (rounds n k) subs subs'.
Proof using D L N2 A G Vl Vc Cm.
  intros I0. destruct (ofold_seq (fun subs i => ofold (dsm_pick (mkDsm alpha n labels s0) d i) (seq 0 (length subs)) subs) (fun i t => inv i 0 t /\ greedy m w (rounds i k) subs t) n subs) as (t & E & I & Gr).
  - split; [auto|constructor].
  - intros i t Hi [I Gr]. destruct (inner_ok i s0 t Hi I) as (t' & E & I' & G'). exists t'. split; [auto|]. split; [auto|]. unfold rounds. rewrite seq_S, flat_map_app. cbn [flat_map Nat.add]. rewrite app_nil_r. eapply greedy_app; eauto.
  - eauto.
Qed.
Lemma inv_good subs : inv n 0 subs -> subspaces_ok m n k subs.
Proof using L N2.
  intros [Lk I]. split; [auto|]. apply Forall_forall. intros r Hr. apply In_nth_error in Hr as (x & Hx). specialize (I x r Hx). cbn in I. split; [apply I|].
  assert (forall p y, nth_error r p = Some y -> y <> unset) as Nu. { intros p y E. apply (ri_full _ _ I p y); [|auto]. rewrite <- (ri_len _ _ I). apply nth_error_Some. congruence. }
  split.
  - apply NoDup_nth_error. intros p q Hp E. destruct (nth_error r p) as [y|] eqn:Ep; [|apply nth_error_None in Ep; lia]. apply (ri_inj _ _ I p q y); auto. now apply (Nu p).
  - apply Forall_forall. intros y Hy. destruct (ri_rng _ _ I y Hy) as [->|Q]; [|exact Q]. apply In_nth_error in Hy as (p & Ep). elim (Nu p unset Ep). reflexivity.
Qed.
End Run.

Lemma fresh_inv m n k : (n <= m)%nat -> forall d : data R, d_dim d = m -> inv d n k 0 0 (repeat (repeat unset n) k).
Proof.
  intros Le d Em. split; [apply repeat_length|]. intros x r Hx. apply nth_error_In, repeat_spec in Hx as ->. cbn [Nat.ltb Nat.leb].
  assert (forall p y, nth_error (repeat unset n) p = Some y -> y = unset) as U by (intros p y E; apply nth_error_In, repeat_spec in E; auto).
  constructor; [apply repeat_length| | | |].
  - intros p q y E _ Ny. elim Ny. eauto.
  - intros y Hy. apply repeat_spec in Hy. auto.
  - intros p y Hp. lia.
  - right. rewrite Em. split; [auto|]. intros p y _ E. eauto.
Qed.
Lemma good_inv d n k subs : (n < d_dim d)%nat -> (Z.of_nat (d_dim d) <= unset)%Z -> subspaces_ok (d_dim d) n k subs -> inv d n k 0 0 subs.
Proof.
  intros Lt Cm [Lk F]. split; [auto|]. intros x r Hx. apply nth_error_In in Hx. rewrite Forall_forall in F. destruct (F r Hx) as (Lr & Nd & Rg). cbn [Nat.ltb Nat.leb].
  constructor; auto.
  - intros p q y Ep Eq _. apply (proj1 (NoDup_nth_error r) Nd); [apply nth_error_Some; congruence|congruence].
  - rewrite Forall_forall in Rg. auto.
  - intros p y Hp. lia.
Qed.
Lemma dsm_new_ok d k n alpha : data_ok d -> dsm_new d k n alpha = Ok (mkDsm alpha n (map (fun p => IZR (p_y p)) (d_points d)) (repeat (repeat unset n) k)).
Proof.
  intro D. unfold dsm_new, getLabels. rewrite (seq_view _ (fun p => Ok (p_y p)) p_y) by (auto; apply (ok_size _ D)). cbn [obind]. now rewrite map_map.
Qed.
(** C106: a new object chooses greedily, and its subspaces have different features. *)
Lemma c106_new : forall (d : data R) (k n : nat) (alpha : R), data_ok d -> (Z.of_nat (d_dim d) < 2 ^ 31)%Z -> (n <= d_dim d)%nat ->
  let labels := map (fun p => IZR (p_y p)) (d_points d) in
  let np := length (d_points d) in
  (2 <= np)%nat -> 0 <= alpha <= 1 -> alpha * INR np < 101 / 100 * (INR np - 1) -> varies np (nz labels) -> (forall c, (c < d_dim d)%nat -> varies np (fun i => at_ d i c)) ->
  exists s s', dsm_new d k n alpha = Ok s /\ dsm_run s d = Ok s' /\ subspaces_ok (d_dim d) n k (s_subs s') /\
    greedy (d_dim d) (merit d labels alpha) (rounds n k) (repeat (repeat (2 ^ 64 - 1)%Z n) k) (s_subs s').
Proof.
  intros d k n alpha D Cm Le labels np N2 A G Vl Vc. eexists. assert (length labels = np) as Ll by apply map_length.
  assert (2 <= length labels)%nat as N2' by (rewrite Ll; exact N2).
  assert (alpha * INR (length labels) < 101 / 100 * (INR (length labels) - 1)) as G' by (rewrite Ll; exact G). assert (varies (length labels) (nz labels)) as Vl' by (rewrite Ll; exact Vl).
  assert (forall c, (c < d_dim d)%nat -> varies (length labels) (fun i => at_ d i c)) as Vc' by (intros c Hc; rewrite Ll; auto). assert (Z.of_nat (d_dim d) <= unset)%Z as Cm' by (unfold unset; lia).
  destruct (outer_ok d labels alpha n k D Ll N2' A G' Vl' Vc' Cm' (repeat (repeat unset n) k) (repeat (repeat unset n) k)) as (subs' & E & I & Gr); [apply (fresh_inv (d_dim d)); auto|].
  eexists. split; [apply dsm_new_ok; auto|]. unfold dsm_run. cbn [s_n s_subs s_alpha s_labels]. fold labels. rewrite E. cbn [obind]. split; [reflexivity|]. cbn [s_subs]. split; [|exact Gr].
    exact (inv_good d labels n k Ll N2' subs' I).
Qed.
(** C106: called again, with more features than asked for. *)
Lemma c106_again : forall (d : data R) (s : dsm) k, data_ok d -> (Z.of_nat (d_dim d) < 2 ^ 31)%Z -> (s_n s < d_dim d)%nat -> subspaces_ok (d_dim d) (s_n s) k (s_subs s) ->
  length (s_labels s) = length (d_points d) ->
  let np := length (d_points d) in
  (2 <= np)%nat -> 0 <= s_alpha s <= 1 -> s_alpha s * INR np < 101 / 100 * (INR np - 1) -> varies np (nz (s_labels s)) -> (forall c, (c < d_dim d)%nat -> varies np (fun i => at_ d i c)) ->
  exists s', dsm_run s d = Ok s' /\ subspaces_ok (d_dim d) (s_n s) k (s_subs s') /\ greedy (d_dim d) (merit d (s_labels s) (s_alpha s)) (rounds (s_n s) k) (s_subs s) (s_subs s').
Proof.
  intros d [alpha n labels subs] k D Cm Lt Ok0 Ll np N2 A G Vl Vc. cbn [s_n s_subs s_alpha s_labels] in *. fold np in Ll.
  assert (2 <= length labels)%nat as N2' by (rewrite Ll; exact N2).
  assert (alpha * INR (length labels) < 101 / 100 * (INR (length labels) - 1)) as G' by (rewrite Ll; exact G). assert (varies (length labels) (nz labels)) as Vl' by (rewrite Ll; exact Vl).
  assert (forall c, (c < d_dim d)%nat -> varies (length labels) (fun i => at_ d i c)) as Vc' by (intros c Hc; rewrite Ll; auto). assert (Z.of_nat (d_dim d) <= unset)%Z as Cm' by (unfold unset; lia).
  destruct (outer_ok d labels alpha n k D Ll N2' A G' Vl' Vc' Cm' (subs) (subs)) as (subs' & E & I & Gr); [apply good_inv; auto|].
  eexists. unfold dsm_run. cbn [s_n s_subs s_alpha s_labels]. rewrite E. cbn [obind]. split; [reflexivity|]. cbn [s_subs]. split; [|exact Gr].
    exact (inv_good d labels n k Ll N2' subs' I).
Qed.
(** *** Labels without variation *)
Lemma best_from_none l : forall b bi i, (b = None \/ b = Some (- (101 / 100))) -> (forall x, In x l -> x = None \/ x = Some (- (101 / 100))) -> best_from b bi i l = bi.
Proof.
  induction l as [|x l IH]; intros b bi i B H; cbn [best_from]; [auto|]. assert (nan_lt b x = false) as ->.
  { destruct (H x (or_introl eq_refl)) as [-> | ->], B as [-> | ->]; try reflexivity. cbn. destruct (Rlt_dec _ _); [lra|reflexivity]. }
  apply IH; auto. intros y Hy. apply H. now right.
Qed.
Lemma best_none l : (forall x, In x l -> x = None \/ x = Some (- (101 / 100))) -> best_index l = 0%nat.
Proof. intro H. destruct l as [|x l]; [reflexivity|]. cbn [best_index]. apply best_from_none; [apply H; now left|intros y Hy; apply H; now right]. Qed.
Lemma mean_some v : v <> [] -> exists e, minus_mean v = Ok (Some e).
Proof. intro H. rewrite minus_ok by auto. eauto. Qed.
Lemma quality_none d labels c : data_ok d -> (c < d_dim d)%nat -> length labels = length (d_points d) -> labels <> [] -> (forall x y, In x labels -> In y labels -> x = y) -> qual_correlation labels d (Z.of_nat c) = Ok None.
Proof.
  intros D H L Nl Eq. destruct (column_ok d c D H) as (col & Ec & Lc & _). unfold qual_correlation. rewrite Ec. cbn [obind]. assert (length col = length labels) as Lcl by congruence.
  assert (col <> []) as Nc by (intros ->; destruct labels; [congruence|discriminate]).
  destruct (c65_vector col Nc) as (_ & _ & -> & _). destruct (c65_vector labels Nl) as (_ & _ & -> & _ & Z). rewrite (proj2 Z Eq), sqrt_0.
  assert (exists o, covar col labels = Ok o) as (o & ->).
  { destruct (Nat.eq_dec (length col) 1) as [L1|L1]; [|eexists; apply covar_ok; [auto|destruct col as [|? [|]]; cbn in *; try congruence; lia]].
    destruct col as [|a [|]]; try discriminate. destruct labels as [|b [|]]; try discriminate. eexists. apply c65_single_refuted. }
  cbn [obind lift2 bop_el]. rewrite Rmult_0_r. destruct o; [|reflexivity]. cbn [lift2 bop_el]. destruct (Req_EM_T 0 0); [reflexivity|congruence].
Qed.
Lemma fscore_none d labels alpha n s0 subs j r : data_ok d -> length labels = length (d_points d) -> labels <> [] -> (forall x y, In x labels -> In y labels -> x = y) -> nth_error subs j = Some r ->
  exists l, fscore (mkDsm alpha n labels s0) subs d j = Ok l /\ forall x, In x l -> x = None \/ x = Some (- (101 / 100)).
Proof.
  intros D L Nl Eq Er. exists (map (fun c => if contains r (Z.of_nat c) then Some (- (101 / 100)) else None) (seq 0 (dim d))). split.
  - unfold fscore. apply map_outcome_ok. intros c Hc. apply in_seq in Hc. rewrite (dim_ok' d D) in Hc. unfold vget. rewrite Er. cbn [obind s_labels s_alpha]. destruct (contains r (Z.of_nat c)); [reflexivity|].
    rewrite (quality_none d labels c) by (auto; lia). cbn [obind]. destruct (div_ms_ok subs j) as (v & Ev & _); [apply nth_error_Some; congruence|]. unfold div_m. rewrite Ev. reflexivity.
  - intros x Hx. apply in_map_iff in Hx as (c & <- & _). destruct (contains r (Z.of_nat c)); auto.
Qed.
(** C106: if all the labels are equal every subspace consists of the first feature only. *)
Lemma c106_labels_refuted : forall (d : data R) (k n : nat) (alpha : R), data_ok d -> d_points d <> [] -> (forall p q, In p (d_points d) -> In q (d_points d) -> p_y p = p_y q) ->
  exists s s', dsm_new d k n alpha = Ok s /\ dsm_run s d = Ok s' /\ s_subs s' = repeat (repeat 0%Z n) k.
Proof.
  intros d k n alpha D Np Eq. eexists. set (labels := map (fun p => IZR (p_y p)) (d_points d)). assert (length labels = length (d_points d)) as L by apply map_length.
  assert (labels <> []) as Nl by (unfold labels; destruct (d_points d); [congruence|discriminate]).
  assert (forall x y, In x labels -> In y labels -> x = y) as El. { intros x y Hx Hy. apply in_map_iff in Hx as (p & <- & Hp). apply in_map_iff in Hy as (q & <- & Hq). f_equal. auto. }
  set (s := mkDsm alpha n labels (repeat (repeat unset n) k)).
  set (row := fun i => repeat 0%Z i ++ repeat unset (n - i)).
  assert (forall i, (i < n)%nat -> upd i (fun _ => 0%Z) (row i) = Some (row (S i))) as Ur.
  { intros i Hi. unfold row. replace (n - i)%nat with (S (n - S i)) by lia. cbn [repeat]. rewrite (repeat_cons i 0%Z), <- app_assoc. cbn [app].
    assert (forall a (b : list Z) x, upd (length a) (fun _ => 0%Z) (a ++ x :: b) = Some (a ++ 0%Z :: b)) as U. { induction a as [|y a IH]; intros b x; [reflexivity|]. cbn [length app upd]. now rewrite IH. }
    specialize (U (repeat 0%Z i)). rewrite repeat_length in U. apply U. }
  assert (forall i subs, (i < n)%nat -> subs = repeat (row i) k -> ofold (dsm_pick s d i) (seq 0 (length subs)) subs = Ok (repeat (row (S i)) k)) as In1.
  { intros i subs Hi ->. rewrite repeat_length.
    destruct (ofold_seq (dsm_pick s d i) (fun j t => t = repeat (row (S i)) j ++ repeat (row i) (k - j)) k (repeat (row i) k)) as (t & -> & ->); [cbn; now rewrite Nat.sub_0_r| |now rewrite Nat.sub_diag, app_nil_r].
    intros j t Hj ->. assert (nth_error (repeat (row (S i)) j ++ repeat (row i) (k - j)) j = Some (row i)) as Er.
    { rewrite nth_error_app2 by (rewrite repeat_length; lia). rewrite repeat_length, Nat.sub_diag. replace (k - j)%nat with (S (k - S j)) by lia. reflexivity. }
    unfold dsm_pick. destruct (fscore_none d labels alpha n (repeat (repeat unset n) k) _ j (row i) D L Nl El Er) as (l & Ef & Hl). fold s in Ef. rewrite Ef. cbn [obind]. rewrite (best_none l Hl).
    unfold mset, vget. rewrite Er. cbn [obind]. unfold vupd at 1. cbn [Z.of_nat]. rewrite (Ur i Hi). cbn [obind]. eexists. split; [|reflexivity]. unfold vupd.
    replace (k - j)%nat with (S (k - S j)) by lia. cbn [repeat].
    assert (forall a (b : list (list Z)) x v, upd (length a) (fun _ => v) (a ++ x :: b) = Some (a ++ v :: b)) as U. { induction a as [|y a IH]; intros b x v; [reflexivity|]. cbn [length app upd]. now rewrite IH. }
    specialize (U (repeat (row (S i)) j)). rewrite repeat_length in U. rewrite U. f_equal. rewrite (repeat_cons j (row (S i))), <- app_assoc. reflexivity. }
  exists (mkDsm alpha n labels (repeat (repeat 0%Z n) k)). split; [apply dsm_new_ok; auto|]. fold labels s. split; [|reflexivity]. unfold dsm_run. cbn [s s_n s_subs s_alpha s_labels]. fold s.
  destruct (ofold_seq (fun subs i => ofold (dsm_pick s d i) (seq 0 (length subs)) subs) (fun i t => t = repeat (row i) k) n (repeat (repeat unset n) k)) as (t & E & ->).
  - unfold row. cbn. now rewrite Nat.sub_0_r.
  - intros i t Hi Et. exists (repeat (row (S i)) k). split; [now apply In1|reflexivity].
  - rewrite E. cbn [obind]. unfold row. rewrite Nat.sub_diag. cbn [repeat]. now rewrite app_nil_r.
Qed.
(** *** witnesses *)
Definition ds2 : data R := mkData [mkPoint [0; 1] 1%Z 1%Z 0; mkPoint [1; 0] 2%Z 2%Z 0] [1; 2]%Z [0; 1]%Z ["1"; "2"]%string [1; 2]%Z [1; 1]%Z 2 2 false false false true.
Definition ds3 : data R := mkData [mkPoint [0; 1] 1%Z 1%Z 0; mkPoint [1; 0] 2%Z 2%Z 0; mkPoint [2; 5] 1%Z 3%Z 0] [1; 2]%Z [0; 1; 2]%Z ["1"; "2"]%string [1; 2]%Z [2; 1]%Z 3 2 false false false true.
Definition ds1 : data R := mkData [mkPoint [0; 1] 1%Z 1%Z 0; mkPoint [1; 0] 1%Z 2%Z 0] [1; 2]%Z [0; 1]%Z ["1"]%string [1]%Z [2]%Z 2 2 false false false true.
Ltac data2 := constructor; [reflexivity| |reflexivity|cbn; lia| |reflexivity| | |discriminate|cbn; lia];
  [constructor; [reflexivity|repeat constructor; cbn; intuition discriminate|intros p Hp; cbn in Hp; intuition (subst; cbn; auto)|reflexivity|intros [|[|[|i]]] c E; cbn in E; try discriminate; injection E as <-; reflexivity]
  |intros p Hp; cbn in Hp; intuition (subst; reflexivity)|repeat constructor|intros f [<-|[<-|[]]]; lia].
Lemma ds2_ok : data_ok ds2.
Proof. data2. Qed.
Lemma ds3_ok : data_ok ds3.
Proof. data2. Qed.
Lemma ds1_ok : data_ok ds1.
Proof. data2. Qed.
Lemma ds3_labels : varies 3 (nz (map (fun p => IZR (p_y p)) (d_points ds3))).
Proof. exists 0%nat, 1%nat. split; [lia|]. split; [lia|]. cbn. lra. Qed.
Lemma ds3_columns c : (c < 2)%nat -> varies 3 (fun i => at_ ds3 i c).
Proof. intro H. exists 0%nat, 1%nat. split; [lia|]. split; [lia|]. destruct c as [|[|c]]; cbn; try lra. lia. Qed.
Lemma c106_new_ex : data_ok ds3 /\ (2 <= d_dim ds3)%nat /\ (2 <= length (d_points ds3))%nat /\ 0 <= / 2 <= 1 /\ / 2 * INR 3 < 101 / 100 * (INR 3 - 1) /\ varies 3 (nz (map (fun p => IZR (p_y p)) (d_points ds3))) /\
  (forall c, (c < d_dim ds3)%nat -> varies 3 (fun i => at_ ds3 i c)).
Proof. split; [apply ds3_ok|]. split; [cbn; lia|]. split; [cbn; lia|]. split; [lra|]. split; [cbn; lra|]. split; [apply ds3_labels|exact ds3_columns]. Qed.
Lemma c106_again_ex : exists s, subspaces_ok (d_dim ds3) (s_n s) 3 (s_subs s) /\ (s_n s < d_dim ds3)%nat /\ s_labels s = map (fun p => IZR (p_y p)) (d_points ds3) /\ s_alpha s = / 2.
Proof.
  exists (mkDsm (/ 2) 1 (map (fun p => IZR (p_y p)) (d_points ds3)) [[0%Z]; [1%Z]; [0%Z]]). split; [|split; [cbn; lia|auto]]. split; [reflexivity|].
  assert (forall x, (0 <= x < 2)%Z -> length [x] = 1%nat /\ NoDup [x] /\ Forall (fun x => (0 <= x < 2)%Z) [x]) as H by (intros x Hx; split; [reflexivity|split; [constructor; [intros []|constructor]|constructor; [exact Hx|constructor]]]).
  cbn [s_n s_subs d_dim ds3 Z.of_nat]. constructor; [apply H; lia|]. constructor; [apply H; lia|]. constructor; [apply H; lia|constructor].
Qed.
Lemma c106_labels_ex : data_ok ds1 /\ d_points ds1 <> [] /\ (forall p q, In p (d_points ds1) -> In q (d_points ds1) -> p_y p = p_y q).
Proof. split; [apply ds1_ok|]. split; [discriminate|]. intros p q [<-|[<-|[]]] [<-|[<-|[]]]; reflexivity. Qed.
Lemma two_corr f g a b x y : f 0%nat = a -> f 1%nat = b -> g 0%nat = x -> g 1%nat = y -> scatter 2 f g = (a - b) * (x - y) / 2.
Proof. intros <- <- <- <-. unfold scatter, avg. cbn [sumn INR]. field. Qed.
(** C106: the covariance is divided by n-1, the deviations by n: with few points the score of a feature falls below that of the features already taken. *)
Lemma c106_scale_refuted : exists (d : data R) s s', data_ok d /\ varies 2 (nz (map (fun p => IZR (p_y p)) (d_points d))) /\ (forall c, (c < d_dim d)%nat -> varies 2 (fun i => at_ d i c)) /\
  dsm_new d 1 (d_dim d) 1 = Ok s /\ dsm_run s d = Ok s' /\ s_subs s' = [[0; 0]]%Z /\ d_dim d = 2%nat.
Proof.
  set (labels := [IZR 1; IZR 2]). assert (varies 2 (nz labels)) as Vl by (exists 0%nat, 1%nat; split; [lia|]; split; [lia|]; cbn; lra).
  assert (forall c, (c < 2)%nat -> varies 2 (fun i => at_ ds2 i c)) as Vc by (intros c H; exists 0%nat, 1%nat; split; [lia|]; split; [lia|]; destruct c as [|[|c]]; cbn; try lra; lia).
  exists ds2, (mkDsm 1 2 labels [[unset; unset]]). eexists. split; [apply ds2_ok|]. split; [exact Vl|]. split; [exact Vc|]. split; [reflexivity|].
  assert (forall subs, merit ds2 labels 1 subs 0 = 2 /\ merit ds2 labels 1 subs 1 = -2) as M.
  { intro subs. unfold merit, correlation. cbn [length labels]. rewrite (two_corr _ (nz labels) 0 1 1 2) by reflexivity. rewrite (two_corr _ _ 0 1 0 1) by reflexivity. rewrite (two_corr (nz labels) _ 1 2 1 2) by reflexivity.
    rewrite (two_corr (fun i => at_ ds2 i 1) (nz labels) 1 0 1 2) by reflexivity. rewrite (two_corr _ _ 1 0 1 0) by reflexivity.
    replace ((0 - 1) * (0 - 1) / 2 * ((1 - 2) * (1 - 2) / 2)) with (/ 2 * / 2) by field. replace ((1 - 0) * (1 - 0) / 2 * ((1 - 2) * (1 - 2) / 2)) with (/ 2 * / 2) by field. rewrite sqrt_square by lra. cbn [INR]. split; field. }
  assert (forall subs i r s0, nth_error subs 0 = Some r -> (contains r 0 = false \/ contains r 1 = false) -> dsm_pick (mkDsm 1 2 labels s0) ds2 i subs 0 = mset subs 0 i 0%Z) as Pk.
  { intros subs i r s0 Er Hr. destruct (fscore_ok ds2 labels 1 2 ds2_ok eq_refl (le_n 2) Vl Vc subs 0 r s0 Er) as (v & _ & Ef). unfold dsm_pick. rewrite Ef. cbn [obind d_dim ds2 seq map best_index best_from]. f_equal.
    unfold raw. destruct (M subs) as [-> ->]. change (Z.of_nat 0) with 0%Z. change (Z.of_nat 1) with 1%Z. destruct (contains r 0), (contains r 1); cbn [nan_lt]; repeat (destruct (Rlt_dec _ _)); try reflexivity; try lra. }
  unfold dsm_run. cbn [s_n s_subs seq ofold length]. rewrite (Pk _ _ [unset; unset]) by (auto; reflexivity). unfold mset at 1. cbn [vget nth_error obind vupd upd length seq ofold]. rewrite (Pk _ _ [0%Z; unset]) by (auto; reflexivity). cbn [mset vget nth_error obind vupd upd].
  split; [reflexivity|]. split; reflexivity.
Qed.
