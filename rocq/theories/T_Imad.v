(** Properties of the dual incremental margin algorithm. *)
From Coq Require Import ZArith Bool List Lia Reals Lra Psatz Permutation Sorted.
From Verif Require Import Base ListLib M_Data M_Point L_Vec Loop M_Kernel S_Kernel L_Kernel M_Perc S_Perc L_Perc T_Perc L_Knn L_Smo M_Fixed S_Fixed L_Fixed T_Fixed M_Dll M_Smo M_Weight S_Weight T_Weight M_Imad.
Import ListNotations.
Local Open Scope R_scope.

Section Run.
Variable pr : params.
Variable eps inc big : R.
Variable d : data R.
Variable K : list (list R).
Variable k : nat -> nat -> R.
Local Notation m := (size d).
Hypothesis HK : forall i j, (i < m)%nat -> (j < m)%nat -> mget K i j = Ok (k i j).
Hypothesis HE : 0 < eps.
Hypothesis Hinc : 0 <= inc.

Definition fit (s : gstate) : Prop := length (g_func s) = m /\ length (g_al s) = m /\ Permutation (g_index s) (map Z.of_nat (seq 0 m)).

(** A call: it ends or meets a number that is not finite; if it answers true it has done a pass, and if it had no step left, nothing changed. *)
Lemma call_ok (Q : gstate -> Prop) gamma clk : (forall idx s s', (idx < m)%nat -> length (g_al s) = m -> Q s -> gwrong gamma d s idx -> gbad pr gamma d k s idx = false -> gupdated pr gamma d k idx s s' -> Q s') -> (forall s, Q s -> Q (g_reset s)) ->
  forall fuel t steps s, (max_it pr < steps + fuel)%nat -> (1 <= fuel)%nat -> fit s -> g_e s <> 0%nat -> Q s ->
  gloop pr gamma d K clk fuel t steps s = Ok (Some None) \/
  exists s' st, gloop pr gamma d K clk fuel t steps s = Ok (Some (Some (s', st))) /\ fit s' /\ Q s' /\ (steps <= st)%nat /\
    (g_e s' = 0%nat -> (steps < st)%nat /\ (forall idx, (idx < m)%nat -> ~ gwrong gamma d s' idx) /\ ((max_it pr < S steps)%nat -> g_func s' = g_func s /\ g_norm s' = g_norm s)).
Proof using HK.
  clear HE Hinc. intros H HRs. induction fuel as [|fuel IH]; intros t steps s HF F1 Hs He Q0; [lia|]. cbn [gloop]. destruct (clk t) eqn:CK.
  2: { right. exists s, steps. split; [reflexivity|]. split; [exact Hs|]. split; [exact Q0|]. split; [lia|]. intro Z. contradiction. }
  assert (gready d 0 (g_reset s)) as Hr by (destruct Hs as (A & B & C); repeat split; auto; cbn; lia).
  destruct (gpass_inv pr gamma d K k HK Q steps H m 0 (g_reset s) ltac:(lia) Hr (HRs s Q0)) as [(s1 & E & Hs1 & Q1)|(E & Bad)]; [|left; rewrite E; cbn [obind]; auto]. rewrite E. cbn [obind].
  destruct (gpass_clean pr gamma d K k HK steps m 0 (g_reset s) s1 ltac:(lia) Hr E) as (_ & Cl).
  assert (fit s1) as F by (destruct Hs1 as (A & B & C & _); repeat split; auto).
  destruct (Nat.eqb (g_e s1) 0 || Nat.ltb (max_it pr) (S steps) || Nat.ltb (max_up pr) (g_ctot s1)) eqn:ST.
  - right. exists s1, (S steps). split; [reflexivity|]. split; [exact F|]. split; [exact Q1|]. split; [lia|]. intro Z. split; [lia|]. destruct (Cl Z) as (-> & W). split; [|intros _; split; reflexivity].
    intros idx Hx. destruct Hs1 as (_ & _ & P & _). assert (In (Z.of_nat idx) (g_index (g_reset s))) as I. { apply (Permutation_in _ (Permutation_sym P)). apply in_map. apply in_seq. lia. }
    apply In_nth_error in I. destruct I as (j & Ej). apply (W j idx); [|unfold vget; rewrite Ej; reflexivity]. assert (j < length (g_index (g_reset s)))%nat as Lj by (apply nth_error_Some; congruence). rewrite (Permutation_length P), map_length, seq_length in Lj. lia.
  - apply orb_false_iff in ST. destruct ST as [ST _]. apply orb_false_iff in ST. destruct ST as [S1 ST]. apply Nat.ltb_ge in ST. apply Nat.eqb_neq in S1.
    destruct (IH (S t) (S steps) s1 ltac:(lia) ltac:(lia) F S1 Q1) as [Bad|(s2 & st & E2 & F2 & Q2 & L & W)]; [left; exact Bad|right]. exists s2, st. split; [exact E2|]. split; [exact F2|]. split; [exact Q2|]. split; [lia|].
    intro Z. destruct (W Z) as (W1 & W2 & _). split; [lia|]. split; [exact W2|]. intro; lia.
Qed.

Lemma scan_total norm func : length func = m -> exists mn mx, id_scan big norm d func = Ok (mn, mx).
Proof using.
  intro L. unfold id_scan. destruct (ofold_seq (fun mm i =>
    let* f := vget func i in
    Ok (if Req_EM_T norm 0 then mm
        else if Rle_dec 0 f then (if Rlt_dec (f / norm) (fst mm) then (f / norm, snd mm) else mm)
        else (if Rlt_dec (snd mm) (f / norm) then (fst mm, f / norm) else mm))) (fun _ _ => True) m (big, - big)) as ([mn mx] & E & _); [auto| |exists mn, mx; exact E].
  intros i s Hi _. rewrite vget_nz by lia. cbn [obind]. eexists. split; [reflexivity|]. auto.
Qed.

Definition rmof (mm : R * R) : R := if Rlt_dec (Rabs (snd mm)) (Rabs (fst mm)) then Rabs (snd mm) else Rabs (fst mm).
Lemma rmof_pos mm : 0 <= rmof mm.
Proof using. unfold rmof. destruct (Rlt_dec _ _); apply Rabs_pos. Qed.

(** What is known when the loop is entered, and when it is left. *)
Definition settled (st : idual) : Prop :=
  fit (id_g st) /\ 0 <= g_norm (id_g st) /\ 0 <= id_gamma st /\ length (id_saved st) = m /\ (id_it st = 0%nat -> id_steps st = 0%nat /\ id_saved st = repeat 0 m /\ id_rm st = 0) /\
  ((0 < id_it st)%nat -> exists mm, id_scan big (g_norm (id_g st)) d (g_func (id_g st)) = Ok mm /\ id_old st = rmof mm).

Lemma loop_ok (Q : gstate -> Prop) clk :
  (forall gamma idx s s', (idx < m)%nat -> length (g_al s) = m -> Q s -> gwrong gamma d s idx -> gbad pr gamma d k s idx = false -> gupdated pr gamma d k idx s s' -> Q s') ->
  (forall f b n a ix c e s1 e' s1', Q (mkG f b n a ix s1 e c) -> Q (mkG f b n a ix s1' e' c)) ->
  forall fuel st, (max_it pr < id_steps st + fuel)%nat -> settled st -> Q (id_g st) ->
  ((0 < id_it st)%nat -> exists g, Q g /\ g_al g = id_full st /\ id_saved st = id_cut eps (rate pr) (id_full st) /\ forall i, (i < m)%nat -> 0 < IZR (p_y (pt d i)) * nz (g_func g) i) ->
  id_loop pr eps inc big d K clk fuel st = Ok (Some None) \/
  exists st', id_loop pr eps inc big d K clk fuel st = Ok (Some (Some st')) /\ length (id_saved st') = m /\ Q (id_g st') /\ (id_it st' = 0%nat -> id_saved st' = repeat 0 m /\ id_rm st' = 0 /\ id_last st' = false) /\
    ((0 < id_it st')%nat -> exists g, Q g /\ g_al g = id_full st' /\ id_saved st' = id_cut eps (rate pr) (id_full st') /\ (forall i, (i < m)%nat -> 0 < IZR (p_y (pt d i)) * nz (g_func g) i) /\ (id_last st' = true -> g = id_g st')).
Proof using HK HE Hinc.
  intros HQ HS. induction fuel as [|fuel IH]; intros st HF (Ft & Pn & Pg & Ls & Hz & Hp) Q0 Hg; cbn [id_loop].
  - set (g := id_g st) in *. set (s0 := mkG (g_func g) (g_b g) (g_norm g) (g_al g) (g_index g) 0 1 (g_ctot g)).
    assert (Q s0) as Qs by (destruct g; cbn in *; eapply HS; exact Q0).
    destruct (call_ok (fun s => Q s /\ 0 <= g_norm s) (id_gamma st) (clk (id_it st))) with (fuel := S (max_it pr)) (t := 0%nat) (steps := id_steps st) (s := s0) as [E|(s & st2 & E & F & (Q1 & N1) & L & W)].
    + intros idx s s' Hx La (Qa & Na) Wr Bd Up. split; [eapply HQ; eauto|]. destruct Up as (_ & _ & -> & _). apply sqrt_pos.
    + intros s (Qa & Na). split; [destruct s; eapply HS; exact Qa|exact Na].
    + lia. + lia. + exact Ft. + discriminate. + split; auto.
    + left. rewrite E. reflexivity.
    + right. rewrite E. cbn [obind]. destruct (Nat.eqb_spec (g_e s) 0) as [Z|Z].
      * destruct (W Z) as (L1 & W1 & W2). destruct (W2 ltac:(lia)) as (W3 & W4). assert (0 < id_it st)%nat as It by (destruct (id_it st); [destruct (Hz eq_refl); lia|lia]).
        destruct (Hp It) as (mm & Em & Eo). cbn [s0 g_func g_norm] in W3, W4. rewrite W3, W4. rewrite Em. cbn [obind]. fold (rmof mm). rewrite Eo. destruct (Rlt_dec (rmof mm - rmof mm) eps) as [_|N]; [|lra].
        eexists. split; [reflexivity|]. cbn [id_saved id_g id_it id_rm id_last id_full]. split; [unfold id_cut; rewrite map_length; apply F|]. split; [exact Q1|]. split; [intro; lia|]. intros _. exists s. split; [exact Q1|]. split; [reflexivity|]. split; [reflexivity|]. split; [|auto].
        intros i Hi. specialize (W1 i Hi). unfold gwrong in W1. assert (0 <= id_gamma st * g_norm s) by (apply Rmult_le_pos; auto). lra.
      * eexists. split; [reflexivity|]. cbn [id_saved id_g id_it id_rm id_last id_full]. split; [exact Ls|]. split; [exact Q1|]. split; [intro I0; destruct (Hz I0) as (_ & A & B); auto|]. intro I0. destruct (Hg I0) as (gg & A & B & C & D). exists gg. split; [exact A|]. split; [exact B|]. split; [exact C|]. split; [exact D|]. discriminate.
  - set (g := id_g st) in *. set (s0 := mkG (g_func g) (g_b g) (g_norm g) (g_al g) (g_index g) 0 1 (g_ctot g)).
    assert (Q s0) as Qs by (destruct g; cbn in *; eapply HS; exact Q0).
    destruct (call_ok (fun s => Q s /\ 0 <= g_norm s) (id_gamma st) (clk (id_it st))) with (fuel := S (max_it pr)) (t := 0%nat) (steps := id_steps st) (s := s0) as [E|(s & st2 & E & F & (Q1 & N1) & L & W)].
    + intros idx s s' Hx La (Qa & Na) Wr Bd Up. split; [eapply HQ; eauto|]. destruct Up as (_ & _ & -> & _). apply sqrt_pos.
    + intros s (Qa & Na). split; [destruct s; eapply HS; exact Qa|exact Na].
    + lia. + lia. + exact Ft. + discriminate. + split; auto.
    + left. rewrite E. reflexivity.
    + rewrite E. cbn [obind]. destruct (Nat.eqb_spec (g_e s) 0) as [Z|Z].
      * destruct (W Z) as (L1 & W1 & _). destruct (scan_total (g_norm s) (g_func s) ltac:(apply F)) as (mn & mx & Em). rewrite Em. cbn [obind]. fold (rmof (mn, mx)).
        assert (forall i, (i < m)%nat -> 0 < IZR (p_y (pt d i)) * nz (g_func s) i) as Sep. { intros i Hi. specialize (W1 i Hi). unfold gwrong in W1. assert (0 <= id_gamma st * g_norm s) by (apply Rmult_le_pos; auto). lra. }
        destruct (Rlt_dec (rmof (mn, mx) - id_old st) eps) as [_|N].
        -- right. eexists. split; [reflexivity|]. cbn [id_saved id_g id_it id_rm id_last id_full]. split; [unfold id_cut; rewrite map_length; apply F|]. split; [exact Q1|]. split; [intro; lia|]. intros _. exists s. split; [exact Q1|]. split; [reflexivity|]. split; [reflexivity|]. split; [exact Sep|auto].
        -- apply IH; cbn [id_saved id_g id_it id_rm id_last id_full id_steps id_gamma id_old].
           ++ lia.
           ++ split; [exact F|]. split; [exact N1|]. split.
              { pose proof (rmof_pos (mn, mx)) as RP. assert (0 <= inc * rmof (mn, mx)) by (apply Rmult_le_pos; auto). cbn [id_gamma fst snd]. destruct (Rlt_dec _ _) as [?|?]; lra. }
              split; [cbn [id_saved]; unfold id_cut; rewrite map_length; apply F|]. cbn [id_it id_g id_old]. split; [intro; lia|]. intros _. exists (mn, mx). auto.
           ++ exact Q1.
           ++ intros _. exists s. auto.
      * right. eexists. split; [reflexivity|]. cbn [id_saved id_g id_it id_rm id_last id_full]. split; [exact Ls|]. split; [exact Q1|]. split; [intro I0; destruct (Hz I0) as (_ & A & B); auto|]. intro I0. destruct (Hg I0) as (gg & A & B & C & D). exists gg. split; [exact A|]. split; [exact B|]. split; [exact C|]. split; [exact D|]. discriminate.
Qed.
End Run.

Lemma knorm_total k d kf : (forall i j, (i < size d)%nat -> (j < size d)%nat -> mget (k_K k) i j = Ok (kf i j)) -> exists v, knorm k d = Ok v.
Proof.
  intro HK. unfold knorm.
  destruct (ofold_seq (fun s i => ofold (fun s j =>
      let* pi := vget (d_points d) i in let* pj := vget (d_points d) j in let* v := mget (k_K k) i j in
      let s1 := (snd s + p_alpha pj * IZR (p_y pj) * v)%R in
      Ok (fst s + IZR (p_y pi) * p_alpha pi * s1, s1)%R) (seq 0 (size d)) s) (fun _ (_ : R * R) => True) (size d) (0, 0)) as (s & E & _); [auto| |].
  - intros i s Hi _. destruct (ofold_seq (fun s j =>
      let* pi := vget (d_points d) i in let* pj := vget (d_points d) j in let* v := mget (k_K k) i j in
      let s1 := (snd s + p_alpha pj * IZR (p_y pj) * v)%R in
      Ok (fst s + IZR (p_y pi) * p_alpha pi * s1, s1)%R) (fun _ (_ : R * R) => True) (size d) s) as (s2 & E & _); [auto| |exists s2; auto].
    intros j s' Hj _. rewrite !vget_pt by auto. cbn [obind]. rewrite HK by auto. cbn [obind]. eexists. split; [reflexivity|auto].
  - cbv zeta in E |- *. rewrite E. cbn [obind]. eauto.
Qed.

Definition kvt pw t par (d : data R) (i j : nat) : R := kval pw t par (fun _ _ _ => 0) (dim d) (pt d i) (pt d j).

(** The whole training: the function values kept are those of the alphas and the bias, if the points start with alphas 0. *)
Lemma train_ok pw t par pr eps inc big clk d : rect d -> index_perm d -> t <> Custom -> 0 < eps -> 0 <= inc ->
  id_train pw (kernel_make t par) pr eps inc big clk d = Ok (Some None) \/
  exists r, id_train pw (kernel_make t par) pr eps inc big clk d = Ok (Some (Some r)) /\ length (dr_alpha r) = size d /\ length (dr_w r) = dim d /\ dr_data r = with_alphas d (dr_alpha r) /\
    k_type (dr_kernel r) = t /\ k_param (dr_kernel r) = par /\
    (t = InnerProduct -> forall j, (j < dim d)%nat -> nz (dr_w r) j = weight_of d (nz (dr_alpha r)) j) /\
    (dr_ok r = false -> dr_alpha r = repeat 0 (size d) /\ dr_margin r = 0 /\ dr_last r = false) /\
    (dr_ok r = true -> dr_alpha r = id_cut eps (rate pr) (dr_full r) /\
      ((forall p, In p (d_points d) -> p_alpha p = 0) -> exists b, (forall i, (i < size d)%nat -> 0 < IZR (p_y (pt d i)) * gvalue d (kvt pw t par d) (dr_full r) b i) /\ (dr_last r = true -> b = dr_bias r))).
Proof.
  intros HR HI HT HE Hi. unfold id_train.
  destruct (compute pw (kernel_make t par) d None) as [k| |] eqn:EC; [|exfalso|exfalso]; try (destruct (kernel_any pw (kernel_make t par) d eq_refl HR HT) as (k' & E & _); congruence).
  cbn [obind].
  assert (k_type k = t /\ k_param k = par /\ k_H k = [] /\ forall i j, (i < size d)%nat -> (j < size d)%nat -> mget (k_K k) i j = Ok (kvt pw t par d i j)) as (KT & KP & KH & HK).
  { destruct (kernel_any pw (kernel_make t par) d eq_refl HR HT) as (k' & E & T & P & HK). rewrite EC in E. injection E as <-. split; [exact T|]. split; [exact P|]. split; [|exact HK].
    unfold compute in EC. cbn [k_computed kernel_make] in EC. destruct (ofold _ _ _) as [m0| |] in EC; [|discriminate|discriminate]. cbn [obind] in EC. injection EC as <-. reflexivity. }
  set (kf := kvt pw t par d) in *.
  set (Q := fun s : gstate => (forall p, In p (d_points d) -> p_alpha p = 0) -> forall r, (r < size d)%nat -> nz (g_func s) r = gvalue d kf (g_al s) (g_b s) r).
  destruct (loop_ok pr eps inc big d (k_K k) kf HK HE Hi Q clk) with (fuel := S (max_it pr)) (st := id_start d) as [E|(st & E & Ls & _ & Z & P)].
  - intros gamma idx s s' Hx _ Q0 _ _ Up H0. exact (gvalue_step pr gamma d _ idx s s' Hx (Q0 H0) Up).
  - intros. exact H.
  - cbn. lia.
  - split; [split; [apply repeat_length|split; [apply map_length|exact HI]]|]. cbn. split; [lra|]. split; [lra|]. split; [apply repeat_length|]. split; [auto|]. intro; lia.
  - intros H0 r Hr. cbn [id_start id_g g_func g_al g_b]. rewrite nz_repeat. unfold gvalue. rewrite sumn_zero; [ring|]. intros i Hi'.
    rewrite (nz_map p_alpha (mkPoint [] 0%Z 0%Z 0)) by exact Hi'. rewrite H0 by (apply nth_In; exact Hi'). ring.
  - cbn. intro; lia.
  - left. rewrite E. reflexivity.
  - right. rewrite E. cbn [obind]. cbv zeta. set (d' := with_alphas d (id_saved st)).
    destruct (knorm_total k d' kf) as (nm & ->); [intros i j; unfold d'; rewrite with_size; apply HK|]. cbn [obind].
    assert (rect d') as HR' by (apply with_rect; auto).
    destruct (smo_weights_ok pw k d' HR' ltac:(congruence) KH) as (w & k' & Ew & Lw & T' & P'). rewrite Ew. cbn [obind].
    eexists. split; [reflexivity|]. cbn [dr_alpha dr_w dr_data dr_kernel dr_ok dr_margin dr_last dr_full dr_bias fst snd]. unfold d' in Lw. rewrite with_dim in Lw.
    split; [exact Ls|]. split; [exact Lw|]. split; [reflexivity|]. split; [congruence|]. split; [congruence|]. split; [|split].
    + intros HIP j Hj. unfold smo_weights in Ew. rewrite KT, HIP in Ew. destruct (c90_weight d' HR') as (w0 & E0 & L0 & W0). rewrite E0 in Ew. cbn [obind] in Ew. injection Ew as <- _.
      unfold d' in W0. rewrite with_dim in W0. rewrite (W0 j Hj). unfold weight_of. rewrite with_size. apply sumn_ext. intros i Hi'. unfold alpha_of. rewrite with_pt by auto. reflexivity.
    + intro O. apply negb_false_iff, Nat.eqb_eq in O. apply (Z O).
    + intro O. apply negb_true_iff, Nat.eqb_neq in O. destruct (P ltac:(lia)) as (g & Qg & Ag & Sv & Sep & La). split; [exact Sv|]. intro H0. exists (g_b g). split.
      * intros i Hi'. rewrite <- Ag. rewrite <- (Qg H0 i Hi'). apply Sep. exact Hi'.
      * intro L. rewrite (La L). reflexivity.
Qed.

(** C96: training never reads outside an array and ends: it returns a solution, or computes a number that is not finite. *)
Lemma c96_total : forall (pw : R -> R -> R) t par pr (eps inc big : R) (clk : nat -> nat -> bool) (d : data R), rect d -> index_perm d -> t <> Custom -> 0 < eps -> 0 <= inc ->
  id_train pw (kernel_make t par) pr eps inc big clk d = Ok (Some None) \/
  exists r, id_train pw (kernel_make t par) pr eps inc big clk d = Ok (Some (Some r)) /\ length (dr_alpha r) = size d /\ length (dr_w r) = dim d.
Proof.
  intros pw t par pr eps inc big clk d HR HI HT HE Hi. destruct (train_ok pw t par pr eps inc big clk d HR HI HT HE Hi) as [E|(r & E & A & B & _)]; [left; exact E|right; exists r; auto].
Qed.
(** C96: with the inner product the weights stored are the combination of the training points given by the stored alphas. *)
Lemma c96_weights : forall (pw : R -> R -> R) par pr (eps inc big : R) (clk : nat -> nat -> bool) (d : data R) r, rect d -> index_perm d -> 0 < eps -> 0 <= inc ->
  id_train pw (kernel_make InnerProduct par) pr eps inc big clk d = Ok (Some (Some r)) -> forall j, (j < dim d)%nat -> nz (dr_w r) j = weight_of d (nz (dr_alpha r)) j.
Proof.
  intros pw par pr eps inc big clk d r HR HI HE Hi E. destruct (train_ok pw InnerProduct par pr eps inc big clk d HR HI ltac:(discriminate) HE Hi) as [E'|(r' & E' & _ & _ & _ & _ & _ & W & _)]; rewrite E in E'; [discriminate|]. injection E' as <-. exact (W eq_refl).
Qed.
(** C96: a training that answers false stores alphas 0 and margin 0. *)
Lemma c96_failed : forall (pw : R -> R -> R) t par pr (eps inc big : R) (clk : nat -> nat -> bool) (d : data R) r, rect d -> index_perm d -> t <> Custom -> 0 < eps -> 0 <= inc ->
  id_train pw (kernel_make t par) pr eps inc big clk d = Ok (Some (Some r)) -> dr_ok r = false -> (forall i, (i < size d)%nat -> nz (dr_alpha r) i = 0) /\ dr_margin r = 0.
Proof.
  intros pw t par pr eps inc big clk d r HR HI HT HE Hi E O. destruct (train_ok pw t par pr eps inc big clk d HR HI HT HE Hi) as [E'|(r' & E' & _ & _ & _ & _ & _ & _ & Z & _)]; rewrite E in E'; [discriminate|]. injection E' as <-.
  destruct (Z O) as (A & B & _). split; [|exact B]. intros i _. rewrite A. apply nz_repeat.
Qed.

Lemma dual_at pw k d a0 al b i : k_type k <> Custom -> rect d -> length a0 = size d -> length al = size d -> binary d -> (i < size d)%nat ->
  0 < IZR (p_y (pt d i)) * gvalue d (kvt pw (k_type k) (k_param k) d) al b i -> dual_evaluate pw k (with_alphas d a0) al b (pt d i) = Ok (p_y (pt d i)).
Proof.
  intros HT HR L0 La HB Hi H. rewrite dual_evaluate_ok; [|exact HT|apply with_rect; auto|rewrite with_dim; apply rect_pt; auto|rewrite with_size; auto].
  assert (dual_value (kval pw (k_type k) (k_param k) (fun _ _ _ => 0) (dim (with_alphas d a0))) (with_alphas d a0) al b (pt d i) = gvalue d (kvt pw (k_type k) (k_param k) d) al b i) as ->.
  { unfold dual_value, gvalue. rewrite with_size. f_equal. apply sumn_ext. intros j Hj. rewrite with_pt by auto. rewrite with_dim. cbn [p_y]. f_equal. unfold kvt. rewrite kval_sym by (intro; contradiction). apply kval_features; auto. }
  f_equal. destruct (HB (pt d i)) as [Y|Y]; [apply nth_In; exact Hi| |]; rewrite Y in *; destruct (Rle_dec 0 _) as [?|N]; auto; lra.
Qed.

(** C96: if training answers true, ends because the margin no longer grows, starts from points with alphas 0 and cuts none of the alphas to 0,
    then evaluate returns the label of every training point. *)
Lemma c96_classifies : forall (pw : R -> R -> R) t par pr (eps inc big : R) (clk : nat -> nat -> bool) (d : data R) r, rect d -> index_perm d -> t <> Custom -> 0 < eps -> 0 <= inc ->
  binary d -> (forall p, In p (d_points d) -> p_alpha p = 0) -> id_train pw (kernel_make t par) pr eps inc big clk d = Ok (Some (Some r)) -> dr_last r = true ->
  (forall i, (i < size d)%nat -> nz (dr_full r) i = 0 \/ eps * rate pr < nz (dr_full r) i) ->
  forall p, In p (d_points d) -> dual_evaluate pw (dr_kernel r) (dr_data r) (dr_alpha r) (dr_bias r) p = Ok (p_y p).
Proof.
  intros pw t par pr eps inc big clk d r HR HI HT HE Hi HB H0 E L NC p Hp.
  destruct (train_ok pw t par pr eps inc big clk d HR HI HT HE Hi) as [E'|(r' & E' & La & _ & Ed & KT & KP & _ & Z & P)]; rewrite E in E'; [discriminate|]. injection E' as <-.
  destruct (dr_ok r) eqn:O; [|destruct (Z eq_refl) as (_ & _ & F); congruence]. destruct (P eq_refl) as (C & S). destruct (S H0) as (b & Sep & Eb). specialize (Eb L). subst b.
  destruct (In_nth _ _ (mkPoint [] 0%Z 0%Z 0) Hp) as (i & Hi' & <-). change (nth i (d_points d) (mkPoint [] 0%Z 0%Z 0)) with (pt d i).
  rewrite Ed. apply dual_at; auto; [congruence|]. rewrite KT, KP.
  replace (gvalue d (kvt pw t par d) (dr_alpha r) (dr_bias r) i) with (gvalue d (kvt pw t par d) (dr_full r) (dr_bias r) i); [apply Sep; exact Hi'|].
  unfold gvalue. f_equal. apply sumn_ext. intros j Hj. do 2 f_equal. specialize (NC j Hj). rewrite C in *. unfold id_cut. unfold id_cut in La. rewrite map_length in La.
  rewrite (nz_map (fun a => if Rlt_dec (eps * rate pr) a then a else 0) 0) by lia. change (nth j (dr_full r) 0) with (nz (dr_full r) j). destruct (Rlt_dec _ _) as [?|N]; [reflexivity|]. destruct NC; [assumption|contradiction].
Qed.
(** C96: in general an answer true only means that the stored alphas separate the training points with some bias (if none is cut). *)
Lemma c96_some_bias : forall (pw : R -> R -> R) t par pr (eps inc big : R) (clk : nat -> nat -> bool) (d : data R) r, rect d -> index_perm d -> t <> Custom -> 0 < eps -> 0 <= inc ->
  binary d -> (forall p, In p (d_points d) -> p_alpha p = 0) -> id_train pw (kernel_make t par) pr eps inc big clk d = Ok (Some (Some r)) -> dr_ok r = true ->
  (forall i, (i < size d)%nat -> nz (dr_full r) i = 0 \/ eps * rate pr < nz (dr_full r) i) ->
  exists b, forall p, In p (d_points d) -> dual_evaluate pw (dr_kernel r) (dr_data r) (dr_alpha r) b p = Ok (p_y p).
Proof.
  intros pw t par pr eps inc big clk d r HR HI HT HE Hi HB H0 E O NC.
  destruct (train_ok pw t par pr eps inc big clk d HR HI HT HE Hi) as [E'|(r' & E' & La & _ & Ed & KT & KP & _ & Z & P)]; rewrite E in E'; [discriminate|]. injection E' as <-.
  destruct (P O) as (C & S). destruct (S H0) as (b & Sep & _). exists b. intros p Hp.
  destruct (In_nth _ _ (mkPoint [] 0%Z 0%Z 0) Hp) as (i & Hi' & <-). change (nth i (d_points d) (mkPoint [] 0%Z 0%Z 0)) with (pt d i).
  rewrite Ed. apply dual_at; auto; [congruence|]. rewrite KT, KP.
  replace (gvalue d (kvt pw t par d) (dr_alpha r) b i) with (gvalue d (kvt pw t par d) (dr_full r) b i); [apply Sep; exact Hi'|].
  unfold gvalue. f_equal. apply sumn_ext. intros j Hj. do 2 f_equal. specialize (NC j Hj). rewrite C in *. unfold id_cut. unfold id_cut in La. rewrite map_length in La.
  rewrite (nz_map (fun a => if Rlt_dec (eps * rate pr) a then a else 0) 0) by lia. change (nth j (dr_full r) 0) with (nz (dr_full r) j). destruct (Rlt_dec _ _) as [?|N]; [reflexivity|]. destruct NC; [assumption|contradiction].
Qed.

(** ** Concrete runs *)
Lemma train_of_loop (P : idual -> Prop) pw t par pr eps inc big clk d : rect d -> t <> Custom ->
  (forall K, (forall i j, (i < size d)%nat -> (j < size d)%nat -> mget K i j = Ok (kvt pw t par d i j)) ->
     exists st, id_loop pr eps inc big d K clk (S (max_it pr)) (id_start d) = Ok (Some (Some st)) /\ length (id_saved st) = size d /\ P st) ->
  exists r st, id_train pw (kernel_make t par) pr eps inc big clk d = Ok (Some (Some r)) /\ P st /\ dr_alpha r = id_saved st /\ dr_bias r = g_b (id_g st) /\ dr_margin r = id_rm st /\
    dr_ok r = negb (Nat.eqb (id_it st) 0) /\ dr_full r = id_full st /\ dr_last r = id_last st /\ dr_data r = with_alphas d (id_saved st) /\ k_type (dr_kernel r) = t /\ k_param (dr_kernel r) = par /\
    dr_svs r = filter (fun i => if Rlt_dec (eps * rate pr) (nz (g_al (id_g st)) i) then true else false) (seq 0 (size d)).
Proof.
  intros HR HT H. unfold id_train.
  destruct (kernel_any pw (kernel_make t par) d eq_refl HR HT) as (k & EC & KT & KP & HK). rewrite EC. cbn [obind]. destruct (H (k_K k) HK) as (st & -> & Ls & HP). cbn [obind]. cbv zeta.
  assert (k_H k = []) as KH. { unfold compute in EC. cbn [k_computed kernel_make] in EC. destruct (ofold _ _ _) as [m0| |] in EC; [|discriminate|discriminate]. cbn [obind] in EC. injection EC as <-. reflexivity. }
  set (d' := with_alphas d (id_saved st)).
  destruct (knorm_total k d' (kvt pw t par d)) as (nm & ->); [intros i j; unfold d'; rewrite with_size; apply HK|]. cbn [obind].
  assert (rect d') as HR' by (apply with_rect; auto).
  destruct (smo_weights_ok pw k d' HR' ltac:(cbn in KT; congruence) KH) as (w & k' & Ew & Lw & T' & P'). rewrite Ew. cbn [obind].
  eexists _, st. split; [reflexivity|]. split; [exact HP|]. cbn [dr_alpha dr_bias dr_margin dr_data dr_kernel dr_ok dr_last dr_full fst snd]. cbn [kernel_make k_type k_param] in KT, KP.
  do 7 (split; [reflexivity|]). split; [congruence|]. split; [congruence|]. reflexivity.
Qed.

Section Steps.
Variable pr : params.
Variable gamma : R.
Variable d : data R.
Variable K : list (list R).
Lemma gpass_hit steps i r s idx p f lam func' f' kii q al2 j ix1 ix2 :
  vget (g_index s) i = Ok (Z.of_nat idx) -> vget (d_points d) idx = Ok p -> vget (g_func s) idx = Ok f -> IZR (p_y p) * f - gamma * g_norm s <= 0 -> (gamma <> 0 -> g_norm s <> 0) ->
  (if Req_EM_T gamma 0 then 1 else 1 - rate pr * gamma / g_norm s) = lam -> gm_func pr d K idx (IZR (p_y p)) lam (g_b s) (g_func s) = Ok func' -> vget func' idx = Ok f' -> mget K idx idx = Ok kii ->
  g_norm s * lam * (g_norm s * lam) + 2 * rate pr * IZR (p_y p) * lam * (f' - g_b s) + rate pr * rate pr * kii = q -> 0 <= q -> vupd idx (fun a => a + rate pr) (map (fun a => a * lam) (g_al s)) = Ok al2 ->
  vget (g_index s) (if Nat.ltb (g_s s) i then S (g_s s) else g_e s) = Ok j -> vupd (if Nat.ltb (g_s s) i then S (g_s s) else g_e s) (fun _ => Z.of_nat idx) (g_index s) = Ok ix1 -> vupd i (fun _ => j) ix1 = Ok ix2 ->
  gpass pr gamma d K steps (i :: r) s = gpass pr gamma d K steps r (mkG func' (g_b s + rate pr * IZR (p_y p)) (sqrt q) al2 ix2 (if Nat.ltb (g_s s) i then S (g_s s) else g_s s) (S (g_e s)) (S (g_ctot s))).
Proof.
  intros H1 H2 H3 H4 H5 H6 H7 H8 H9 H10 H11 H12 H13 H14 H15. cbn [gpass]. rewrite H1. cbn [obind]. rewrite zidx_nat. cbn [obind]. rewrite H2. cbn [obind]. rewrite H3. cbn [obind].
  destruct (Rle_dec _ 0) as [_|N]; [|contradiction]. destruct (if Req_EM_T gamma 0 then false else _) eqn:B.
  { exfalso. destruct (Req_EM_T gamma 0) as [|N]; [discriminate|]. destruct (Req_EM_T (g_norm s) 0) as [Z|]; [|discriminate]. exact (H5 N Z). }
  cbv zeta. rewrite H6, H7. cbn [obind]. rewrite H8. cbn [obind]. rewrite H9. cbn [obind]. rewrite H10. destruct (Rlt_dec q 0) as [L|_]; [lra|]. rewrite H12. cbn [obind]. rewrite H13. cbn [obind]. rewrite H14. cbn [obind]. rewrite H15. reflexivity.
Qed.
Lemma gpass_stay steps i r s idx p f : vget (g_index s) i = Ok (Z.of_nat idx) -> vget (d_points d) idx = Ok p -> vget (g_func s) idx = Ok f -> 0 < IZR (p_y p) * f - gamma * g_norm s ->
  Nat.ltb 0 steps && Nat.ltb 1 (g_e s) && Nat.ltb (g_s s) i = false -> gpass pr gamma d K steps (i :: r) s = gpass pr gamma d K steps r s.
Proof.
  intros H1 H2 H3 H4 H5. cbn [gpass]. rewrite H1. cbn [obind]. rewrite zidx_nat. cbn [obind]. rewrite H2. cbn [obind]. rewrite H3. cbn [obind].
  destruct (Rle_dec _ 0) as [N|_]; [lra|]. rewrite H5. reflexivity.
Qed.
Lemma gpass_nil steps s : gpass pr gamma d K steps [] s = Ok (Some s).
Proof. reflexivity. Qed.
Lemma gm3 idx y lam b a0 a1 a2 k0 k1 k2 : size d = 3%nat -> mget K idx 0 = Ok k0 -> mget K idx 1 = Ok k1 -> mget K idx 2 = Ok k2 ->
  gm_func pr d K idx y lam b [a0; a1; a2] = Ok [lam * a0 + rate pr * y * (k0 + 1) + b * (1 - lam); lam * a1 + rate pr * y * (k1 + 1) + b * (1 - lam); lam * a2 + rate pr * y * (k2 + 1) + b * (1 - lam)].
Proof. intros S H0 H1 H2. unfold gm_func. rewrite S. cbn [seq ofold]. rewrite H0. cbn [obind vupd upd]. rewrite H1. cbn [obind vupd upd]. rewrite H2. reflexivity. Qed.
Lemma gm2 idx y lam b a0 a1 k0 k1 : size d = 2%nat -> mget K idx 0 = Ok k0 -> mget K idx 1 = Ok k1 ->
  gm_func pr d K idx y lam b [a0; a1] = Ok [lam * a0 + rate pr * y * (k0 + 1) + b * (1 - lam); lam * a1 + rate pr * y * (k1 + 1) + b * (1 - lam)].
Proof. intros S H0 H1. unfold gm_func. rewrite S. cbn [seq ofold]. rewrite H0. cbn [obind vupd upd]. rewrite H1. reflexivity. Qed.
End Steps.

Ltac look := match goal with |- vget _ _ = _ => reflexivity | |- @vupd Z _ _ _ = _ => reflexivity | |- _ && _ = false => reflexivity | _ => idtac end.
(** The points (0,2) and (2,0) of label 1 and (-2,-1) of label -1. *)
Definition idb : data R := mkData [mkPoint [0; 2] 1%Z 1%Z 0; mkPoint [2; 0] 1%Z 2%Z 0; mkPoint [-2; -1] (-1)%Z 3%Z 0] [1; 2]%Z [0; 1; 2]%Z [] [1; -1]%Z [2; 1]%Z 3 2 false false false true.
Lemma idb_ok : rect idb /\ index_perm idb /\ binary idb /\ (forall p, In p (d_points idb) -> p_alpha p = 0).
Proof. split; [intros p [<-|[<-|[<-|[]]]]; reflexivity|]. split; [apply Permutation_refl|]. split; intros p [<-|[<-|[<-|[]]]]; auto. Qed.
Definition fine : params := mkParams 1 2 2.
Lemma idb_first (K : list (list R)) clk : (forall i j, (i < 3)%nat -> (j < 3)%nat -> mget K i j = Ok (kvt Rpower InnerProduct 0 idb i j)) -> (forall t, clk t = true) ->
  gloop fine 0 idb K clk 3 0 0 (mkG [0; 0; 0] 0 0 [0; 0; 0] [0; 1; 2]%Z 0 1 0) = Ok (Some (Some (mkG [5; 1; -1] 1 (sqrt 14) [1; 0; 0] [0; 1; 2]%Z 0 0 1, 2%nat))).
Proof.
  intros HK HC.
  assert (mget K 0 0 = Ok 4) as K00 by (rewrite HK by lia; f_equal; unfold kvt, kval, inner; cbn; ring).
  assert (mget K 0 1 = Ok 0) as K01 by (rewrite HK by lia; f_equal; unfold kvt, kval, inner; cbn; ring).
  assert (mget K 0 2 = Ok (-2)) as K02 by (rewrite HK by lia; f_equal; unfold kvt, kval, inner; cbn; ring).
  rewrite gloop_S by apply HC. change (seq 0 (size idb)) with [0; 1; 2]%nat. unfold g_reset. cbn [g_func g_b g_norm g_al g_index g_s g_ctot].
  rewrite (gpass_hit fine 0 idb K 0 0 [1; 2]%nat _ 0 (mkPoint [0; 2] 1%Z 1%Z 0) 0 1 [5; 1; -1] 5 4 14 [1; 0; 0] 0%Z [0; 1; 2]%Z [0; 1; 2]%Z); look; try exact K00.
  2:{ cbn. lra. }
  2:{ intro; contradiction. }
  2:{ destruct (Req_EM_T 0 0); [reflexivity|lra]. }
  2:{ cbn [g_b g_func p_y]. rewrite (gm3 fine idb K 0 1 1 0 0 0 0 4 0 (-2) eq_refl K00 K01 K02). cbn [rate fine]. do 2 f_equal; [lra|f_equal; [lra|f_equal; lra]]. }
  2:{ cbn. lra. }
  2:{ lra. }
  2:{ cbn. do 2 f_equal; [lra|f_equal; [lra|f_equal; lra]]. }
  cbn [g_b g_s g_e g_ctot Nat.ltb Nat.leb fine rate p_y].
  rewrite (gpass_stay fine 0 idb K 0 1 [2]%nat _ 1 (mkPoint [2; 0] 1%Z 2%Z 0) 1); look; [|cbn; lra].
  rewrite (gpass_stay fine 0 idb K 0 2 []%nat _ 2 (mkPoint [-2; -1] (-1)%Z 3%Z 0) (-1)); look; [|cbn; lra].
  rewrite gpass_nil. cbn [obind g_e g_ctot Nat.eqb orb fine max_it max_up Nat.ltb Nat.leb]. change (mkParams 1 2 2) with fine.
  rewrite gloop_S by apply HC. change (seq 0 (size idb)) with [0; 1; 2]%nat. unfold g_reset. cbn [g_func g_b g_norm g_al g_index g_s g_ctot].
  rewrite (gpass_stay fine 0 idb K 1 0 [1; 2]%nat _ 0 (mkPoint [0; 2] 1%Z 1%Z 0) 5); look; [|cbn; lra].
  rewrite (gpass_stay fine 0 idb K 1 1 [2]%nat _ 1 (mkPoint [2; 0] 1%Z 2%Z 0) 1); look; [|cbn; lra].
  rewrite (gpass_stay fine 0 idb K 1 2 []%nat _ 2 (mkPoint [-2; -1] (-1)%Z 3%Z 0) (-1)); look; [|cbn; lra].
  rewrite gpass_nil. cbn [obind g_e Nat.eqb orb]. do 5 f_equal. lra.
Qed.
Lemma sqrt14 : 3 < sqrt 14 < 4 /\ sqrt 14 * sqrt 14 = 14.
Proof.
  assert (sqrt 14 * sqrt 14 = 14) as H by (apply sqrt_sqrt; lra). pose proof (sqrt_pos 14). split; [|exact H]. split; apply Rnot_le_lt; intro; nra.
Qed.
Lemma idb_second (K : list (list R)) clk : (forall i j, (i < 3)%nat -> (j < 3)%nat -> mget K i j = Ok (kvt Rpower InnerProduct 0 idb i j)) -> (forall t, clk t = true) ->
  exists s, gloop fine (1001 / 1000 * (1 / sqrt 14)) idb K clk 3 0 2 (mkG [5; 1; -1] 1 (sqrt 14) [1; 0; 0] [0; 1; 2]%Z 0 1 1) = Ok (Some (Some (s, 3%nat))) /\ g_e s = 1%nat /\ g_b s = 2 /\ g_al s = [1 - 1001 / 14000; 1; 0].
Proof.
  intros HK HC. destruct sqrt14 as ((A1 & A2) & A3). set (n := sqrt 14) in *. set (gm := 1001 / 1000 * (1 / n)). set (lam := 1 - 1001 / 14000).
  assert (gm * n = 1001 / 1000) as GN by (unfold gm; field; lra).
  assert (0 < gm) as G0. { unfold gm. apply Rmult_lt_0_compat; [lra|]. apply Rdiv_lt_0_compat; lra. }
  assert (gm < 1/2) as G1 by nra.
  assert (1 - 1 * gm / n = lam) as EL. { unfold lam. replace (1 * gm / n) with (gm * n / (n * n)) by (field; lra). rewrite GN, A3. lra. }
  assert (mget K 1 0 = Ok 0) as K10 by (rewrite HK by lia; f_equal; unfold kvt, kval, inner; cbn; ring).
  assert (mget K 1 1 = Ok 4) as K11 by (rewrite HK by lia; f_equal; unfold kvt, kval, inner; cbn; ring).
  assert (mget K 1 2 = Ok (-4)) as K12 by (rewrite HK by lia; f_equal; unfold kvt, kval, inner; cbn; ring).
  rewrite gloop_S by apply HC. change (seq 0 (size idb)) with [0; 1; 2]%nat. unfold g_reset. cbn [g_func g_b g_norm g_al g_index g_s g_ctot].
  rewrite (gpass_stay fine gm idb K 2 0 [1; 2]%nat _ 0 (mkPoint [0; 2] 1%Z 1%Z 0) 5); look; [|cbn [p_y g_norm]; lra].
  rewrite (gpass_hit fine gm idb K 2 1 [2]%nat _ 1 (mkPoint [2; 0] 1%Z 2%Z 0) 1 lam [4 * lam + 2; 6; -2 - 2 * lam] 6 4 (14 * lam * lam + 10 * lam + 4) [lam; 1; 0] 1%Z [0; 1; 2]%Z [0; 1; 2]%Z); look; try exact K11.
  2:{ cbn [p_y g_norm]. lra. }
  2:{ intros _. cbn [g_norm]. lra. }
  2:{ cbn [g_norm rate fine]. destruct (Req_EM_T gm 0); [lra|exact EL]. }
  2:{ cbn [g_b g_func p_y]. rewrite (gm3 fine idb K 1 1 lam 1 5 1 (-1) 0 4 (-4) eq_refl K10 K11 K12). cbn [rate fine]. do 2 f_equal; [lra|f_equal; [lra|f_equal; lra]]. }
  2:{ cbn [g_norm g_b rate fine p_y]. replace (n * lam * (n * lam)) with (n * n * lam * lam) by ring. rewrite A3. unfold lam. lra. }
  2:{ unfold lam. lra. }
  2:{ cbn [vupd upd map g_al rate fine]. do 2 f_equal; [lra|f_equal; [lra|f_equal; lra]]. }
  cbn [g_b g_s g_e g_ctot Nat.ltb Nat.leb fine rate p_y].
  rewrite (gpass_stay _ gm idb K 2 2 []%nat _ 2 (mkPoint [-2; -1] (-1)%Z 3%Z 0) (-2 - 2 * lam)); look.
  2:{ cbn [p_y g_norm]. assert (sqrt (14 * lam * lam + 10 * lam + 4) < 6) as S6. { rewrite <- (sqrt_square 6) by lra. apply sqrt_lt_1; unfold lam; lra. }
      pose proof (sqrt_pos (14 * lam * lam + 10 * lam + 4)) as S0. set (z := sqrt (14 * lam * lam + 10 * lam + 4)) in *. assert (gm * z <= 1/2 * 6) by (apply Rmult_le_compat; lra). unfold lam. lra. }
  rewrite gpass_nil. cbn [obind g_e g_ctot Nat.eqb orb fine max_it max_up Nat.ltb Nat.leb]. eexists. split; [reflexivity|]. split; [reflexivity|]. cbn [g_b g_al]. split; [lra|reflexivity].
Qed.
Lemma id_call_more pr eps inc big d K clk fuel st s steps lo hi rm gamma : gloop pr (id_gamma st) d K (clk (id_it st)) (S (max_it pr)) 0 (id_steps st) (mkG (g_func (id_g st)) (g_b (id_g st)) (g_norm (id_g st)) (g_al (id_g st)) (g_index (id_g st)) 0 1 (g_ctot (id_g st))) = Ok (Some (Some (s, steps))) ->
  g_e s = 0%nat -> id_scan big (g_norm s) d (g_func s) = Ok (lo, hi) -> rm = (if Rlt_dec (Rabs hi) (Rabs lo) then Rabs hi else Rabs lo) -> gamma = (if Rlt_dec ((lo - hi) / 2) (inc * rm) then inc * rm else (lo - hi) / 2) ->
  id_loop pr eps inc big d K clk (S fuel) st = if Rlt_dec (rm - id_old st) eps then Ok (Some (Some (mkId s steps gamma rm rm (id_cut eps (rate pr) (g_al s)) (S (id_it st)) (g_al s) true)))
    else id_loop pr eps inc big d K clk fuel (mkId s steps gamma rm rm (id_cut eps (rate pr) (g_al s)) (S (id_it st)) (g_al s) true).
Proof. intros H1 H2 H3 -> ->. cbn [id_loop]. rewrite H1. cbn [obind]. rewrite H2. cbn [Nat.eqb]. rewrite H3. reflexivity. Qed.
Lemma id_call_end pr eps inc big d K clk fuel st s steps : gloop pr (id_gamma st) d K (clk (id_it st)) (S (max_it pr)) 0 (id_steps st) (mkG (g_func (id_g st)) (g_b (id_g st)) (g_norm (id_g st)) (g_al (id_g st)) (g_index (id_g st)) 0 1 (g_ctot (id_g st))) = Ok (Some (Some (s, steps))) ->
  g_e s <> 0%nat -> id_loop pr eps inc big d K clk fuel st = Ok (Some (Some (mkId s steps (id_gamma st) (id_old st) (id_rm st) (id_saved st) (id_it st) (id_full st) false))).
Proof. intros H1 H2. destruct fuel; cbn [id_loop]; rewrite H1; cbn [obind]; rewrite (proj2 (Nat.eqb_neq _ _) H2); reflexivity. Qed.
Definition stp (n : R) (mm : R * R) (f : R) : R * R := if Req_EM_T n 0 then mm else if Rle_dec 0 f then (if Rlt_dec (f / n) (fst mm) then (f / n, snd mm) else mm) else (if Rlt_dec (snd mm) (f / n) then (fst mm, f / n) else mm).
Lemma scan3 big n (d : data R) a b c : size d = 3%nat -> id_scan big n d [a; b; c] = Ok (stp n (stp n (stp n (big, - big) a) b) c).
Proof. intro H. unfold id_scan. rewrite H. reflexivity. Qed.
Lemma scan2 big n (d : data R) a b : size d = 2%nat -> id_scan big n d [a; b] = Ok (stp n (stp n (big, - big) a) b).
Proof. intro H. unfold id_scan. rewrite H. reflexivity. Qed.
Lemma stp_lo n lo hi f : 0 < n -> 0 <= f -> f / n < lo -> stp n (lo, hi) f = (f / n, hi).
Proof. intros H0 H1 H2. unfold stp. cbn [fst snd]. destruct (Req_EM_T n 0); [lra|]. destruct (Rle_dec 0 f); [|lra]. destruct (Rlt_dec (f / n) lo); [reflexivity|lra]. Qed.
Lemma stp_lo_keep n lo hi f : 0 < n -> 0 <= f -> lo <= f / n -> stp n (lo, hi) f = (lo, hi).
Proof. intros H0 H1 H2. unfold stp. cbn [fst snd]. destruct (Req_EM_T n 0); [lra|]. destruct (Rle_dec 0 f); [|lra]. destruct (Rlt_dec (f / n) lo); [lra|reflexivity]. Qed.
Lemma stp_hi n lo hi f : 0 < n -> f < 0 -> hi < f / n -> stp n (lo, hi) f = (lo, f / n).
Proof. intros H0 H1 H2. unfold stp. cbn [fst snd]. destruct (Req_EM_T n 0); [lra|]. destruct (Rle_dec 0 f); [lra|]. destruct (Rlt_dec hi (f / n)); [reflexivity|lra]. Qed.
Lemma stp_hi_keep n lo hi f : 0 < n -> f < 0 -> f / n <= hi -> stp n (lo, hi) f = (lo, hi).
Proof. intros H0 H1 H2. unfold stp. cbn [fst snd]. destruct (Req_EM_T n 0); [lra|]. destruct (Rle_dec 0 f); [lra|]. destruct (Rlt_dec hi (f / n)); [lra|reflexivity]. Qed.
Lemma over n f : 0 < n -> f / n = f * (1 / n).
Proof. intro. field. lra. Qed.
Lemma over_pos n : 1 < n -> 0 < 1 / n < 1.
Proof. intro. split; [apply Rdiv_lt_0_compat; lra|]. apply Rmult_lt_reg_r with n; [lra|]. replace (1 / n * n) with 1 by (field; lra). lra. Qed.
Lemma idb_scan : id_scan 100 (sqrt 14) idb [5; 1; -1] = Ok (1 / sqrt 14, - (1 / sqrt 14)).
Proof.
  destruct sqrt14 as ((A1 & A2) & A3). set (n := sqrt 14) in *. destruct (over_pos n ltac:(lra)) as (N0 & N1). rewrite scan3 by reflexivity.
  rewrite stp_lo, stp_lo, stp_hi; rewrite ?(over n 5), ?(over n (-1)) by lra; try lra. do 2 f_equal. lra.
Qed.
Lemma cut_whole al : Forall (fun a => a = 0 \/ 1 <= a) al -> id_cut (1 / 10000000) 1 al = al.
Proof. intro H. unfold id_cut. induction H as [|a l H _ IH]; [reflexivity|]. cbn [map]. rewrite IH. destruct (Rlt_dec _ a) as [_|N]; [reflexivity|]. f_equal. destruct H; lra. Qed.
Lemma idb_run : exists r, id_train Rpower (kernel_make InnerProduct 0) fine (1 / 10000000) (1001 / 1000) 100 (fun _ _ => true) idb = Ok (Some (Some r)) /\ dr_ok r = true /\ dr_last r = false /\
  dr_alpha r = [1; 0; 0] /\ dr_full r = [1; 0; 0] /\ dr_bias r = 2 /\ dr_data r = with_alphas idb [1; 0; 0] /\ k_type (dr_kernel r) = InnerProduct /\ k_param (dr_kernel r) = 0 /\ dr_svs r = [0; 1]%nat.
Proof.
  destruct idb_ok as (HR & _).
  destruct (train_of_loop (fun st => id_saved st = [1; 0; 0] /\ id_full st = [1; 0; 0] /\ g_b (id_g st) = 2 /\ id_it st = 1%nat /\ id_last st = false /\ g_al (id_g st) = [1 - 1001 / 14000; 1; 0]) Rpower InnerProduct 0 fine (1 / 10000000) (1001 / 1000) 100 (fun _ _ => true) idb HR ltac:(discriminate))
    as (r & st & E & (P1 & P2 & P3 & P4 & P5 & P6) & R1 & R2 & R3 & R4 & R5 & R6 & R7 & R8 & R9 & R10).
  - intros K HK. change (S (max_it fine)) with 3%nat. destruct sqrt14 as ((A1 & A2) & A3). destruct (over_pos (sqrt 14) ltac:(lra)) as (N0 & N1).
    destruct (idb_second K (fun _ => true) HK (fun _ => eq_refl)) as (s & E2 & B1 & B2 & B3).
    rewrite (id_call_more fine (1 / 10000000) (1001 / 1000) 100 idb K (fun _ _ => true) 2 (id_start idb) (mkG [5; 1; -1] 1 (sqrt 14) [1; 0; 0] [0; 1; 2]%Z 0 0 1) 2 (1 / sqrt 14) (- (1 / sqrt 14)) (1 / sqrt 14) (1001 / 1000 * (1 / sqrt 14))); [|exact (idb_first K (fun _ => true) HK (fun _ => eq_refl))|reflexivity|exact idb_scan| |].
    2:{ rewrite Rabs_Ropp, (Rabs_right (1 / sqrt 14)) by lra. destruct (Rlt_dec _ _); reflexivity. }
    2:{ destruct (Rlt_dec _ _); lra. }
    change (id_old (id_start idb)) with 0. destruct (Rlt_dec (1 / sqrt 14 - 0) (1 / 10000000)) as [L|_].
    { exfalso. apply Rmult_lt_compat_r with (r := sqrt 14) in L; [|lra]. replace ((1 / sqrt 14 - 0) * sqrt 14) with 1 in L by (field; lra). lra. }
    erewrite (id_call_end fine _ _ _ idb K); [|exact E2|rewrite B1; discriminate].
    eexists. split; [reflexivity|]. cbn [id_saved id_full id_g id_it id_last g_al].
    change (rate fine) with 1. rewrite cut_whole by (repeat constructor; lra). split; [reflexivity|]. auto 10.
  - exists r. rewrite R1, R2, R4, R5, R6, R7, P1, P2, P3, P4, P5. cbn [Nat.eqb negb].
    assert (dr_svs r = [0; 1]%nat) as SV.
    { rewrite R10, P6. change (rate fine) with 1. change (seq 0 (size idb)) with [0; 1; 2]%nat. cbn [filter nz nth]. repeat (destruct (Rlt_dec _ _); try lra). reflexivity. }
    auto 12.
Qed.
(** The clock of a training that has time for the first inner call only. *)
Definition one_call (c t : nat) : bool := Nat.eqb c 0.
Lemma gloop_over pr gamma d K clk fuel k steps s : clk k = false -> gloop pr gamma d K clk fuel k steps s = Ok (Some (Some (s, steps))).
Proof. intro H. destruct fuel; cbn [gloop]; rewrite H; reflexivity. Qed.

(** The points 1 and -2 of label -1 and 4 of label 1, with given alphas. *)
Definition trd (a0 a1 a2 : R) : data R := mkData [mkPoint [1] (-1)%Z 1%Z a0; mkPoint [-2] (-1)%Z 2%Z a1; mkPoint [4] 1%Z 3%Z a2] [1]%Z [0; 1; 2]%Z [] [-1; 1]%Z [2; 1]%Z 3 1 false false false true.
Lemma trd_ok a0 a1 a2 : rect (trd a0 a1 a2) /\ index_perm (trd a0 a1 a2) /\ binary (trd a0 a1 a2).
Proof. split; [intros p [<-|[<-|[<-|[]]]]; reflexivity|]. split; [apply Permutation_refl|]. intros p [<-|[<-|[<-|[]]]]; auto. Qed.
Lemma trd_first a0 a1 a2 (K : list (list R)) clk : (forall i j, (i < 3)%nat -> (j < 3)%nat -> mget K i j = Ok (kvt Rpower InnerProduct 0 (trd a0 a1 a2) i j)) -> (forall t, clk t = true) ->
  gloop fine 0 (trd a0 a1 a2) K clk 3 0 0 (mkG [0; 0; 0] 0 0 [a0; a1; a2] [0; 1; 2]%Z 0 1 0) = Ok (Some (Some (mkG [-1; -4; 2] (-2) (sqrt 15) [a0 + 1; a1 + 1; a2] [0; 1; 2]%Z 1 0 2, 2%nat))).
Proof.
  intros HK HC. set (d := trd a0 a1 a2) in *.
  assert (mget K 0 0 = Ok 1) as K00 by (rewrite HK by lia; f_equal; unfold kvt, kval, inner; cbn; ring).
  assert (mget K 0 1 = Ok (-2)) as K01 by (rewrite HK by lia; f_equal; unfold kvt, kval, inner; cbn; ring).
  assert (mget K 0 2 = Ok 4) as K02 by (rewrite HK by lia; f_equal; unfold kvt, kval, inner; cbn; ring).
  assert (mget K 1 0 = Ok (-2)) as K10 by (rewrite HK by lia; f_equal; unfold kvt, kval, inner; cbn; ring).
  assert (mget K 1 1 = Ok 4) as K11 by (rewrite HK by lia; f_equal; unfold kvt, kval, inner; cbn; ring).
  assert (mget K 1 2 = Ok (-8)) as K12 by (rewrite HK by lia; f_equal; unfold kvt, kval, inner; cbn; ring).
  rewrite gloop_S by apply HC. change (seq 0 (size d)) with [0; 1; 2]%nat. unfold g_reset. cbn [g_func g_b g_norm g_al g_index g_s g_ctot].
  rewrite (gpass_hit fine 0 d K 0 0 [1; 2]%nat _ 0 (mkPoint [1] (-1)%Z 1%Z a0) 0 1 [-2; 1; -5] (-2) 1 5 [a0 + 1; a1; a2] 0%Z [0; 1; 2]%Z [0; 1; 2]%Z); look; try exact K00.
  2:{ cbn [p_y g_norm]. lra. }
  2:{ intro; contradiction. }
  2:{ destruct (Req_EM_T 0 0); [reflexivity|lra]. }
  2:{ cbn [g_b g_func p_y]. rewrite (gm3 fine d K 0 (-1) 1 0 0 0 0 1 (-2) 4 eq_refl K00 K01 K02). cbn [rate fine]. do 2 f_equal; [lra|f_equal; [lra|f_equal; lra]]. }
  2:{ cbn [g_norm g_b rate fine p_y]. lra. }
  2:{ lra. }
  2:{ cbn [vupd upd map g_al rate fine]. do 2 f_equal; [lra|f_equal; [lra|f_equal; lra]]. }
  cbn [g_b g_s g_e g_ctot Nat.ltb Nat.leb fine rate p_y].
  rewrite (gpass_hit _ 0 d K 0 1 [2]%nat _ 1 (mkPoint [-2] (-1)%Z 2%Z a1) 1 1 [-1; -4; 2] (-4) 4 15 [a0 + 1; a1 + 1; a2] 1%Z [0; 1; 2]%Z [0; 1; 2]%Z); look; try exact K11.
  2:{ cbn [p_y g_norm]. lra. }
  2:{ intro; contradiction. }
  2:{ destruct (Req_EM_T 0 0); [reflexivity|lra]. }
  2:{ cbn [g_b g_func p_y]. rewrite (gm3 _ d K 1 (-1) 1 _ (-2) 1 (-5) (-2) 4 (-8) eq_refl K10 K11 K12). cbn [rate fine]. do 2 f_equal; [lra|f_equal; [lra|f_equal; lra]]. }
  2:{ cbn [g_norm g_b rate fine p_y]. replace (sqrt 5 * 1 * (sqrt 5 * 1)) with (sqrt 5 * sqrt 5) by ring. rewrite sqrt_sqrt; lra. }
  2:{ lra. }
  2:{ cbn [vupd upd map g_al rate fine]. do 2 f_equal; [lra|f_equal; [lra|f_equal; lra]]. }
  cbn [g_b g_s g_e g_ctot Nat.ltb Nat.leb fine rate p_y].
  rewrite (gpass_stay _ 0 d K 0 2 []%nat _ 2 (mkPoint [4] 1%Z 3%Z a2) 2); look; [|cbn [p_y g_norm]; lra].
  rewrite gpass_nil. cbn [obind g_e g_ctot Nat.eqb orb fine max_it max_up Nat.ltb Nat.leb]. change (mkParams 1 2 2) with fine.
  rewrite gloop_S by apply HC. change (seq 0 (size d)) with [0; 1; 2]%nat. unfold g_reset. cbn [g_func g_b g_norm g_al g_index g_s g_ctot].
  rewrite (gpass_stay fine 0 d K 1 0 [1; 2]%nat _ 0 (mkPoint [1] (-1)%Z 1%Z a0) (-1)); look; [|cbn [p_y g_norm]; lra].
  rewrite (gpass_stay fine 0 d K 1 1 [2]%nat _ 1 (mkPoint [-2] (-1)%Z 2%Z a1) (-4)); look; [|cbn [p_y g_norm]; lra].
  rewrite (gpass_stay fine 0 d K 1 2 []%nat _ 2 (mkPoint [4] 1%Z 3%Z a2) 2); look; [|cbn [p_y g_norm]; lra].
  rewrite gpass_nil. cbn [obind g_e Nat.eqb orb]. do 5 f_equal. lra.
Qed.
Lemma trd_run a0 a1 a2 : 0 <= a0 -> 0 <= a1 -> a2 = 0 -> exists r, id_train Rpower (kernel_make InnerProduct 0) fine (1 / 10000000) (1001 / 1000) 100 one_call (trd a0 a1 a2) = Ok (Some (Some r)) /\ dr_ok r = true /\
  dr_alpha r = [a0 + 1; a1 + 1; a2] /\ dr_bias r = -2 /\ dr_data r = with_alphas (trd a0 a1 a2) [a0 + 1; a1 + 1; a2] /\ k_type (dr_kernel r) = InnerProduct /\ k_param (dr_kernel r) = 0.
Proof.
  intros H0 H1 H2. destruct (trd_ok a0 a1 a2) as (HR & _).
  destruct (train_of_loop (fun st => id_saved st = [a0 + 1; a1 + 1; a2] /\ g_b (id_g st) = -2 /\ id_it st = 1%nat) Rpower InnerProduct 0 fine (1 / 10000000) (1001 / 1000) 100 one_call (trd a0 a1 a2) HR ltac:(discriminate))
    as (r & st & E & (P1 & P2 & P3) & R1 & R2 & R3 & R4 & R5 & R6 & R7 & R8 & R9 & R10).
  - intros K HK. change (S (max_it fine)) with 3%nat.
    assert (sqrt 15 * sqrt 15 = 15) as A3 by (apply sqrt_sqrt; lra). pose proof (sqrt_pos 15) as A0. assert (3 < sqrt 15) as A1 by (apply Rnot_le_lt; intro; nra). assert (sqrt 15 < 4) as A2 by (apply Rnot_le_lt; intro; nra).
    destruct (over_pos (sqrt 15) ltac:(lra)) as (N0 & N1).
    rewrite (id_call_more fine (1 / 10000000) (1001 / 1000) 100 (trd a0 a1 a2) K one_call 2 (id_start (trd a0 a1 a2)) (mkG [-1; -4; 2] (-2) (sqrt 15) [a0 + 1; a1 + 1; a2] [0; 1; 2]%Z 1 0 2) 2 (2 * (1 / sqrt 15)) (- (1 / sqrt 15)) (1 / sqrt 15) (3 / 2 * (1 / sqrt 15)));
      [|exact (trd_first a0 a1 a2 K (one_call 0) HK (fun _ => eq_refl))|reflexivity| | |].
    2:{ cbn [g_norm g_func]. rewrite scan3 by reflexivity. rewrite stp_hi, stp_hi_keep, stp_lo; cbn [g_norm]; rewrite ?(over (sqrt 15) 2), ?(over (sqrt 15) (-1)), ?(over (sqrt 15) (-4)) by lra; try lra. do 2 f_equal. lra. }
    2:{ rewrite Rabs_Ropp, (Rabs_right (1 / sqrt 15)), (Rabs_right (2 * (1 / sqrt 15))) by lra. destruct (Rlt_dec _ _); [reflexivity|lra]. }
    2:{ destruct (Rlt_dec _ _); lra. }
    change (id_old (id_start (trd a0 a1 a2))) with 0. destruct (Rlt_dec (1 / sqrt 15 - 0) (1 / 10000000)) as [L|_].
    { exfalso. apply Rmult_lt_compat_r with (r := sqrt 15) in L; [|lra]. replace ((1 / sqrt 15 - 0) * sqrt 15) with 1 in L by (field; lra). lra. }
    erewrite (id_call_end fine _ _ _ (trd a0 a1 a2) K); [|apply gloop_over; reflexivity|discriminate].
    eexists. split; [reflexivity|]. cbn [id_saved id_full id_g id_it id_last g_al g_b].
    change (rate fine) with 1. rewrite cut_whole by (constructor; [right; lra|constructor; [right; lra|constructor; [left; lra|constructor]]]). split; [reflexivity|]. auto 10.
  - exists r. rewrite R1, R2, R4, R7, P1, P2, P3. cbn [Nat.eqb negb]. auto 10.
Qed.

(** The points x of label 1 and -x of label -1. *)
Definition twp (x : R) : data R := mkData [mkPoint [x] 1%Z 1%Z 0; mkPoint [- x] (-1)%Z 2%Z 0] [1]%Z [0; 1]%Z [] [1; -1]%Z [1; 1]%Z 2 1 false false false true.
Lemma twp_ok x : rect (twp x) /\ index_perm (twp x) /\ binary (twp x) /\ (forall p, In p (d_points (twp x)) -> p_alpha p = 0).
Proof. split; [intros p [<-|[<-|[]]]; reflexivity|]. split; [apply Permutation_refl|]. split; intros p [<-|[<-|[]]]; auto. Qed.
Lemma twp_first x (K : list (list R)) clk : 0 < x <= 1 -> (forall i j, (i < 2)%nat -> (j < 2)%nat -> mget K i j = Ok (kvt Rpower InnerProduct 0 (twp x) i j)) -> (forall t, clk t = true) ->
  gloop fine 0 (twp x) K clk 3 0 0 (mkG [0; 0] 0 0 [0; 0] [0; 1]%Z 0 1 0) = Ok (Some (Some (mkG [2 * (x * x); - (2 * (x * x))] 0 (sqrt (8 * (x * x) + 4)) [1; 1] [0; 1]%Z 1 0 2, 2%nat))).
Proof.
  intros Hx HK HC. set (d := twp x) in *. assert (0 < x * x <= 1) as X2 by nra.
  assert (mget K 0 0 = Ok (x * x)) as K00 by (rewrite HK by lia; f_equal; unfold kvt, kval, inner; cbn; ring).
  assert (mget K 0 1 = Ok (- (x * x))) as K01 by (rewrite HK by lia; f_equal; unfold kvt, kval, inner; cbn; ring).
  assert (mget K 1 0 = Ok (- (x * x))) as K10 by (rewrite HK by lia; f_equal; unfold kvt, kval, inner; cbn; ring).
  assert (mget K 1 1 = Ok (x * x)) as K11 by (rewrite HK by lia; f_equal; unfold kvt, kval, inner; cbn; ring).
  rewrite gloop_S by apply HC. change (seq 0 (size d)) with [0; 1]%nat. unfold g_reset. cbn [g_func g_b g_norm g_al g_index g_s g_ctot].
  rewrite (gpass_hit fine 0 d K 0 0 [1]%nat _ 0 (mkPoint [x] 1%Z 1%Z 0) 0 1 [x * x + 1; 1 - x * x] (x * x + 1) (x * x) (3 * (x * x) + 2) [1; 0] 0%Z [0; 1]%Z [0; 1]%Z); look; try exact K00.
  2:{ cbn [p_y g_norm]. lra. }
  2:{ intro; contradiction. }
  2:{ destruct (Req_EM_T 0 0); [reflexivity|lra]. }
  2:{ cbn [g_b g_func p_y]. rewrite (gm2 fine d K 0 1 1 0 0 0 (x * x) (- (x * x)) eq_refl K00 K01). cbn [rate fine]. do 2 f_equal; [lra|f_equal; lra]. }
  2:{ cbn [g_norm g_b rate fine p_y]. lra. }
  2:{ lra. }
  2:{ cbn [vupd upd map g_al rate fine]. do 2 f_equal; [lra|f_equal; lra]. }
  cbn [g_b g_s g_e g_ctot Nat.ltb Nat.leb fine rate p_y].
  rewrite (gpass_hit _ 0 d K 0 1 []%nat _ 1 (mkPoint [- x] (-1)%Z 2%Z 0) (1 - x * x) 1 [2 * (x * x); - (2 * (x * x)) ] (- (2 * (x * x))) (x * x) (8 * (x * x) + 4) [1; 1] 1%Z [0; 1]%Z [0; 1]%Z); look; try exact K11.
  2:{ cbn [p_y g_norm]. lra. }
  2:{ intro; contradiction. }
  2:{ destruct (Req_EM_T 0 0); [reflexivity|lra]. }
  2:{ cbn [g_b g_func p_y]. rewrite (gm2 _ d K 1 (-1) 1 _ (x * x + 1) (1 - x * x) (- (x * x)) (x * x) eq_refl K10 K11). cbn [rate fine]. do 2 f_equal; [lra|f_equal; lra]. }
  2:{ cbn [g_norm g_b rate fine p_y]. set (z := sqrt (3 * (x * x) + 2)). replace (z * 1 * (z * 1)) with (z * z) by ring. unfold z. rewrite sqrt_sqrt; lra. }
  2:{ lra. }
  2:{ cbn [vupd upd map g_al rate fine]. do 2 f_equal; [lra|f_equal; lra]. }
  rewrite gpass_nil. cbn [obind g_b g_s g_e g_ctot Nat.eqb orb fine rate p_y max_it max_up Nat.ltb Nat.leb]. change (mkParams 1 2 2) with fine.
  rewrite gloop_S by apply HC. change (seq 0 (size d)) with [0; 1]%nat. unfold g_reset. cbn [g_func g_b g_norm g_al g_index g_s g_ctot].
  rewrite (gpass_stay fine 0 d K 1 0 [1]%nat _ 0 (mkPoint [x] 1%Z 1%Z 0) (2 * (x * x))); look; [|cbn [p_y g_norm]; lra].
  rewrite (gpass_stay fine 0 d K 1 1 []%nat _ 1 (mkPoint [- x] (-1)%Z 2%Z 0) (- (2 * (x * x)))); look; [|cbn [p_y g_norm]; lra].
  rewrite gpass_nil. cbn [obind g_e Nat.eqb orb]. do 5 f_equal. lra.
Qed.
Lemma twp_root x : 0 < x <= 1 -> sqrt (8 * (x * x) + 4) * sqrt (8 * (x * x) + 4) = 8 * (x * x) + 4 /\ 1 < sqrt (8 * (x * x) + 4) < 4.
Proof.
  intro Hx. assert (0 < x * x <= 1) as X2 by nra. assert (sqrt (8 * (x * x) + 4) * sqrt (8 * (x * x) + 4) = 8 * (x * x) + 4) as A3 by (apply sqrt_sqrt; lra). pose proof (sqrt_pos (8 * (x * x) + 4)).
  split; [exact A3|]. set (n := sqrt _) in *. split; apply Rnot_le_lt; intro; nra.
Qed.
Lemma twp_scan x : 0 < x <= 1 -> id_scan 100 (sqrt (8 * (x * x) + 4)) (twp x) [2 * (x * x); - (2 * (x * x))] = Ok (2 * (x * x) * (1 / sqrt (8 * (x * x) + 4)), - (2 * (x * x) * (1 / sqrt (8 * (x * x) + 4)))).
Proof.
  intro Hx. assert (0 < x * x <= 1) as X2 by nra. destruct (twp_root x Hx) as (A3 & A1 & A2). set (n := sqrt _) in *. destruct (over_pos n A1) as (N0 & N1). rewrite scan2 by reflexivity.
  assert (0 < 2 * (x * x) * (1 / n) < 2) by nra.
  rewrite stp_lo, stp_hi; rewrite ?(over n (2 * (x * x))), ?(over n (- (2 * (x * x)))) by lra; try lra. do 2 f_equal. lra.
Qed.
Lemma twp_small : exists r, id_train Rpower (kernel_make InnerProduct 0) fine (1 / 10000000) (1001 / 1000) 100 (fun _ _ => true) (twp (1 / 10000)) = Ok (Some (Some r)) /\ dr_ok r = true /\ dr_last r = true /\ dr_full r = [1; 1].
Proof.
  destruct (twp_ok (1 / 10000)) as (HR & _). set (x := 1 / 10000) in *. assert (0 < x <= 1) as Hx by (unfold x; lra).
  destruct (train_of_loop (fun st => id_full st = [1; 1] /\ id_it st = 1%nat /\ id_last st = true) Rpower InnerProduct 0 fine (1 / 10000000) (1001 / 1000) 100 (fun _ _ => true) (twp x) HR ltac:(discriminate))
    as (r & st & E & (P1 & P2 & P3) & R1 & R2 & R3 & R4 & R5 & R6 & R7 & R8 & R9 & R10).
  - intros K HK. change (S (max_it fine)) with 3%nat. destruct (twp_root x Hx) as (A3 & A1 & A2). destruct (over_pos _ A1) as (N0 & N1).
    assert (0 < x * x <= 1 / 100000000) as X2 by (unfold x; lra).
    assert (0 < 2 * (x * x) * (1 / sqrt (8 * (x * x) + 4)) < 2 / 100000000) as RM by (set (n := 1 / sqrt _) in *; nra).
    rewrite (id_call_more fine (1 / 10000000) (1001 / 1000) 100 (twp x) K (fun _ _ => true) 2 (id_start (twp x)) (mkG [2 * (x * x); - (2 * (x * x))] 0 (sqrt (8 * (x * x) + 4)) [1; 1] [0; 1]%Z 1 0 2) 2 (2 * (x * x) * (1 / sqrt (8 * (x * x) + 4))) (- (2 * (x * x) * (1 / sqrt (8 * (x * x) + 4)))) (2 * (x * x) * (1 / sqrt (8 * (x * x) + 4))) (1001 / 1000 * (2 * (x * x) * (1 / sqrt (8 * (x * x) + 4)))));
      [|exact (twp_first x K (fun _ => true) Hx HK (fun _ => eq_refl))|reflexivity|exact (twp_scan x Hx)| |].
    2:{ set (v := 2 * (x * x) * _) in *. rewrite Rabs_Ropp, (Rabs_right v) by lra. destruct (Rlt_dec _ _); reflexivity. }
    2:{ set (v := 2 * (x * x) * _) in *. destruct (Rlt_dec _ _); lra. }
    change (id_old (id_start (twp x))) with 0. destruct (Rlt_dec _ (1 / 10000000)) as [_|L]; [|lra].
    eexists. split; [reflexivity|]. cbn [id_saved id_full id_g id_it id_last g_al g_b]. split; [unfold id_cut; rewrite map_length; reflexivity|]. auto.
  - exists r. rewrite R4, R5, R6, P1, P2, P3. cbn [Nat.eqb negb]. auto 10.
Qed.
Lemma twp_one : exists r, id_train Rpower (kernel_make InnerProduct 0) fine (1 / 10000000) (1001 / 1000) 100 one_call (twp 1) = Ok (Some (Some r)) /\ dr_ok r = true /\ dr_alpha r = [1; 1] /\ dr_full r = [1; 1] /\ dr_bias r = 0 /\ dr_margin r = 2 * (1 / sqrt 12).
Proof.
  destruct (twp_ok 1) as (HR & _). assert (0 < 1 <= 1) as Hx by lra.
  destruct (train_of_loop (fun st => id_saved st = [1; 1] /\ id_full st = [1; 1] /\ id_it st = 1%nat /\ g_b (id_g st) = 0 /\ id_rm st = 2 * (1 / sqrt 12)) Rpower InnerProduct 0 fine (1 / 10000000) (1001 / 1000) 100 one_call (twp 1) HR ltac:(discriminate))
    as (r & st & E & (P1 & P2 & P3 & P4 & P5) & R1 & R2 & R3 & R4 & R5 & R6 & R7 & R8 & R9 & R10).
  - intros K HK. change (S (max_it fine)) with 3%nat. destruct (twp_root 1 Hx) as (A3 & A1 & A2). destruct (over_pos _ A1) as (N0 & N1).
    pose proof (twp_first 1 K (one_call 0) Hx HK (fun _ => eq_refl)) as F. pose proof (twp_scan 1 Hx) as SC. replace (8 * (1 * 1) + 4) with 12 in * by lra. replace (2 * (1 * 1)) with 2 in * by lra.
    rewrite (id_call_more fine (1 / 10000000) (1001 / 1000) 100 (twp 1) K one_call 2 (id_start (twp 1)) (mkG [2; - (2)] 0 (sqrt 12) [1; 1] [0; 1]%Z 1 0 2) 2 (2 * (1 / sqrt 12)) (- (2 * (1 / sqrt 12))) (2 * (1 / sqrt 12)) (1001 / 1000 * (2 * (1 / sqrt 12))));
      [|exact F|reflexivity|exact SC| |].
    2:{ set (v := 2 * _) in *. rewrite Rabs_Ropp, (Rabs_right v) by (unfold v; lra). destruct (Rlt_dec _ _); reflexivity. }
    2:{ set (v := 2 * _) in *. destruct (Rlt_dec _ _); unfold v in *; lra. }
    change (id_old (id_start (twp 1))) with 0. destruct (Rlt_dec _ (1 / 10000000)) as [L|_].
    { exfalso. apply Rmult_lt_compat_r with (r := sqrt 12) in L; [|lra]. replace ((2 * (1 / sqrt 12) - 0) * sqrt 12) with 2 in L by (field; lra). lra. }
    erewrite (id_call_end fine _ _ _ (twp 1) K); [|apply gloop_over; reflexivity|discriminate].
    eexists. split; [reflexivity|]. cbn [id_saved id_full id_g id_it id_last g_al g_b id_rm]. change (rate fine) with 1. rewrite cut_whole by (constructor; [right; lra|constructor; [right; lra|constructor]]). split; [reflexivity|]. auto.
  - exists r. rewrite R1, R2, R3, R4, R5, P1, P2, P3, P4, P5. cbn [Nat.eqb negb]. auto 10.
Qed.

(** C96: the answer true does not mean that the training points are classified. The inner call that ends the training is usually one that fails, and its bias is stored
    with the alphas of the call before: here the training points 1 and 2 are at values 6 and 2, and point 3, of label -1, is at value 0 and is given label 1. *)
Lemma c96_bias_refuted : ~ (forall (pw : R -> R -> R) t par pr (eps inc big : R) (clk : nat -> nat -> bool) (d : data R) r, rect d -> index_perm d -> t <> Custom -> 0 < eps -> 0 <= inc ->
  binary d -> (forall p, In p (d_points d) -> p_alpha p = 0) -> id_train pw (kernel_make t par) pr eps inc big clk d = Ok (Some (Some r)) -> dr_ok r = true ->
  (forall i, (i < size d)%nat -> nz (dr_full r) i = 0 \/ eps * rate pr < nz (dr_full r) i) ->
  forall p, In p (d_points d) -> dual_evaluate pw (dr_kernel r) (dr_data r) (dr_alpha r) (dr_bias r) p = Ok (p_y p)).
Proof.
  intro H. destruct idb_run as (r & E & O & _ & A & F & B & D & T & P). destruct idb_ok as (O1 & O2 & O3 & O4).
  specialize (H Rpower InnerProduct 0 fine (1 / 10000000) (1001 / 1000) 100 (fun _ _ => true) idb r O1 O2 ltac:(discriminate) ltac:(lra) ltac:(lra) O3 O4 E O).
  assert (forall i, (i < size idb)%nat -> nz (dr_full r) i = 0 \/ 1 / 10000000 * rate fine < nz (dr_full r) i) as NC.
  { intros i Hi. rewrite F. change (rate fine) with 1. change (size idb) with 3%nat in Hi. destruct i as [|[|[|]]]; [right; change (nz [1; 0; 0] 0) with 1; lra|left; reflexivity|left; reflexivity|lia]. }
  specialize (H NC (mkPoint [-2; -1] (-1)%Z 3%Z 0)). rewrite D, A, B in H. rewrite dual_evaluate_ok in H; [|rewrite T; discriminate|apply with_rect; [exact O1|reflexivity]|reflexivity|reflexivity].
  specialize (H ltac:(right; right; left; reflexivity)). rewrite T in H. destruct (Rle_dec _ _) as [_|N] in H; [discriminate|]. apply N. unfold dual_value, kval, inner. cbn. lra.
Qed.
(** C96: training again starts from the alphas the points were left with, while the values and the bias start from 0: a second training on the dataset a first one classified answers true and stores a solution
    that misclassifies: the point 1, of label -1, is at value 0. *)
Lemma c96_retrain_refuted : ~ (forall (pw : R -> R -> R) t par pr (eps inc big : R) (clk : nat -> nat -> bool) (d : data R) r1 r2, rect d -> index_perm d -> t <> Custom -> 0 < eps -> 0 <= inc ->
  binary d -> (forall p, In p (d_points d) -> p_alpha p = 0) -> id_train pw (kernel_make t par) pr eps inc big clk d = Ok (Some (Some r1)) ->
  (forall p, In p (d_points d) -> dual_evaluate pw (dr_kernel r1) (dr_data r1) (dr_alpha r1) (dr_bias r1) p = Ok (p_y p)) ->
  id_train pw (kernel_make t par) pr eps inc big clk (dr_data r1) = Ok (Some (Some r2)) -> dr_ok r2 = true ->
  forall p, In p (d_points d) -> dual_evaluate pw (dr_kernel r2) (dr_data r2) (dr_alpha r2) (dr_bias r2) p = Ok (p_y p)).
Proof.
  intro H. destruct (trd_run 0 0 0) as (r1 & E1 & O1 & A1 & B1 & D1 & T1 & P1); try lra. destruct (trd_run (0 + 1) (0 + 1) 0) as (r2 & E2 & O2 & A2 & B2 & D2 & T2 & P2); try lra.
  destruct (trd_ok 0 0 0) as (Q1 & Q2 & Q3). destruct (trd_ok (0 + 1) (0 + 1) 0) as (Q1' & _). change (with_alphas (trd 0 0 0) [0 + 1; 0 + 1; 0]) with (trd (0 + 1) (0 + 1) 0) in D1.
  specialize (H Rpower InnerProduct 0 fine (1 / 10000000) (1001 / 1000) 100 one_call (trd 0 0 0) r1 r2 Q1 Q2 ltac:(discriminate) ltac:(lra) ltac:(lra) Q3 ltac:(intros p [<-|[<-|[<-|[]]]]; reflexivity) E1).
  rewrite D1 in H. assert (forall p, In p (d_points (trd 0 0 0)) -> dual_evaluate Rpower (dr_kernel r1) (trd (0 + 1) (0 + 1) 0) (dr_alpha r1) (dr_bias r1) p = Ok (p_y p)) as HC.
  { intros p Hp. rewrite A1, B1. rewrite dual_evaluate_ok; [|rewrite T1; discriminate|exact Q1'|exact (Q1 p Hp)|reflexivity]. rewrite T1.
    destruct Hp as [<-|[<-|[<-|[]]]]; destruct (Rle_dec _ _) as [L|L]; try reflexivity; exfalso; [revert L; apply Rlt_not_le|revert L; apply Rlt_not_le|apply L]; unfold dual_value, kval, inner; cbn; lra. }
  specialize (H HC E2 O2 (mkPoint [1] (-1)%Z 1%Z 0) (or_introl eq_refl)). rewrite D2, A2, B2 in H.
  rewrite dual_evaluate_ok in H; [|rewrite T2; discriminate|apply with_rect; [exact Q1'|reflexivity]|reflexivity|reflexivity].
  rewrite T2 in H. destruct (Rle_dec _ _) as [_|N] in H; [discriminate|]. apply N. unfold dual_value, kval, inner. cbn. lra.
Qed.
(** C96: the margin stored is not the distance from the hyperplane to the closest training point: for the points 1 and -1 it is 2 / sqrt 12, and the distance is 1. *)
Lemma c96_margin_refuted : ~ (forall (pw : R -> R -> R) par pr (eps inc big : R) (clk : nat -> nat -> bool) (d : data R) r, rect d -> index_perm d -> 0 < eps -> 0 <= inc ->
  binary d -> (forall p, In p (d_points d) -> p_alpha p = 0) -> id_train pw (kernel_make InnerProduct par) pr eps inc big clk d = Ok (Some (Some r)) -> dr_ok r = true ->
  (forall i, (i < size d)%nat -> nz (dr_full r) i = 0 \/ eps * rate pr < nz (dr_full r) i) ->
  exists i, (i < size d)%nat /\ dr_margin r * euclid (dim d) (dr_w r) = Rabs (inner (dim d) (dr_w r) (p_x (pt d i)) + dr_bias r)).
Proof.
  intro H. destruct twp_one as (r & E & O & A & F & B & M). destruct (twp_ok 1) as (O1 & O2 & O3 & O4).
  destruct (H Rpower 0 fine (1 / 10000000) (1001 / 1000) 100 one_call (twp 1) r O1 O2 ltac:(lra) ltac:(lra) O3 O4 E O) as (i & Hi & V).
  { intros i Hi. rewrite F. change (rate fine) with 1. change (size (twp 1)) with 2%nat in Hi. right. destruct i as [|[|]]; [change (nz [1; 1] 0) with 1; lra|change (nz [1; 1] 1) with 1; lra|lia]. }
  pose proof (c96_weights Rpower 0 fine (1 / 10000000) (1001 / 1000) 100 one_call (twp 1) r O1 O2 ltac:(lra) ltac:(lra) E 0%nat (Nat.lt_0_succ 0)) as W.
  assert (nz (dr_w r) 0 = 2) as W2. { rewrite W, A. unfold weight_of. cbn. lra. }
  rewrite M, B in V. unfold euclid, inner in V. change (dim (twp 1)) with 1%nat in V. cbn [sumn] in V. rewrite W2 in V.
  replace (sqrt (0 + 2 * 2)) with 2 in V by (replace (0 + 2 * 2) with (2 * 2) by lra; rewrite sqrt_square; lra).
  assert (Rabs (0 + 2 * nz (p_x (pt (twp 1) i)) 0 + 0) = 2) as V2.
  { change (size (twp 1)) with 2%nat in Hi. destruct i as [|[|]]; [change (nz (p_x (pt (twp 1) 0)) 0) with 1; rewrite Rabs_right; lra| |lia]. change (nz (p_x (pt (twp 1) 1)) 0) with (- (1)). rewrite Rabs_left; lra. }
  rewrite V2 in V. pose proof (twp_root 1 ltac:(lra)) as (A3 & A1 & A2). replace (8 * (1 * 1) + 4) with 12 in * by lra.
  assert (2 * (1 / sqrt 12) * 2 * sqrt 12 = 4) as X by (field; lra). rewrite V in X. assert (sqrt 12 = 2) as Y by lra. rewrite Y in A3. lra.
Qed.

Lemma filter_ss (f : nat -> bool) l : StronglySorted lt l -> StronglySorted lt (filter f l).
Proof. induction 1 as [|a l Sl IH H]; cbn [filter]; [constructor|]. destruct (f a); [|exact IH]. constructor; [exact IH|]. apply Forall_forall. intros x Hx. apply filter_In in Hx. rewrite Forall_forall in H. apply H, Hx. Qed.
Lemma seq_ss n : forall a, StronglySorted lt (seq a n).
Proof. induction n as [|n IH]; intro a; cbn [seq]; constructor; [apply IH|]. apply Forall_forall. intros x Hx. apply in_seq in Hx. lia. Qed.
(** C96: if training ends because the margin no longer grows, the support vectors are, in order, the points with a stored alpha that is not 0. *)
Lemma c96_svs : forall (pw : R -> R -> R) t par pr (eps inc big : R) (clk : nat -> nat -> bool) (d : data R) r, rect d -> index_perm d -> t <> Custom -> 0 < eps -> 0 <= inc -> 0 <= rate pr ->
  id_train pw (kernel_make t par) pr eps inc big clk d = Ok (Some (Some r)) -> dr_last r = true ->
  StronglySorted lt (dr_svs r) /\ forall i, In i (dr_svs r) <-> (i < size d)%nat /\ nz (dr_alpha r) i <> 0.
Proof.
  intros pw t par pr eps inc big clk d r HR HI HT HE Hi Hr E L. unfold id_train in E.
  destruct (kernel_any pw (kernel_make t par) d eq_refl HR HT) as (k & EC & KT & KP & HK). rewrite EC in E. cbn [obind] in E.
  destruct (loop_ok pr eps inc big d (k_K k) _ HK HE Hi (fun _ => True) clk) with (fuel := S (max_it pr)) (st := id_start d) as [E1|(st & E1 & Ls & _ & Z & P)].
  - auto.
  - auto.
  - cbn. lia.
  - split; [split; [apply repeat_length|split; [apply map_length|exact HI]]|]. cbn. split; [lra|]. split; [lra|]. split; [apply repeat_length|]. split; [auto|]. intro; lia.
  - auto.
  - cbn. intro; lia.
  - rewrite E1 in E. discriminate.
  - rewrite E1 in E. cbn [obind] in E. cbv zeta in E. destruct (knorm k _) as [nm| |] in E; try discriminate. cbn [obind] in E. destruct (smo_weights pw k _) as [wk| |] in E; try discriminate. cbn [obind] in E.
    injection E as <-. cbn [dr_last dr_svs dr_alpha] in *. assert (0 < id_it st)%nat as It. { destruct (id_it st) eqn:I; [|lia]. destruct (Z eq_refl) as (_ & _ & F). congruence. }
    destruct (P It) as (g & _ & Ag & Sv & _ & G). specialize (G L). subst g. assert (length (g_al (id_g st)) = size d) as Lg by (rewrite Sv, <- Ag in Ls; unfold id_cut in Ls; rewrite map_length in Ls; exact Ls). split; [apply filter_ss, seq_ss|].
    intro i. rewrite filter_In, in_seq. rewrite Sv, <- Ag. split.
    + intros (Hs & Hd). split; [lia|]. unfold id_cut. rewrite (nz_map _ 0) by lia. fold (nz (g_al (id_g st)) i). destruct (Rlt_dec _ _) as [l|]; [|discriminate]. assert (0 <= eps * rate pr) by (apply Rmult_le_pos; lra). unfold nz in *. lra.
    + intros (Hs & Hd). split; [lia|]. unfold id_cut in Hd. rewrite (nz_map _ 0) in Hd by lia. fold (nz (g_al (id_g st)) i) in Hd. destruct (Rlt_dec _ _) as [l|]; [reflexivity|congruence].
Qed.
(** C96: if it ends because an inner call fails, they are those of the failed call: a support vector may have a stored alpha of 0. *)
Lemma c96_svs_refuted : ~ (forall (pw : R -> R -> R) t par pr (eps inc big : R) (clk : nat -> nat -> bool) (d : data R) r, rect d -> index_perm d -> t <> Custom -> 0 < eps -> 0 <= inc -> 0 <= rate pr ->
  id_train pw (kernel_make t par) pr eps inc big clk d = Ok (Some (Some r)) -> dr_ok r = true -> forall i, In i (dr_svs r) -> nz (dr_alpha r) i <> 0).
Proof.
  intro H. destruct idb_run as (r & E & O & _ & A & _ & _ & _ & _ & _ & SV). destruct idb_ok as (O1 & O2 & _).
  refine (H Rpower InnerProduct 0 fine (1 / 10000000) (1001 / 1000) 100 (fun _ _ => true) idb r O1 O2 ltac:(discriminate) ltac:(lra) ltac:(lra) _ E O 1%nat _ _).
  - cbn. lra.
  - rewrite SV. right. left. reflexivity.
  - rewrite A. reflexivity.
Qed.
Lemma c96_total_ex : rect idb /\ index_perm idb /\ InnerProduct <> Custom /\ 0 < 1 / 10000000 /\ 0 <= 1001 / 1000.
Proof. destruct idb_ok as (A & B & _). split; [exact A|]. split; [exact B|]. split; [discriminate|lra]. Qed.
Lemma c96_weights_ex : exists r, id_train Rpower (kernel_make InnerProduct 0) fine (1 / 10000000) (1001 / 1000) 100 (fun _ _ => true) idb = Ok (Some (Some r)) /\ rect idb /\ index_perm idb.
Proof. destruct idb_run as (r & E & _). exists r. destruct idb_ok as (A & B & _). auto. Qed.
Lemma c96_failed_ex : exists r, id_train Rpower (kernel_make InnerProduct 0) fine (1 / 10000000) (1001 / 1000) 100 (fun _ _ => false) idb = Ok (Some (Some r)) /\ dr_ok r = false.
Proof.
  destruct idb_ok as (HR & _).
  destruct (train_of_loop (fun st => id_it st = 0%nat) Rpower InnerProduct 0 fine (1 / 10000000) (1001 / 1000) 100 (fun _ _ => false) idb HR ltac:(discriminate)) as (r & st & E & P1 & R1 & R2 & R3 & R4 & _).
  - intros K HK. erewrite (id_call_end fine _ _ _ idb K); [|apply gloop_over; reflexivity|discriminate]. eexists. split; [reflexivity|]. split; reflexivity.
  - exists r. rewrite R4, P1. auto.
Qed.
Lemma c96_classifies_ex : exists r, id_train Rpower (kernel_make InnerProduct 0) fine (1 / 10000000) (1001 / 1000) 100 (fun _ _ => true) (twp (1 / 10000)) = Ok (Some (Some r)) /\ dr_last r = true /\
  rect (twp (1 / 10000)) /\ index_perm (twp (1 / 10000)) /\ binary (twp (1 / 10000)) /\ (forall p, In p (d_points (twp (1 / 10000))) -> p_alpha p = 0) /\
  (forall i, (i < size (twp (1 / 10000)))%nat -> nz (dr_full r) i = 0 \/ 1 / 10000000 * rate fine < nz (dr_full r) i).
Proof.
  destruct twp_small as (r & E & O & L & F). destruct (twp_ok (1 / 10000)) as (O1 & O2 & O3 & O4). exists r. rewrite F. split; [exact E|]. split; [exact L|]. split; [exact O1|]. split; [exact O2|]. split; [exact O3|]. split; [exact O4|].
  intros i Hi. change (rate fine) with 1. change (size (twp (1 / 10000))) with 2%nat in Hi. right. destruct i as [|[|]]; [change (nz [1; 1] 0) with 1; lra|change (nz [1; 1] 1) with 1; lra|lia].
Qed.
Lemma c96_some_bias_ex : exists r, id_train Rpower (kernel_make InnerProduct 0) fine (1 / 10000000) (1001 / 1000) 100 (fun _ _ => true) idb = Ok (Some (Some r)) /\ dr_ok r = true /\ dr_last r = false /\ rect idb /\ index_perm idb /\ binary idb /\
  (forall i, (i < size idb)%nat -> nz (dr_full r) i = 0 \/ 1 / 10000000 * rate fine < nz (dr_full r) i).
Proof.
  destruct idb_run as (r & E & O & L & _ & F & _). destruct idb_ok as (O1 & O2 & O3 & O4). exists r. split; [exact E|]. split; [exact O|]. split; [exact L|]. split; [exact O1|]. split; [exact O2|]. split; [exact O3|].
  intros i Hi. rewrite F. change (rate fine) with 1. change (size idb) with 3%nat in Hi. destruct i as [|[|[|]]]; [right; change (nz [1; 0; 0] 0) with 1; lra|left; reflexivity|left; reflexivity|lia].
Qed.
Lemma c96_svs_ex : exists r, id_train Rpower (kernel_make InnerProduct 0) fine (1 / 10000000) (1001 / 1000) 100 (fun _ _ => true) (twp (1 / 10000)) = Ok (Some (Some r)) /\ dr_last r = true /\
  rect (twp (1 / 10000)) /\ index_perm (twp (1 / 10000)) /\ 0 <= rate fine.
Proof. destruct twp_small as (r & E & O & L & F). destruct (twp_ok (1 / 10000)) as (O1 & O2 & _). exists r. split; [exact E|]. split; [exact L|]. split; [exact O1|]. split; [exact O2|]. cbn. lra. Qed.
