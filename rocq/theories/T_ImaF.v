(** C131: the fixed-margin incremental margin classifier on its own. *)
From Coq Require Import ZArith Bool List Lia Reals Lra Psatz Permutation.
From Verif Require Import Base ListLib M_Data M_Point L_Vec Loop M_Kernel S_Kernel L_Kernel M_Perc S_Perc L_Perc T_Perc L_Knn L_Smo M_Fixed S_Fixed L_Fixed T_Fixed M_Ima S_Ima L_Ima T_Ima M_ImaF.
Import ListNotations.
Local Open Scope R_scope.

Lemma vresize_length n w : length (vresize n w) = n.
Proof. unfold vresize. rewrite app_length, firstn_length, repeat_length. lia. Qed.
Lemma imaf_w_length d o : q_sw o = [] \/ length (q_sw o) = dim d -> length (imaf_w d o) = dim d.
Proof. intro H. unfold imaf_w. destruct (q_sw o) as [|a r] eqn:E; [apply vresize_length|]. destruct H as [H|H]; [discriminate|exact H]. Qed.
Lemma over_length w sw : sw = [] \/ length sw = length w -> over w sw = w.
Proof. intro H. unfold over. rewrite skipn_all2; [apply app_nil_r|]. destruct H as [->|H]; [cbn; lia|lia]. Qed.

Section Run.
Variable pw : R -> R -> R.
Variable kind : qnorm.
Variable pr : params.
Variable gamma flex eps : R.
Variable d : data R.

Lemma imaf_loop_set clk f : forall fuel k steps s func, imaf_loop pw kind pr gamma flex eps d clk (Some f) fuel k steps s func = iloop pw kind pr gamma flex eps d clk f fuel k steps s func.
Proof using.
  induction fuel as [|fuel IH]; intros k steps s func; cbn [imaf_loop iloop]; [reflexivity|]. destruct (clk k); [|reflexivity].
  destruct (ipass _ _ _ _ _ _ _ _ _ _ _) as [[s1 func1]| |]; cbn [obind]; try reflexivity.
  destruct (Nat.eqb (f_e s1) 0 || Nat.ltb (max_it pr) (S steps) || Nat.ltb (max_up pr) (f_ctot s1)); cbn [orb]; [reflexivity|].
  destruct (match f with Some t => Nat.ltb t (f_ctot s1) | None => false end); [reflexivity|apply IH].
Qed.

Hypothesis HR : rect d.
Hypothesis HQ : kind = L1 -> (0 < dim d)%nat.
Hypothesis HI : index_perm d.

Lemma imaf_train_inv (Q : vec -> R -> Prop) clk f o : q_flag o = Some f -> q_sw o = [] \/ length (q_sw o) = dim d ->
  (forall idx s s', (idx < size d)%nat -> Q (f_w s) (f_norm s) -> fupdated pw kind pr gamma eps d idx s s' -> Q (f_w s') (f_norm s')) -> Q (imaf_w d o) (q_norm o) ->
  exists o' al ix ans, imaf_train pw kind pr gamma flex eps d clk o = Ok (Some (o', al, ix, ans)) /\ length (q_sw o') = dim d /\ length al = size d /\ Permutation ix (map Z.of_nat (seq 0 (size d))) /\
    q_margin o' = q_margin o /\ q_flag o' = q_flag o /\ Q (q_sw o') (q_norm o') /\
    (ans = true -> forall i, (i < size d)%nat -> gamma * q_norm o' - nz al i * flex < yf d (q_sw o') (q_b o') (pt d i)).
Proof using HR HQ HI.
  intros F L A Q0. unfold imaf_train. rewrite F, imaf_loop_set.
  destruct (iloop_inv pw kind pr gamma flex eps d HR HQ (fun s => Q (f_w s) (f_norm s)) clk f) with (fuel := S (max_it pr)) (k := 0%nat) (steps := q_steps o)
    (s := mkF (imaf_w d o) (q_b o) (q_norm o) (map p_alpha (d_points d)) (d_index d) 0 1 (q_ctot o) (q_lw o) (q_n o)) (func := repeat 0 (size d)) as (s & func & st & E & Lw & La & P & Lf & Qs & Se).
  - intros. eapply A; eauto.
  - intros s H. exact H.
  - lia.
  - lia.
  - apply imaf_w_length. exact L.
  - apply map_length.
  - exact HI.
  - cbn. lia.
  - apply repeat_length.
  - exact Q0.
  - rewrite E. cbn [obind]. eexists _, _, _, _. split; [reflexivity|]. cbn [q_sw q_norm q_b q_margin q_flag].
    rewrite over_length by (destruct L as [->|L]; [auto|right; lia]).
    split; [exact Lw|]. split; [exact La|]. split; [exact P|]. split; [reflexivity|]. split; [auto|]. split; [exact Qs|].
    intros Z i Hi. apply Nat.eqb_eq in Z. destruct (Se Z i Hi) as (S1 & _). exact S1.
Qed.
End Run.

(** C131: with the flag set, training from any start ends without reading outside its vectors, stores one weight per feature, leaves the visiting index a
    permutation, and when it answers true every training point has y (w.x + b) > gamma * norm - alpha * flexible. *)
Lemma c131_train : forall (pw : R -> R -> R) (kind : qnorm) (pr : params) (gamma flex eps : R) (d : data R) (clk : nat -> bool) (f : option nat) (o : imaf),
  rect d -> index_perm d -> (kind = L1 -> (0 < dim d)%nat) -> q_flag o = Some f -> q_sw o = [] \/ length (q_sw o) = dim d ->
  exists o' al ix ans, imaf_train pw kind pr gamma flex eps d clk o = Ok (Some (o', al, ix, ans)) /\ length (q_sw o') = dim d /\ length al = size d /\
    Permutation ix (map Z.of_nat (seq 0 (size d))) /\ q_margin o' = q_margin o /\ q_flag o' = q_flag o /\
    (ans = true -> forall i, (i < size d)%nat -> gamma * q_norm o' - nz al i * flex < yf d (q_sw o') (q_b o') (pt d i)).
Proof.
  intros pw kind pr gamma flex eps d clk f o HR HI HQ F L.
  destruct (imaf_train_inv pw kind pr gamma flex eps d HR HQ HI (fun _ _ => True) clk f o F L) as (o' & al & ix & ans & E & A & B & C & D & G & _ & H); auto.
  exists o', al, ix, ans. auto 10.
Qed.

Lemma imaf_eval_ok d o p : length (q_sw o) = dim d -> length (p_x p) = dim d -> imaf_evaluate o p = Ok (if Rle_dec (q_margin o * q_norm o) (value d (q_sw o) (q_b o) p) then 1%Z else (-1)%Z).
Proof. intros A B. pose proof (evaluate_ok d (q_sw o) (q_b o) (q_norm o) (q_margin o) p A B) as E. unfold ima_evaluate, ima_raw in E. unfold imaf_evaluate. rewrite A, B, Nat.eqb_refl in *. exact E. Qed.

(** C131: evaluate() answers by the side of the hyperplane, as no constructor and no training sets the margin it compares with; a point of another
    dimension gets 0. *)
Lemma c131_evaluate : forall (pw : R -> R -> R) (kind : qnorm) (pr : params) (gamma flex eps : R) (d : data R) (clk : nat -> bool) (f : option nat) (n : nat) (ini : option (vec * R * R)) (o' : imaf) (al : vec) (ix : list Z) (ans : bool) (p : point R),
  rect d -> index_perm d -> (kind = L1 -> (0 < dim d)%nat) -> imaf_train pw kind pr gamma flex eps d clk (imaf_flag f (imaf_make n ini)) = Ok (Some (o', al, ix, ans)) ->
  imaf_evaluate o' p = Ok (if negb (Nat.eqb (length (p_x p)) (dim d)) then 0%Z else if Rle_dec 0 (value d (q_sw o') (q_b o') p) then 1%Z else (-1)%Z).
Proof.
  intros pw kind pr gamma flex eps d clk f n ini o' al ix ans p HR HI HQ E.
  destruct (c131_train pw kind pr gamma flex eps d clk f (imaf_flag f (imaf_make n ini)) HR HI HQ eq_refl) as (o1 & al1 & ix1 & a1 & E1 & Lw & _ & _ & M & _).
  { left. destruct ini as [[[w b] nm]|]; reflexivity. }
  rewrite E in E1. injection E1 as <- _ _ _. assert (q_margin o' = 0) as M0 by (rewrite M; destruct ini as [[[w b] nm]|]; reflexivity).
  destruct (Nat.eqb_spec (length (p_x p)) (dim d)) as [L|L]; cbn [negb].
  - rewrite (imaf_eval_ok d) by auto. rewrite M0, Rmult_0_l. reflexivity.
  - unfold imaf_evaluate. rewrite Lw. apply Nat.eqb_neq in L. rewrite L. reflexivity.
Qed.

(** C131: after a training that answered true with zero flexibility, on labels 1 and -1, every training point is given its own label, from any start. *)
Lemma c131_answers : forall (pw : R -> R -> R) (kind : qnorm) (pr : params) (gamma eps : R) (d : data R) (clk : nat -> bool) (f : option nat) (n : nat) (ini : option (vec * R * R)) (o' : imaf) (al : vec) (ix : list Z) (p : point R),
  rect d -> index_perm d -> (kind = L1 -> (0 < dim d)%nat) -> (forall x q, 0 <= pw x q) -> 0 <= gamma -> binary d ->
  match ini with Some (_, _, norm) => 0 <= norm | None => True end ->
  imaf_train pw kind pr gamma 0 eps d clk (imaf_flag f (imaf_make n ini)) = Ok (Some (o', al, ix, true)) ->
  In p (d_points d) -> imaf_evaluate o' p = Ok (p_y p).
Proof.
  intros pw kind pr gamma eps d clk f n ini o' al ix p HR HI HQ HP HG HB HN E Hp.
  rewrite (c131_evaluate pw kind pr gamma 0 eps d clk f n ini o' al ix true p HR HI HQ E). rewrite (HR p Hp), Nat.eqb_refl. cbn [negb].
  destruct (imaf_train_inv pw kind pr gamma 0 eps d HR HQ HI (fun _ nm => 0 <= nm) clk f (imaf_flag f (imaf_make n ini))) as (o1 & al1 & ix1 & a1 & E1 & _ & _ & _ & _ & _ & N & S); auto.
  { left. destruct ini as [[[w b] nm]|]; reflexivity. }
  { intros idx s s' _ _ U. exact (step_norm_nonneg pw kind pr gamma eps d idx s s' HQ HP U). }
  { destruct ini as [[[w b] nm]|]; cbn; [exact HN|lra]. }
  rewrite E in E1. injection E1 as <- <- <- <-. specialize (S eq_refl).
  apply (In_nth_error _ p) in Hp. destruct Hp as (i & Ei). assert (i < size d)%nat as Hi by (unfold size; apply nth_error_Some; rewrite Ei; discriminate).
  assert (pt d i = p) as EP. { unfold pt. apply nth_error_nth with (d := mkPoint [] 0%Z 0%Z 0) in Ei. first [exact Ei|unfold pt in *; exact Ei]. }
  specialize (S i Hi). rewrite EP in S. unfold yf in S. fold (value d (q_sw o') (q_b o') p) in S. assert (0 <= gamma * q_norm o') by (apply Rmult_le_pos; auto).
  assert (In p (d_points d)) as Hp by (eapply nth_error_In; eauto).
  destruct (HB p Hp) as [Y|Y]; rewrite Y in *; destruct (Rle_dec _ _) as [L|L]; try reflexivity; lra.
Qed.

(** C131: the distance: when the norm given at the start is the norm of the weights there, it is so at the end (all formulations but L1), so that a
    training that answers true with zero flexibility leaves y (w.x + b) > gamma * norm(w) at every training point. *)
Lemma c131_norm : forall (pw : R -> R -> R) (kind : qnorm) (pr : params) (gamma flex eps : R) (d : data R) (clk : nat -> bool) (f : option nat) (o o' : imaf) (al : vec) (ix : list Z) (ans : bool),
  rect d -> index_perm d -> kind <> L1 -> q_flag o = Some f -> q_sw o = [] \/ length (q_sw o) = dim d -> norm_of pw kind (dim d) (imaf_w d o) (q_norm o) ->
  imaf_train pw kind pr gamma flex eps d clk o = Ok (Some (o', al, ix, ans)) -> norm_of pw kind (dim d) (q_sw o') (q_norm o').
Proof.
  intros pw kind pr gamma flex eps d clk f o o' al ix ans HR HI HK F L N E.
  destruct (imaf_train_inv pw kind pr gamma flex eps d HR (fun K => False_ind _ (HK K)) HI (norm_of pw kind (dim d)) clk f o F L) as (o1 & al1 & ix1 & a1 & E1 & _ & _ & _ & _ & _ & N1 & _); auto.
  - intros idx s s' _ _ (_ & H & _). auto.
  - rewrite E in E1. injection E1 as <- _ _ _. exact N1.
Qed.

(** C131: given weights that separate the points but a norm of 0 (a Solution whose norm was not filled in), training answers true after one pass and
    keeps the weights, whatever the fixed margin is. *)
Lemma c131_norm_refuted : forall (pw : R -> R -> R) (kind : qnorm) (pr : params) (gamma eps : R) (d : data R) (clk : nat -> bool) (w : vec) (b : R) (n : nat),
  rect d -> index_perm d -> (kind = L1 -> (0 < dim d)%nat) -> length w = dim d -> clk 0%nat = true -> (forall p, In p (d_points d) -> 0 < yf d w b p) ->
  exists o' al ix, imaf_train pw kind pr gamma 0 eps d clk (imaf_make n (Some (w, b, 0))) = Ok (Some (o', al, ix, true)) /\ q_sw o' = w /\ q_b o' = b /\ q_norm o' = 0.
Proof.
  intros pw kind pr gamma eps d clk w b n HR HI HQ Lw C Sep. unfold imaf_train. cbn [imaf_make q_flag q_steps q_b q_norm q_ctot q_lw q_n q_sw].
  assert (imaf_w d (imaf_make n (Some (w, b, 0))) = w) as W. { unfold imaf_w, vresize. cbn [q_sw q_w imaf_make]. rewrite firstn_all2 by lia. rewrite Lw, Nat.sub_diag. apply app_nil_r. }
  change (mkImaf w [] b 0 0 None 0 0 0 0) with (imaf_make n (Some (w, b, 0))). rewrite W. cbn [imaf_loop]. rewrite C.
  set (s0 := f_reset (mkF w b 0 (map p_alpha (d_points d)) (d_index d) 0 1 0 0 0)).
  assert (ready d 0 s0) as Rd by (split; [exact Lw|split; [apply map_length|split; [exact HI|cbn; lia]]]).
  assert (forall k i, (i + k <= size d)%nat -> fpass pw kind pr gamma 0 eps d 0 (seq i k) s0 = Ok s0) as FP.
  { induction k as [|k IH]; intros i Hk; [reflexivity|]. cbn [seq].
    assert (ready d i s0) as Ri. { destruct Rd as (A & B & D & G). split; [exact A|split; [exact B|split; [exact D|lia]]]. }
    destruct (fpass_step pw kind pr gamma 0 eps d HR HQ 0 i (seq (S i) k) s0 ltac:(lia) Ri) as (idx & s' & Hx & _ & E & _). rewrite E.
    destruct (Rle_dec _ _) as [L|L].
    - exfalso. pose proof (Sep (pt d idx) (pt_in d idx Hx)) as P. cbn [s0 f_reset f_w f_b f_norm f_al] in L. rewrite Rmult_0_r in L. lra.
    - cbn [Nat.ltb Nat.leb andb]. apply IH. lia. }
  destruct (ipass_proj pw kind pr gamma 0 eps d 0 (seq 0 (size d)) s0 (repeat 0 (size d)) (repeat_length _ _)) as (func & _ & EI).
  rewrite (FP (size d) 0%nat) in EI by lia. cbn [obind] in EI. rewrite EI. cbn [obind s0 f_reset f_e Nat.eqb orb]. eexists _, _, _. split; [reflexivity|]. cbn [q_sw q_b q_norm f_w f_b f_norm].
  split; [apply over_length; auto|]. auto.
Qed.

(** C131: a newly built object whose flag was not set reads it, uninitialised, on every non-empty dataset, as soon as there is time for a pass and neither
    limit is below what one pass takes: training is undefined behaviour. *)
Lemma c131_flag_refuted : forall (pw : R -> R -> R) (kind : qnorm) (pr : params) (gamma eps : R) (d : data R) (clk : nat -> bool),
  rect d -> index_perm d -> (kind = L1 -> (0 < dim d)%nat) -> clk 0%nat = true -> (0 < size d)%nat -> (1 <= max_it pr)%nat -> (size d <= max_up pr)%nat ->
  imaf_train pw kind pr gamma 0 eps d clk (imaf_make (dim d) None) = UB.
Proof.
  intros pw kind pr gamma eps d clk HR HI HQ C Hs Hi Hu. unfold imaf_train. cbn [imaf_make q_flag q_steps q_b q_norm q_ctot q_lw q_n q_sw].
  assert (imaf_w d (imaf_make (dim d) None) = repeat 0 (dim d)) as W. { unfold imaf_w, vresize. cbn [q_sw q_w imaf_make]. rewrite firstn_all2 by (rewrite repeat_length; lia). rewrite repeat_length, Nat.sub_diag. apply app_nil_r. }
  change (mkImaf (repeat 0 (dim d)) [] 0 0 0 None 0 0 0 0) with (imaf_make (dim d) None). rewrite W. cbn [imaf_loop]. rewrite C.
  set (s0 := f_reset (mkF (repeat 0 (dim d)) 0 0 (map p_alpha (d_points d)) (d_index d) 0 1 0 0 0)).
  assert (ready d 0 s0) as Rd by (split; [apply repeat_length|split; [apply map_length|split; [exact HI|cbn; lia]]]).
  destruct (fpass_inv pw kind pr gamma 0 eps d HR HQ (fun s => f_ctot s = f_e s) 0%nat) with (k := size d) (i := 0%nat) (s := s0) as (s1 & E & Rd1 & Q1).
  - intros idx s s' _ _ _ H (_ & _ & _ & _ & _ & A & B). lia.
  - lia.
  - exact Rd.
  - reflexivity.
  - assert (f_e s1 <> 0)%nat as NZ.
    { intro Z. destruct (fpass_clean pw kind pr gamma 0 eps d HR HQ 0%nat (size d) 0%nat s0 s1 ltac:(lia) Rd E) as (_ & Cl). destruct (Cl Z) as (_ & NW).
      destruct (perm_get d (d_index d) 0 HI Hs) as (idx & V & Hx). apply (NW 0%nat idx ltac:(lia) V). unfold fwrong, yf. cbn [s0 f_reset f_w f_b f_norm f_al].
      unfold inner. rewrite sumn_zero by (intros; rewrite nz_repeat; ring). rewrite Rplus_0_r, !Rmult_0_r. lra. }
    destruct (ipass_proj pw kind pr gamma 0 eps d 0 (seq 0 (size d)) s0 (repeat 0 (size d)) (repeat_length _ _)) as (func & _ & EI).
    rewrite E in EI. cbn [obind] in EI. rewrite EI. cbn [obind]. destruct Rd1 as (_ & _ & _ & He).
    replace (Nat.eqb (f_e s1) 0) with false by (symmetry; apply Nat.eqb_neq; exact NZ). replace (Nat.ltb (max_it pr) 1) with false by (symmetry; apply Nat.ltb_ge; lia).
    replace (Nat.ltb (max_up pr) (f_ctot s1)) with false by (symmetry; apply Nat.ltb_ge; lia). reflexivity.
Qed.

(** A run with an update: points 1 (label 1) and -4 (label -1), fixed margin 0; two passes. *)
Lemma ixf_run : exists al ix', imaf_train (fun _ _ => 0) L2 (lim 1 1) 0 0 (1/1000) ix (fun _ => true) (imaf_flag None (imaf_make 1 None)) =
  Ok (Some (mkImaf [1] [1] 1 1 0 (Some None) 2 1 0 0, al, ix', true)).
Proof.
  unfold imaf_train. change (S (max_it (lim 1 1))) with 2%nat. cbn [imaf_flag q_flag]. rewrite imaf_loop_set. rewrite iloop_S by reflexivity. change (seq 0 (size ix)) with [0; 1]%nat.
  match goal with |- context [f_reset ?s] => change (f_reset s) with (mkF [0] 0 0 [0; 0] [0; 1]%Z 0 0 0 0 0) end. change (repeat 0 (size ix)) with [0; 0].
  rewrite (ix_first L2 (1/1000) _ (or_intror eq_refl)). cbn [obind f_e f_ctot Nat.eqb orb lim max_it max_up imaf_flag imaf_make q_steps]. cbn [Nat.ltb Nat.leb orb]. change (mkParams 1 1 1) with (lim 1 1).
  rewrite iloop_S by reflexivity. change (seq 0 (size ix)) with [0; 1]%nat. change (f_reset (mkF [1] 1 1 [1; 0] [0; 1]%Z 0 1 1 0 0)) with (mkF [1] 1 1 [1; 0] [0; 1]%Z 0 0 1 0 0).
  rewrite (ix_second L2 (1/1000) _ [0; -3] eq_refl). cbn [obind f_e Nat.eqb orb]. eexists _, _. reflexivity.
Qed.
Lemma c131_train_ex : exists al ix', imaf_train (fun _ _ => 0) L2 (lim 1 1) 0 0 (1/1000) ix (fun _ => true) (imaf_flag None (imaf_make 1 None)) =
  Ok (Some (mkImaf [1] [1] 1 1 0 (Some None) 2 1 0 0, al, ix', true)) /\ rect ix /\ index_perm ix /\ size ix = 2%nat.
Proof. destruct ixf_run as (al & ix' & E). exists al, ix'. destruct ix_ok as (A & B & _). auto. Qed.
Lemma c131_evaluate_ex : imaf_evaluate (mkImaf [1] [1] 1 1 0 (Some None) 2 1 0 0) (mkPoint [-2] 1%Z 1%Z 0) = Ok (-1)%Z /\ imaf_evaluate (mkImaf [1] [1] 1 1 0 (Some None) 2 1 0 0) (mkPoint [-2; 5] 1%Z 1%Z 0) = Ok 0%Z.
Proof. split; [|reflexivity]. cbn. destruct (Rle_dec _ _); [lra|reflexivity]. Qed.
Lemma c131_answers_ex : exists o' al ix', imaf_train (fun _ _ => 0) L2 (lim 1 1) 0 0 (1/1000) ix (fun _ => true) (imaf_flag None (imaf_make 1 None)) = Ok (Some (o', al, ix', true)) /\ rect ix /\ index_perm ix /\ binary ix /\
  (forall x q : R, 0 <= (fun _ _ => 0) x q) /\ In (mkPoint [-4] (-1)%Z 2%Z 0) (d_points ix).
Proof. destruct ixf_run as (al & ix' & E). eexists _, al, ix'. split; [exact E|]. destruct ix_ok as (A & B & C & _). split; [exact A|]. split; [exact B|]. split; [exact C|]. split; [intros; apply Rle_refl|right; left; reflexivity]. Qed.
Lemma c131_norm_ex : norm_of (fun _ _ => 0) L2 (dim ix) (imaf_w ix (imaf_flag None (imaf_make 1 None))) 0 /\ norm_of (fun _ _ => 0) L2 (dim ix) [1] 1.
Proof.
  split; cbn [norm_of]; unfold euclid, inner; cbn; symmetry; [|replace (0 + 1 * 1) with 1 by ring; try (replace (1 * 1 + 0) with 1 by ring); exact sqrt_1].
  match goal with |- sqrt ?x = 0 => replace x with 0 by ring end. exact sqrt_0.
Qed.
(** The margin 5 is claimed, the points are at distances 1 and 4 of the hyperplane x = 0. *)
Lemma c131_norm_refuted_ex : rect ix /\ index_perm ix /\ (forall p, In p (d_points ix) -> 0 < yf ix [1] 0 p) /\ euclid (dim ix) [1] = 1 /\ yf ix [1] 0 (mkPoint [1] 1%Z 1%Z 0) < 5 * euclid (dim ix) [1].
Proof.
  destruct ix_ok as (A & B & _). assert (euclid (dim ix) [1] = 1) as N by (symmetry; apply c131_norm_ex).
  split; [exact A|]. split; [exact B|]. split; [intros p [<-|[<-|[]]]; unfold yf, inner; cbn [p_y p_x]; cbn; try lra|]. split; [exact N|]. rewrite N. unfold yf, inner. cbn. lra.
Qed.
Lemma c131_flag_refuted_ex : imaf_train (fun _ _ => 0) L2 (lim 1 5) 0 0 (1/1000) ix (fun _ => true) (imaf_make (dim ix) None) = UB.
Proof. destruct ix_ok as (A & B & _). apply c131_flag_refuted; auto; try discriminate; cbn; lia. Qed.
