(** C138: training of the primal perceptron in double precision, on whole numbers. *)
From Coq Require Import ZArith Bool List Reals Lia Lra Permutation.
From Flocq Require Import Core BinarySingleNaN.
From Verif Require Import Base ListLib M_Data L_Vec Loop S_Kernel L_Kernel M_Perc S_Perc L_Perc T_Perc M_F64 S_F64 L_F64 T_F64 T_F64b.
Import ListNotations.
Local Open Scope R_scope.

Definition conv (p : point b64) : point R := mkPoint (map rv (p_x p)) (p_y p) (p_id p) (rv (p_alpha p)).
Lemma dim_conv d : dim (in_reals d) = dim d.
Proof. unfold dim. cbn [d_points in_reals]. destruct (d_points d) as [|p l]; [reflexivity|]. cbn. apply map_length. Qed.
Lemma size_conv d : size (in_reals d) = size d.
Proof. unfold size. cbn [d_points in_reals]. apply map_length. Qed.
Lemma rect_conv d : even64 d -> rect (in_reals d).
Proof. intros H p Hp. rewrite dim_conv. cbn [d_points in_reals] in Hp. apply in_map_iff in Hp. destruct Hp as (q & <- & Hq). cbn. rewrite map_length. apply H, Hq. Qed.
Lemma once_conv d : all_once d -> index_perm (in_reals d).
Proof. intro H. unfold index_perm. rewrite size_conv. exact H. Qed.
Lemma labels_conv d : two_labels d -> binary (in_reals d).
Proof. intros H p Hp. cbn [d_points in_reals] in Hp. apply in_map_iff in Hp. destruct Hp as (q & <- & Hq). apply (H q Hq). Qed.
Lemma vis_conv d i : vis (in_reals d) i = conv (fvis d i).
Proof. unfold vis, fvis, pt. cbn [d_points d_index in_reals]. rewrite <- (map_nth conv). reflexivity. Qed.
Lemma nz_conv v j : nz (map rv v) j = at64 v j.
Proof. apply nz_rv. Qed.

Section Whole.
Variables (pr : fparams) (d : data b64) (M r : Z) (ct0 : nat).
Let n := dim d.
Let N := Z.of_nat (f_max_up pr + size d).
Hypotheses (HE : even64 d) (HI : all_once d) (HY : two_labels d) (HM0 : (0 <= M)%Z) (HM : whole_data M d) (Fr : fin (f_rate pr)) (Er : rv (f_rate pr) = IZR r) (Hr : (0 < r)%Z)
  (HB : (N * r * (1 + Z.of_nat n * M * M) < 2 ^ 53)%Z).
Let pr' := mkParams (rv (f_rate pr)) (f_max_it pr) (f_max_up pr).
Definition bounded (c : Z) (s : fstate) : Prop :=
  length (fs_w s) = n /\ Forall fin (fs_w s) /\ (forall j, (j < n)%nat -> exists z, at64 (fs_w s) j = IZR z /\ (Z.abs z <= c * r * M)%Z) /\ fin (fs_b s) /\ exists z, rv (fs_b s) = IZR z /\ (Z.abs z <= c * r)%Z.
Lemma cbound c : (0 <= c <= N)%Z -> (c * r * (1 + Z.of_nat n * M * M) < 2 ^ 53)%Z.
Proof. intro H. eapply Z.le_lt_trans; [|exact HB]. apply Z.mul_le_mono_nonneg_r; [nia|]. apply Z.mul_le_mono_nonneg_r; lia. Qed.
Lemma whole_val c s p : (0 <= c <= N)%Z -> bounded c s -> In p (d_points d) ->
  fin (fval n (fs_w s) (p_x p) (fs_b s)) /\ rv (fval n (fs_w s) (p_x p) (fs_b s)) = score n (map rv (fs_w s)) (map rv (p_x p)) (rv (fs_b s)).
Proof.
  intros Hc (Lw & Fw & Ww & Fb & zb & Eb & Bb) Hp. pose proof (HE p Hp) as Lx. fold n in Lx.
  assert (Forall fin (p_x p)) as Fx by (apply Forall_forall; intros x Hx; apply (HM p x Hp Hx)).
  assert (forall j, (j < n)%nat -> exists z, at64 (p_x p) j = IZR z /\ (Z.abs z <= M)%Z) as Wx by (intros j Hj; apply (HM p (nth j (p_x p) fzero) Hp); apply nth_In; lia).
  destruct (c136_whole (fs_w s) (p_x p) (fs_b s)) as ((f & Ef & Ff & Vf) & _); auto; try lia.
  - exists zb. exact Eb.
  - intros v [Hv|Hv]; apply (In_nth _ _ fzero) in Hv; destruct Hv as (j & Hj & <-).
    + destruct (Ww j) as (z & Ez & _); [lia|]. exists z. exact Ez.
    + destruct (Wx j) as (z & Ez & _); [lia|]. exists z. exact Ez.
  - rewrite Lw. apply Rle_lt_trans with (IZR (c * r * (1 + Z.of_nat n * M * M))); [|apply IZR_lt, cbound, Hc]. unfold magnitude.
    assert (Rabs (rv (fs_b s)) <= IZR (c * r)) as B1 by (rewrite Eb, <- abs_IZR; apply IZR_le, Bb).
    assert (sumn n (fun j => Rabs (at64 (fs_w s) j * at64 (p_x p) j)) <= INR n * IZR (c * r * M * M)) as B2.
    { rewrite <- sumn_const. apply sumn_le. intros j Hj. destruct (Ww j Hj) as (zw & Ew & Bw). destruct (Wx j Hj) as (zx & Ex & Bx). rewrite Ew, Ex, <- mult_IZR, <- abs_IZR. apply IZR_le. rewrite Z.abs_mul.
      apply Z.mul_le_mono_nonneg; try lia. }
    rewrite INR_IZR_INZ, <- mult_IZR in B2. replace (c * r * (1 + Z.of_nat n * M * M))%Z with (c * r + Z.of_nat n * (c * r * M * M))%Z by ring. rewrite plus_IZR. lra.
  - rewrite Lw, fdec_val in Ef by auto. injection Ef as Ef. rewrite Ef. split; [exact Ff|]. rewrite Vf, Lw. unfold exact_value, score, inner. rewrite Rplus_comm. f_equal. apply sumn_ext. intros j Hj. rewrite !nz_conv. reflexivity.
Qed.
Lemma whole_err c s t p : (0 <= c <= N)%Z -> bounded c s -> agree s t -> In p (d_points d) -> ferr n s p = if Rle_dec (fscore (in_reals d) t (conv p)) 0 then true else false.
Proof.
  intros Hc B (_ & Ew & _ & Eb & _) Hp. destruct (whole_val c s p Hc B Hp) as (Ff & Vf). unfold ferr, fscore. rewrite dim_conv. fold n. destruct (unit_mul (p_y p) _ (HY p Hp) Ff) as (A & E). rewrite fle_ok by (exact A || reflexivity). rewrite E, Vf.
  change (rv fzero) with 0. cbn [conv p_x p_y]. rewrite <- Ew, <- Eb. reflexivity.
Qed.
Lemma rate_label y : y = 1%Z \/ y = (-1)%Z -> (r < 2 ^ 53)%Z -> fin (fmul (f_rate pr) (fofZ y)) /\ rv (fmul (f_rate pr) (fofZ y)) = IZR (r * y).
Proof.
  intros Y H. destruct (fofZ_ok y) as (Fy & Ey); [destruct Y as [->| ->]; reflexivity|]. apply fmul_int; auto; [rewrite Er, Ey, mult_IZR; reflexivity|]. destruct Y as [->| ->]; lia.
Qed.
Lemma whole_update c s t p nrm : (0 <= c)%Z -> (c + 1 <= N)%Z -> bounded c s -> agree s t -> In p (d_points d) ->
  bounded (c + 1) (fupd pr n s p nrm) /\ agree (fupd pr n s p nrm) (pupdate pr' (in_reals d) t (conv p)).
Proof.
  intros Hc HN (Lw & Fw & Ww & Fb & zb & Eb & Bb) (_ & Aw & _ & Ab & Ac & Ae) Hp. pose proof (HE p Hp) as Lx. fold n in Lx. pose proof (HY p Hp) as Y.
  pose proof (cbound (c + 1) ltac:(lia)) as CB. assert (0 <= Z.of_nat n * M * M)%Z as P0 by nia. assert ((c + 1) * r < 2 ^ 53)%Z as C1 by nia. assert (r < 2 ^ 53)%Z as C2 by nia.
  destruct (rate_label (p_y p) Y C2) as (Fc & Ec). set (k := fmul (f_rate pr) (fofZ (p_y p))) in *.
  assert (forall j, (j < n)%nat -> exists z zx, fin (fadd (nth j (fs_w s) fzero) (fmul k (nth j (p_x p) fzero))) /\ rv (fadd (nth j (fs_w s) fzero) (fmul k (nth j (p_x p) fzero))) = IZR z /\ at64 (p_x p) j = IZR zx /\
    IZR z = at64 (fs_w s) j + IZR (r * p_y p) * IZR zx /\ (Z.abs z <= (c + 1) * r * M)%Z) as U.
  { intros j Hj. destruct (Ww j Hj) as (zw & Ew & Bw). destruct (HM p (nth j (p_x p) fzero) Hp) as (Fx & zx & Ex & Bx); [apply nth_In; lia|].
    assert (M <= 1 + Z.of_nat n * M * M)%Z as C3 by (destruct (Z.eq_dec M 0); nia). assert ((c + 1) * r * M < 2 ^ 53)%Z as C4 by (eapply Z.le_lt_trans; [|exact CB]; apply Z.mul_le_mono_nonneg_l; nia).
    assert (Z.abs (r * p_y p * zx) <= r * M)%Z as C5 by (rewrite !Z.abs_mul; replace (Z.abs (p_y p)) with 1%Z by (destruct Y as [->| ->]; reflexivity); nia).
    assert (r * M <= (c + 1) * r * M)%Z as C6 by nia.
    destruct (fmul_int k (nth j (p_x p) fzero) (r * p_y p * zx) Fc Fx) as (Fm & Em); [rewrite Ec, Ex, <- mult_IZR; reflexivity|lia|].
    destruct (fadd_int (nth j (fs_w s) fzero) (fmul k (nth j (p_x p) fzero)) (zw + r * p_y p * zx) (fin_at _ j Fw) Fm) as (Fs & Es); [rewrite Em, plus_IZR; f_equal; exact Ew|lia|].
    exists (zw + r * p_y p * zx)%Z, zx. split; [exact Fs|]. split; [exact Es|]. split; [exact Ex|]. split; [rewrite plus_IZR, mult_IZR; f_equal; symmetry; exact Ew|lia]. }
  assert (Z.abs (r * p_y p) = r) as Cy by (destruct Y as [->| ->]; lia).
  destruct (fadd_int (fs_b s) k (zb + r * p_y p) Fb Fc) as (Fb' & Eb'); [rewrite Eb, Ec, plus_IZR; reflexivity|lia|].
  assert (Forall fin (fnew n k (p_x p) (fs_w s))) as FN.
  { apply Forall_forall. intros v Hv. apply (In_nth _ _ fzero) in Hv. destruct Hv as (j & Hj & <-). rewrite fnew_length in Hj. rewrite fnew_nth by exact Hj. destruct (U j Hj) as (z & zx & F & _). exact F. }
  split.
  - split; [apply fnew_length|]. split; [exact FN|]. split; [|split; [exact Fb'|exists (zb + r * p_y p)%Z; split; [exact Eb'|lia]]].
    intros j Hj. destruct (U j Hj) as (z & zx & _ & E & _ & _ & B). exists z. split; [|exact B]. unfold at64. cbn [fupd fs_w]. fold k. rewrite fnew_nth by exact Hj. exact E.
  - split; [exact FN|]. split; [|split; [exact Fb'|split; [|split; [cbn [fupd pupdate fs_ctot ps_ctot]; lia|cbn [fupd pupdate fs_e ps_e]; lia]]]].
    + cbn [fupd fs_w pupdate ps_w]. fold k. rewrite dim_conv. fold n. apply nth_ext with (d := 0) (d' := 0); [rewrite map_length, fnew_length, vadd_length; reflexivity|]. intros j Hj. rewrite map_length, fnew_length in Hj.
      change (nz (map rv (fnew n k (p_x p) (fs_w s))) j = nz (vadd n (ps_w t) (rate pr' * IZR (p_y (conv p))) (p_x (conv p))) j). rewrite nz_vadd by exact Hj. rewrite nz_conv. unfold at64. rewrite fnew_nth by exact Hj.
      destruct (U j Hj) as (z & zx & _ & E & Ex & Ez & _). rewrite E, Ez, <- Aw, nz_conv. cbn [conv p_x p_y]. rewrite nz_conv, Ex. cbn [pr' rate]. rewrite Er, (mult_IZR r). reflexivity.
    + cbn [fupd fs_b pupdate ps_b conv p_y]. fold k. rewrite Eb', plus_IZR, mult_IZR, <- Eb, Ab. cbn [pr' rate]. rewrite Er. reflexivity.
Qed.
Lemma agree_length s t : agree s t -> length (fs_w s) = length (ps_w t).
Proof. intros (_ & <- & _). symmetry. apply map_length. Qed.
Lemma whole_pass steps : forall is s t c, (forall i, In i is -> (i < size d)%nat) -> (0 <= c)%Z -> (c + Z.of_nat (length is) <= N)%Z -> c = (Z.of_nat (fs_ctot s) - Z.of_nat ct0)%Z -> bounded c s -> agree s t ->
  exists s' t' c', fpass pr d steps is s = Ok s' /\ ppass pr' (in_reals d) steps is t = Ok t' /\ (0 <= c')%Z /\ c' = (Z.of_nat (fs_ctot s') - Z.of_nat ct0)%Z /\ (c' <= N)%Z /\ bounded c' s' /\ agree s' t'.
Proof.
  induction is as [|i is IH]; intros s t c Hin Hc HN Ec B A.
  - exists s, t, c. cbn [fpass ppass]. cbn [length] in HN. split; [reflexivity|]. split; [reflexivity|]. split; [exact Hc|]. split; [exact Ec|]. split; [lia|]. auto.
  - pose proof (Hin i (or_introl eq_refl)) as Hi. assert (length (fs_w s) = dim d) as Lw by apply B. cbn [length] in HN. destruct (fpass_step pr d steps i is s HE HI Hi Lw) as (nrm & ->).
    rewrite (ppass_step pr' (in_reals d) (rect_conv d HE) (index_perm_ok _ (once_conv d HI)) steps i is t) by (rewrite ?size_conv, ?dim_conv, <- ?(agree_length s t A); auto). rewrite vis_conv.
    destruct (fvis_get d i HI Hi) as (_ & _ & _ & _ & _ & Hp). fold n. rewrite (whole_err c s t (fvis d i)) by (auto; lia). destruct (Rle_dec _ 0) as [L|L].
    + destruct (whole_update c s t (fvis d i) nrm Hc ltac:(lia) B A Hp) as (B' & A'). apply (IH _ _ (c + 1)%Z); auto; try lia; [intros j Hj; apply Hin; right; exact Hj|cbn [fupd fs_ctot]; lia].
    + assert (fs_e s = ps_e t) as -> by apply A. destruct (_ && _).
      * exists s, t, c. split; [reflexivity|]. split; [reflexivity|]. split; [exact Hc|]. split; [exact Ec|]. split; [lia|]. auto.
      * apply (IH _ _ c); auto; try lia. intros j Hj. apply Hin. right. exact Hj.
Qed.
Lemma whole_loop clk : forall fuel k steps s t c, (0 <= c)%Z -> (c <= Z.of_nat (f_max_up pr))%Z -> c = (Z.of_nat (fs_ctot s) - Z.of_nat ct0)%Z -> bounded c s -> agree s t ->
  match ploop pr' (in_reals d) clk fuel k steps t with
  | Ok (Some (t', st)) => exists s', floop pr d clk fuel k steps s = Ok (Some (s', st)) /\ agree s' t' /\ exists c, (0 <= c <= N)%Z /\ bounded c s'
  | Ok None => floop pr d clk fuel k steps s = Ok None
  | _ => False
  end.
Proof.
  induction fuel as [|fuel IH]; intros k steps s t c Hc HU Ec B A; cbn [ploop floop]; destruct (clk k).
  - reflexivity.
  - exists s. split; [reflexivity|]. split; [exact A|]. exists c. unfold N. auto with zarith.
  - destruct (whole_pass steps (seq 0 (size d)) (mkF (fs_w s) (fs_b s) (fs_norm s) (fs_ctot s) 0) (mkP (ps_w t) (ps_b t) (ps_norm t) (ps_ctot t) 0) c) as (s' & t' & c' & Ef & Ep & H0 & H1 & H2 & B' & A'); auto.
    + intros i H. apply in_seq in H. lia.
    + rewrite seq_length. unfold N. lia.
    + destruct A as (A1 & A2 & A3 & A4 & A5 & A6). repeat split; auto.
    + rewrite Ef, size_conv, Ep. cbn [obind]. assert (fs_e s' = ps_e t') as -> by apply A'. assert (fs_ctot s' = ps_ctot t') as Ect by apply A'. rewrite Ect. cbn [pr' max_it max_up]. assert (exists c, (0 <= c <= N)%Z /\ bounded c s') as BC by (exists c'; auto).
      destruct (Nat.eqb_spec (ps_e t') 0) as [Z1|Z1]; cbn [orb]; [exists s'; auto|]. destruct (Nat.ltb _ (S steps)); cbn [orb]; [exists s'; auto|]. destruct (Nat.ltb_spec (f_max_up pr) (ps_ctot t')) as [U|U]; [exists s'; auto|].
      apply (IH (S k) (S steps) s' t' c'); auto. lia.
  - exists s. split; [reflexivity|]. split; [exact A|]. exists c. unfold N. auto with zarith.
Qed.
Lemma whole_start : bounded 0 (mkF (repeat fzero n) fzero fzero ct0 0) /\ agree (mkF (repeat fzero n) fzero fzero ct0 0) (mkP (repeat 0 n) 0 0 ct0 0).
Proof.
  assert (Forall fin (repeat fzero n)) as F by (apply Forall_forall; intros x H; apply repeat_spec in H; subst; reflexivity). split.
  - split; [apply repeat_length|]. split; [exact F|]. split; [|split; [reflexivity|exists 0%Z; split; [reflexivity|lia]]]. intros j Hj. exists 0%Z. unfold at64. cbn [fs_w]. rewrite nth_repeat. split; [reflexivity|lia].
  - split; [exact F|]. split; [|repeat split]. cbn [fs_w ps_w]. clear. induction n as [|m IH]; [reflexivity|]. cbn [repeat map]. rewrite IH. reflexivity.
Qed.
Lemma whole_train clk st0 : match ptrain pr' (in_reals d) clk [] st0 ct0 with
  | Ok (Some (t, st, b)) => exists s, ftrain pr d clk [] st0 ct0 = Ok (Some (s, st, b)) /\ agree s t /\ exists c, (0 <= c <= N)%Z /\ bounded c s
  | Ok None => ftrain pr d clk [] st0 ct0 = Ok None
  | _ => False
  end.
Proof.
  destruct whole_start as (B & A). pose proof (whole_loop clk (S (f_max_it pr)) 0 st0 (mkF (repeat fzero n) fzero fzero ct0 0) (mkP (repeat 0 n) 0 0 ct0 0) 0%Z (Z.le_refl 0) (Nat2Z.is_nonneg _) ltac:(cbn [fs_ctot]; lia) B A) as H. unfold ptrain, ftrain. rewrite dim_conv. fold n. cbn [pr' max_it].
  change (f_max_it pr) with (max_it pr') in H |- *. destruct (ploop pr' (in_reals d) clk (S (max_it pr')) 0 st0 _) as [[[t st]|]| |]; cbn [obind]; try contradiction.
  - destruct H as (s & E & A' & BC). rewrite E. cbn [obind]. exists s. assert (fs_e s = ps_e t) as -> by apply A'. auto.
  - rewrite H. reflexivity.
Qed.
End Whole.

(** C138: on data whose coordinates are integers of absolute value at most M, with an integer learning rate r, and as long as (MAX_UP + number of points) r (1 + dim M M) is less than 2^53, no operation
    on weights or decision values is rounded: training from scratch in doubles makes the same updates as in exact arithmetic and ends with the same weights, bias, counters and answer. *)
Lemma c138_exact : forall (pr : fparams) (d : data b64) (M r : Z) (clk : nat -> bool) (st0 ct0 : nat), even64 d -> all_once d -> two_labels d -> whole_data M d -> (0 <= M)%Z ->
  fin (f_rate pr) -> rv (f_rate pr) = IZR r -> (0 < r)%Z -> (Z.of_nat (f_max_up pr + size d) * r * (1 + Z.of_nat (dim d) * M * M) < 2 ^ 53)%Z ->
  exists s t st b, ftrain pr d clk [] st0 ct0 = Ok (Some (s, st, b)) /\ ptrain (mkParams (rv (f_rate pr)) (f_max_it pr) (f_max_up pr)) (in_reals d) clk [] st0 ct0 = Ok (Some (t, st, b)) /\ agree s t.
Proof.
  intros pr d M r clk st0 ct0 HE HI HY HM HM0 Fr Er Hr HB. pose proof (whole_train pr d M r ct0 HE HI HY HM0 HM Fr Er Hr HB clk st0) as H.
  destruct (c38_train_total (mkParams (rv (f_rate pr)) (f_max_it pr) (f_max_up pr)) (in_reals d) clk [] st0 ct0 (rect_conv d HE) (once_conv d HI) (or_introl eq_refl)) as (t & st & b & E & _). rewrite E in H. destruct H as (s & Es & A & _).
  exists s, t, st, b. auto.
Qed.
Lemma c138_exact_ex : even64 fx2 /\ all_once fx2 /\ two_labels fx2 /\ whole_data 2 fx2 /\ fin (fofZ 1) /\ rv (fofZ 1) = IZR 1 /\ (Z.of_nat (10 + size fx2) * 1 * (1 + Z.of_nat (dim fx2) * 2 * 2) < 2 ^ 53)%Z.
Proof.
  destruct fx2_ok as (A & B & C). split; [exact A|]. split; [exact B|]. split; [exact C|]. split; [|split; [reflexivity|split; [apply val_of; reflexivity|reflexivity]]].
  intros p x [<-|[<-|[]]] [<-|[]]; (split; [reflexivity|]); [exists 1%Z|exists (-2)%Z]; (split; [apply val_of; reflexivity|lia]).
Qed.
(** C138: hence the convergence theorem holds for the program itself on such data: when some hyperplane (u, bu) separates the points with margin g and the limits allow B updates, with B at least r2 |u, bu|^2 / g^2,
    training in doubles answers true after at most B updates and evaluate() in doubles gives every training point its own label. *)
Lemma c138_converges : forall (pr : fparams) (d : data b64) (M r : Z) (clk : nat -> bool) (st0 ct0 : nat) (u : list R) (bu g r2 : R) (B : nat), even64 d -> all_once d -> two_labels d -> whole_data M d -> (0 <= M)%Z ->
  fin (f_rate pr) -> rv (f_rate pr) = IZR r -> (0 < r)%Z -> (Z.of_nat (f_max_up pr + size d) * r * (1 + Z.of_nat (dim d) * M * M) < 2 ^ 53)%Z ->
  0 < g -> 0 <= r2 -> (forall p, In p (d_points d) -> g <= IZR (p_y p) * (sumn (dim d) (fun j => nz u j * at64 (p_x p) j) + bu)) ->
  (forall p, In p (d_points d) -> sumn (dim d) (fun j => at64 (p_x p) j * at64 (p_x p) j) + 1 <= r2) -> r2 * (inner (dim d) u u + bu * bu) <= INR B * (g * g) ->
  (forall k, clk k = true) -> (ct0 + B <= f_max_up pr)%nat -> (st0 + B <= f_max_it pr)%nat ->
  exists s st, ftrain pr d clk [] st0 ct0 = Ok (Some (s, st, true)) /\ (fs_ctot s <= ct0 + B)%nat /\ forall p, In p (d_points d) -> fevaluate (fs_w s) (fs_b s) (p_x p) = Ok (p_y p).
Proof.
  intros pr d M r clk st0 ct0 u bu g r2 B HE HI HY HM HM0 Fr Er Hr HB Hg Hr2 Hm Hx Hb HC HU HT.
  pose proof (whole_train pr d M r ct0 HE HI HY HM0 HM Fr Er Hr HB clk st0) as H.
  destruct (c39_success (mkParams (rv (f_rate pr)) (f_max_it pr) (f_max_up pr)) (in_reals d) clk st0 ct0 u bu g r2 B) as (t & st & E & Ct & _); auto.
  - apply rect_conv, HE.
  - apply once_conv, HI.
  - apply labels_conv, HY.
  - cbn [rate]. rewrite Er. apply IZR_lt, Hr.
  - intros p Hp. cbn [d_points in_reals] in Hp. apply in_map_iff in Hp. destruct Hp as (q & <- & Hq). specialize (Hm q Hq). unfold yf, inner. rewrite dim_conv. cbn [p_y p_x]. erewrite sumn_ext; [exact Hm|]. intros j Hj. cbn beta. rewrite nz_conv. reflexivity.
  - intros p Hp. cbn [d_points in_reals] in Hp. apply in_map_iff in Hp. destruct Hp as (q & <- & Hq). specialize (Hx q Hq). unfold inner. rewrite dim_conv. cbn [p_x]. erewrite sumn_ext; [exact Hx|]. intros j Hj. cbn beta. rewrite nz_conv. reflexivity.
  - rewrite dim_conv. exact Hb.
  - rewrite E in H. destruct H as (s & Es & A & c & Hc & BC). exists s, st. split; [exact Es|]. split; [destruct A as (_ & _ & _ & _ & -> & _); exact Ct|]. intros p Hp.
    destruct (c137_true pr d clk [] st0 ct0 s st HE HI HY (or_introl eq_refl) (HC O) Es p Hp) as (f & Ef & [K|(Nf & _)]); [exact K|exfalso].
    destruct (whole_val pr d M r HE HM0 HM Hr HB c s p Hc BC Hp) as (Ff & _). rewrite fdec_val in Ef by (apply BC || apply HE, Hp). injection Ef as Ef. rewrite Ef in Ff. revert Nf Ff. unfold fin. destruct f; discriminate.
Qed.
Lemma c138_converges_ex : (forall p, In p (d_points fx2) -> 1 <= IZR (p_y p) * (sumn (dim fx2) (fun j => nz [1] j * at64 (p_x p) j) + 0)) /\
  (forall p, In p (d_points fx2) -> sumn (dim fx2) (fun j => at64 (p_x p) j * at64 (p_x p) j) + 1 <= 5) /\ 5 * (inner (dim fx2) [1] [1] + 0 * 0) <= INR 5 * (1 * 1) /\ (0 + 5 <= 10)%nat.
Proof.
  split; [|split; [|split; [|lia]]].
  - intros p [<-|[<-|[]]]; unfold at64, nz; cbn [dim fx2 d_points p_x p_y length sumn nth]; rewrite val_of by reflexivity; lra.
  - intros p [<-|[<-|[]]]; unfold at64, nz; cbn [dim fx2 d_points p_x p_y length sumn nth]; rewrite val_of by reflexivity; lra.
  - unfold inner, nz. cbn [dim fx2 d_points p_x length sumn nth]. replace (INR 5) with 5 by (cbn; lra). lra.
Qed.
