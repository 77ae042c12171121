(** C137: training of the primal perceptron in double precision. *)
From Coq Require Import ZArith Bool List Reals Lia Lra Permutation.
From Flocq Require Import Core BinarySingleNaN.
From Verif Require Import Base ListLib M_Data L_Vec Loop S_Kernel L_Kernel M_Perc S_Perc L_Perc T_Perc M_F64 S_F64 L_F64 T_F64.
Import ListNotations.
Local Open Scope R_scope.

Definition fval (n : nat) (w x : list b64) (b : b64) : b64 := fold_left (fun f j => fadd f (fmul (nth j w fzero) (nth j x fzero))) (seq 0 n) b.
Lemma fdec_val n w x b : length w = n -> length x = n -> fdecision n w x b = Ok (fval n w x b).
Proof.
  intros Lw Lx. unfold fdecision, fval. assert (forall j, In j (seq 0 n) -> (j < n)%nat) as H by (intros j K; apply in_seq in K; lia). revert H b. generalize (seq 0 n) as js.
  induction js as [|j js IH]; intros H b; [reflexivity|]. cbn [ofold fold_left]. specialize (H j (or_introl eq_refl)) as Hj. rewrite aget_at, vget_at by lia. cbn [obind]. apply IH. intros k K. apply H. right. exact K.
Qed.
Definition fnew (n : nat) (c : b64) (x w : list b64) : list b64 := map (fun j => fadd (nth j w fzero) (fmul c (nth j x fzero))) (seq 0 n).
Lemma fnew_length n c x w : length (fnew n c x w) = n.
Proof. unfold fnew. rewrite map_length. apply seq_length. Qed.
Lemma fnew_nth n c x w j : (j < n)%nat -> nth j (fnew n c x w) fzero = fadd (nth j w fzero) (fmul c (nth j x fzero)).
Proof.
  intro H. apply nth_error_nth. unfold fnew. rewrite nth_error_map. rewrite (nth_error_nth' (seq 0 n) O) by (rewrite seq_length; exact H). rewrite seq_nth by exact H. reflexivity.
Qed.
Lemma fbump_ok n c x w : length w = n -> length x = n -> exists nrm, fbump n c x w = Ok (fnew n c x w, nrm).
Proof.
  intros Lw Lx. unfold fbump.
  destruct (ofold_seq (fun s j => let* v := vget x j in let* w1 := aupd j (fun a => fadd a (fmul c v)) (fst s) in let* a := aget w1 j in Ok (w1, fadd (snd s) (fmul a a)))
    (fun k (s : list b64 * b64) => length (fst s) = n /\ forall j, (j < n)%nat -> nth_error (fst s) j = Some (if Nat.ltb j k then fadd (nth j w fzero) (fmul c (nth j x fzero)) else nth j w fzero)) n (w, fzero)) as ([w' nrm] & E & L & H).
  - cbn [fst]. split; [exact Lw|]. intros j Hj. change (Nat.ltb j 0) with false. cbn [negb]. apply nth_error_nth'. lia.
  - intros k [w1 s] Hk (L & H). cbn [fst snd] in *. rewrite vget_at by lia. cbn [obind]. destruct (aupd_lt k (fun a => fadd a (fmul c (nth k x fzero))) w1) as (w2 & -> & U); [lia|]. cbn [obind].
    assert (length w2 = n) as L2 by (rewrite (upd_length _ _ _ _ U); exact L). rewrite aget_at by lia. cbn [obind]. eexists. split; [reflexivity|]. cbn [fst]. split; [exact L2|].
    intros j Hj. destruct (Nat.eq_dec k j) as [<-|N].
    + rewrite (upd_nth_same _ _ _ _ U), (H k Hk). rewrite Nat.ltb_irrefl. cbn [option_map]. replace (Nat.ltb k (S k)) with true by (symmetry; apply Nat.ltb_lt; lia). reflexivity.
    + rewrite (upd_nth_other _ _ _ _ _ U N), (H j Hj). destruct (Nat.ltb_spec j k), (Nat.ltb_spec j (S k)); try reflexivity; lia.
  - exists nrm. rewrite E. f_equal. f_equal. cbn [fst] in *. apply nth_ext with (d := fzero) (d' := fzero); [rewrite fnew_length; exact L|]. intros j Hj. rewrite L in Hj. rewrite fnew_nth by exact Hj.
    specialize (H j Hj). replace (Nat.ltb j n) with true in H by (symmetry; apply Nat.ltb_lt; exact Hj). apply (nth_error_nth _ _ fzero) in H. exact H.
Qed.
Definition fvis (d : data b64) (i : nat) : point b64 := nth (Z.to_nat (nth i (d_index d) 0%Z)) (d_points d) (mkPoint [] 0%Z 0%Z fzero).
Lemma fvis_get d i : all_once d -> (i < size d)%nat -> exists z m, vget (d_index d) i = Ok z /\ zidx z = Ok m /\ vget (d_points d) m = Ok (fvis d i) /\ In (fvis d i) (d_points d).
Proof.
  intros H Hi. pose proof (Permutation_length H) as L. rewrite map_length, seq_length in L. assert (In (nth i (d_index d) 0%Z) (map Z.of_nat (seq 0 (size d)))) as K by (eapply Permutation_in; [exact H|]; apply nth_In; lia).
  apply in_map_iff in K. destruct K as (m & Em & Hm). apply in_seq in Hm. exists (nth i (d_index d) 0%Z), m. unfold vget at 1. rewrite (nth_error_nth' _ 0%Z) by lia. split; [reflexivity|]. unfold fvis. rewrite <- Em, Nat2Z.id.
  unfold zidx. destruct (Z.ltb_spec (Z.of_nat m) 0); [lia|]. rewrite Nat2Z.id. split; [reflexivity|]. unfold vget. rewrite (nth_error_nth' (d_points d) (mkPoint [] 0%Z 0%Z fzero)) by (unfold size in Hm; lia). split; [reflexivity|]. apply nth_In. unfold size in Hm. lia.
Qed.
Lemma fvis_covers d p : all_once d -> In p (d_points d) -> exists i, (i < size d)%nat /\ fvis d i = p.
Proof.
  intros H Hp. apply (In_nth _ _ (mkPoint [] 0%Z 0%Z fzero)) in Hp. destruct Hp as (m & Hm & <-). pose proof (Permutation_length H) as L. rewrite map_length, seq_length in L.
  assert (In (Z.of_nat m) (d_index d)) as K by (eapply Permutation_in; [apply Permutation_sym, H|]; apply in_map, in_seq; unfold size; lia).
  apply (In_nth _ _ 0%Z) in K. destruct K as (i & Hi & E). exists i. split; [lia|]. unfold fvis. rewrite E, Nat2Z.id. reflexivity.
Qed.
Definition fupd (pr : fparams) (n : nat) (s : fstate) (p : point b64) (nrm : b64) : fstate :=
  mkF (fnew n (fmul (f_rate pr) (fofZ (p_y p))) (p_x p) (fs_w s)) (fadd (fs_b s) (fmul (f_rate pr) (fofZ (p_y p)))) nrm (S (fs_ctot s)) (S (fs_e s)).
Definition ferr (n : nat) (s : fstate) (p : point b64) : bool := fle (fmul (fofZ (p_y p)) (fval n (fs_w s) (p_x p) (fs_b s))) fzero.
Lemma fpass_step pr d steps i r s : even64 d -> all_once d -> (i < size d)%nat -> length (fs_w s) = dim d ->
  exists nrm, fpass pr d steps (i :: r) s = if ferr (dim d) s (fvis d i) then fpass pr d steps r (fupd pr (dim d) s (fvis d i) nrm) else if Nat.ltb 0 steps && Nat.ltb 1 (fs_e s) then Ok s else fpass pr d steps r s.
Proof.
  intros HE HI Hi Lw. destruct (fvis_get d i HI Hi) as (z & m & Ez & Em & Ep & Hp). specialize (HE _ Hp). destruct (fbump_ok (dim d) (fmul (f_rate pr) (fofZ (p_y (fvis d i)))) (p_x (fvis d i)) (fs_w s) Lw HE) as (nrm & Eb).
  exists (Bsqrt mode_NE nrm). cbn [fpass]. rewrite Ez. cbn [obind]. rewrite Em. cbn [obind]. rewrite Ep. cbn [obind]. rewrite (fdec_val _ _ _ _ Lw HE). cbn [obind]. unfold ferr. destruct (fle _ fzero); [|reflexivity]. rewrite Eb. reflexivity.
Qed.
Lemma fpass_clean pr d steps : even64 d -> all_once d -> forall is s s', (forall i, In i is -> (i < size d)%nat) -> length (fs_w s) = dim d -> fpass pr d steps is s = Ok s' ->
  length (fs_w s') = dim d /\ (fs_e s <= fs_e s')%nat /\ (fs_e s' = fs_e s -> s' = s) /\ (fs_e s' = O -> forall i, In i is -> ferr (dim d) s (fvis d i) = false).
Proof.
  intros HE HI. induction is as [|i r IH]; intros s s' Hin Lw E.
  - injection E as <-. split; [exact Lw|]. split; [lia|]. split; [reflexivity|]. intros _ i [].
  - destruct (fpass_step pr d steps i r s HE HI (Hin i (or_introl eq_refl)) Lw) as (nrm & K). rewrite K in E. clear K. destruct (ferr (dim d) s (fvis d i)) eqn:F.
    + destruct (IH (fupd pr (dim d) s (fvis d i) nrm) s' (fun j H => Hin j (or_intror H)) (fnew_length _ _ _ _) E) as (A & B & _). cbn [fupd fs_e] in B. split; [exact A|]. split; [lia|]. split; [lia|]. intro; lia.
    + destruct (Nat.ltb 0 steps && Nat.ltb 1 (fs_e s)) eqn:G.
      * injection E as <-. apply andb_true_iff in G. destruct G as (_ & G). apply Nat.ltb_lt in G. split; [exact Lw|]. split; [lia|]. split; [reflexivity|]. intro; lia.
      * destruct (IH _ s' (fun j H => Hin j (or_intror H)) Lw E) as (A & B & C & D). split; [exact A|]. split; [exact B|]. split; [exact C|]. intros Z j [<-|H]; [exact F|]. exact (D Z j H).
Qed.
Lemma floop_true pr d clk : even64 d -> all_once d -> forall fuel k steps s s' st', length (fs_w s) = dim d -> (clk k = true \/ fs_e s <> O) -> floop pr d clk fuel k steps s = Ok (Some (s', st')) -> fs_e s' = O ->
  length (fs_w s') = dim d /\ forall i, (i < size d)%nat -> ferr (dim d) s' (fvis d i) = false.
Proof.
  intros HE HI. induction fuel as [|fuel IH]; intros k steps s s' st' Lw HC E Z; cbn [floop] in E; destruct (clk k) eqn:C.
  - discriminate E.
  - injection E as <- <-. destruct HC as [H|H]; [discriminate H|contradiction].
  - destruct (fpass pr d steps (seq 0 (size d)) _) as [s1| |] eqn:P; cbn [obind] in E; try discriminate E.
    destruct (fpass_clean pr d steps HE HI (seq 0 (size d)) (mkF (fs_w s) (fs_b s) (fs_norm s) (fs_ctot s) 0) s1 (fun i H => proj2 (proj1 (in_seq _ _ _) H)) Lw P) as (A & B & Cs & D). cbn [fs_e] in *.
    destruct (Nat.eqb_spec (fs_e s1) 0) as [Z1|Z1]; cbn [orb] in E.
    + injection E as <- <-. split; [exact A|]. intros i Hi. rewrite (Cs Z1). apply (D Z1). apply in_seq. lia.
    + destruct (Nat.ltb (f_max_it pr) (S steps) || Nat.ltb (f_max_up pr) (fs_ctot s1)).
      * injection E as <- <-. contradiction.
      * apply (IH (S k) (S steps) s1 s' st' A (or_intror Z1) E Z).
  - injection E as <- <-. destruct HC as [H|H]; [discriminate H|contradiction].
Qed.
Lemma unit_mul (y : Z) (f : b64) : y = 1%Z \/ y = (-1)%Z -> fin f -> fin (fmul (fofZ y) f) /\ rv (fmul (fofZ y) f) = IZR y * rv f.
Proof.
  intros Y F. destruct (fofZ_ok y) as (Fy & Ey); [destruct Y as [->| ->]; reflexivity|].
  pose proof (Bmult_correct 53 1024 prec53 emax1024 mode_NE (fofZ y) f) as K. rewrite rnd_eq in K. change (B2R (fofZ y)) with (rv (fofZ y)) in K. change (B2R f) with (rv f) in K. rewrite Ey in K.
  assert (generic_format radix2 (FLT_exp (-1074) 53) (rv f)) as G by apply (generic_format_B2R 53 1024 f).
  assert (generic_format radix2 (FLT_exp (-1074) 53) (IZR y * rv f)) as G'. { destruct Y as [->| ->]; [rewrite Rmult_1_l; exact G|]. replace (-1 * rv f) with (- rv f) by ring. apply generic_format_opp, G. }
  rewrite round_generic in K by (try apply valid_rnd_N; exact G'). rewrite Rlt_bool_true in K.
  - destruct K as (A & B & _). split; [unfold fin; unfold fmul; rewrite B; rewrite Fy, F; reflexivity|exact A].
  - rewrite Rabs_mult. replace (Rabs (IZR y)) with 1 by (destruct Y as [->| ->]; unfold Rabs; destruct (Rcase_abs _); lra). rewrite Rmult_1_l. apply (abs_B2R_lt_emax 53 1024 f).
Qed.
Lemma label_side (y : Z) (f : b64) : y = 1%Z \/ y = (-1)%Z -> is_nan f = false -> fle (fmul (fofZ y) f) fzero = false -> (if fle fzero f then 1%Z else (-1)%Z) = y.
Proof.
  intros Y N H. destruct (is_finite f) eqn:F.
  - destruct (unit_mul y f Y F) as (A & B). rewrite fle_ok in H by (exact A || reflexivity). rewrite B in H. rewrite fle_ok by (exact F || reflexivity). change (rv fzero) with 0 in *.
    destruct Y as [->| ->]; destruct (Rle_dec _ 0) as [|L] in H; try discriminate H; destruct (Rle_dec 0 (rv f)); try reflexivity; exfalso; lra.
  - destruct f as [s|s| |]; try discriminate. destruct Y as [->| ->]; destruct s; vm_compute in H |- *; try reflexivity; discriminate H.
Qed.
(** C137: when training in doubles answers true (the clock having let it start), every training point is given its own label by evaluate(), but for points whose decision value
    is not a number, which are given -1. Nothing is assumed on the numbers. *)
Lemma c137_true : forall (pr : fparams) (d : data b64) (clk : nat -> bool) (w0 : list b64) (st0 ct0 : nat) (s : fstate) (st : nat), even64 d -> all_once d -> two_labels d ->
  w0 = [] \/ length w0 = dim d -> clk O = true -> ftrain pr d clk w0 st0 ct0 = Ok (Some (s, st, true)) ->
  forall p, In p (d_points d) -> exists f, fdecision (dim d) (fs_w s) (p_x p) (fs_b s) = Ok f /\
    (fevaluate (fs_w s) (fs_b s) (p_x p) = Ok (p_y p) \/ (is_nan f = true /\ fevaluate (fs_w s) (fs_b s) (p_x p) = Ok (-1)%Z)).
Proof.
  intros pr d clk w0 st0 ct0 s st HE HI HY HW HC E p Hp. unfold ftrain in E. set (w := match w0 with [] => repeat fzero (dim d) | _ => w0 end) in E.
  assert (length w = dim d) as Lw. { unfold w. destruct w0; [apply repeat_length|]. destruct HW as [HW|HW]; [discriminate HW|exact HW]. }
  destruct (floop pr d clk _ _ _ _) as [[[s1 st1]|]| |] eqn:L; cbn [obind] in E; try discriminate E. injection E as <- <- Z. apply Nat.eqb_eq in Z.
  destruct (floop_true pr d clk HE HI _ _ _ (mkF w fzero fzero ct0 0) s1 st1 Lw (or_introl HC) L Z) as (L1 & H). destruct (fvis_covers d p HI Hp) as (i & Hi & <-). specialize (H i Hi). pose proof (HE _ Hp) as Lx.
  exists (fval (dim d) (fs_w s1) (p_x (fvis d i)) (fs_b s1)). split; [apply fdec_val; auto|]. rewrite feval_dec by lia. rewrite L1, fdec_val by auto. cbn [obind].
  destruct (is_nan _) eqn:N; [right; split; [reflexivity|rewrite nan_class by exact N; reflexivity]|left]. f_equal. apply label_side; auto.
Qed.
(** C137: so data whose points all have a coordinate that is not finite is "learnt" at once, with weights 0, and every point is given -1, whatever its label. *)
Lemma repeat_poison n x j : length x = n -> (j < n)%nat -> ~ fin (nth j x fzero) -> poison (repeat fzero n) x j.
Proof. intros L H F. unfold poison. rewrite nth_repeat. destruct (nth j x fzero); try reflexivity; exfalso; apply F; reflexivity. Qed.
Lemma nan_mul y f : is_nan f = true -> fle (fmul y f) fzero = false.
Proof. destruct f; try discriminate. destruct y; reflexivity. Qed.
Lemma c137_infinite_refuted : forall (pr : fparams) (d : data b64) (clk : nat -> bool) (st0 ct0 : nat), even64 d -> all_once d -> clk O = true ->
  (forall p, In p (d_points d) -> exists x, In x (p_x p) /\ ~ fin x) ->
  exists s, ftrain pr d clk [] st0 ct0 = Ok (Some (s, S st0, true)) /\ fs_w s = repeat fzero (dim d) /\ forall p, In p (d_points d) -> fevaluate (fs_w s) (fs_b s) (p_x p) = Ok (-1)%Z.
Proof.
  intros pr d clk st0 ct0 HE HI HC HX. set (s0 := mkF (repeat fzero (dim d)) fzero fzero ct0 0).
  assert (forall p, In p (d_points d) -> is_nan (fval (dim d) (repeat fzero (dim d)) (p_x p) fzero) = true) as N.
  { intros p Hp. destruct (HX p Hp) as (x & Hx & F). apply (In_nth _ _ fzero) in Hx. destruct Hx as (j & Hj & <-). pose proof (HE p Hp) as L. rewrite L in Hj.
    destruct (poison_dec (dim d) (repeat fzero (dim d)) (p_x p) fzero j (repeat_length _ _) L Hj (repeat_poison _ _ _ L Hj F)) as (g & E & G). rewrite fdec_val in E by (auto; apply repeat_length). injection E as ->. exact G. }
  assert (forall is, (forall i, In i is -> (i < size d)%nat) -> fpass pr d st0 is s0 = Ok s0) as P.
  { induction is as [|i r IH]; intro H; [reflexivity|]. destruct (fpass_step pr d st0 i r s0 HE HI (H i (or_introl eq_refl)) (repeat_length _ _)) as (nrm & ->). unfold ferr. cbn [s0 fs_w fs_b].
    destruct (fvis_get d i HI (H i (or_introl eq_refl))) as (_ & _ & _ & _ & _ & Hp). rewrite nan_mul by (apply N, Hp). cbn [fs_e]. change (Nat.ltb 1 0) with false. rewrite andb_false_r. apply IH. intros j Hj. apply H. right. exact Hj. }
  exists s0. split.
  - unfold ftrain. cbn [floop]. rewrite HC. cbn [fs_w fs_b fs_norm fs_ctot]. fold s0. rewrite P by (intros i H; apply in_seq in H; lia). cbn [obind s0 fs_e Nat.eqb orb]. reflexivity.
  - split; [reflexivity|]. intros p Hp. cbn [s0 fs_w fs_b]. rewrite feval_dec by (rewrite repeat_length; apply HE, Hp). rewrite repeat_length, fdec_val by (auto; apply repeat_length). cbn [obind]. rewrite nan_class by (apply N, Hp). reflexivity.
Qed.
Lemma c137_infinite_refuted_ex : let d := mkData [mkPoint [B754_infinity false] 1%Z 1%Z fzero] [] [0%Z] [] [] [] 1 1 false false false true : data b64 in
  even64 d /\ all_once d /\ two_labels d /\ forall p, In p (d_points d) -> exists x, In x (p_x p) /\ ~ fin x.
Proof.
  cbv zeta. split; [intros p [<-|[]]; reflexivity|]. split; [apply Permutation_refl|]. split; [intros p [<-|[]]; left; reflexivity|]. intros p [<-|[]]. exists (B754_infinity false). split; [left; reflexivity|discriminate].
Qed.
(** Two points on a line, visited in reverse order. *)
Definition fx2 : data b64 := mkData [mkPoint [fofZ 1] 1%Z 1%Z fzero; mkPoint [fofZ (-2)] (-1)%Z 2%Z fzero] [] [1%Z; 0%Z] [] [] [] 2 1 false false false true.
Lemma fx2_ok : even64 fx2 /\ all_once fx2 /\ two_labels fx2.
Proof. split; [intros p [<-|[<-|[]]]; reflexivity|]. split; [apply perm_swap|]. intros p [<-|[<-|[]]]; cbn; auto. Qed.
Lemma c137_true_ex : exists s st, even64 fx2 /\ all_once fx2 /\ two_labels fx2 /\ ftrain (mkFparams (fofZ 1) 10 10) fx2 (fun _ => true) [] 0 0 = Ok (Some (s, st, true)).
Proof.
  destruct fx2_ok as (A & B & C).
  assert (match ftrain (mkFparams (fofZ 1) 10 10) fx2 (fun _ => true) [] 0 0 with Ok (Some (_, _, b)) => b | _ => false end = true) as H by (vm_compute; reflexivity).
  destruct (ftrain _ fx2 _ _ _ _) as [[[[s st] b]|]| |]; try discriminate H. subst b. exists s, st. auto.
Qed.
