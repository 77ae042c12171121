(** Property lemmas for the weight vectors of dual classifiers and the solution SMO stores: C90, C91. *)
From Coq Require Import ZArith Bool List Lia Reals Lra Psatz.
From Verif Require Import Base ListLib M_Data M_Point L_Vec Loop M_Kernel S_Kernel L_Kernel T_Kernel M_Perc S_Perc L_Perc T_Perc M_Dll S_Dll M_Smo S_Smo L_Smo T_Smo M_Weight S_Weight.
Import ListNotations.
Local Open Scope R_scope.

Lemma nz_map_seq0 (f : nat -> R) n i : (i < n)%nat -> nz (map f (seq 0 n)) i = f i.
Proof. intro H. unfold nz. rewrite (nth_indep _ 0 (f O)) by (rewrite map_length, seq_length; auto). rewrite map_nth, seq_nth; auto. Qed.

Lemma quadratic_ok d m g : (forall i j, (i < size d)%nat -> (j < size d)%nat -> m i j = Ok (g i j)) ->
  quadratic d m = Ok (sumn (size d) (fun i => sumn (size d) (fun j => alpha_of d i * alpha_of d j * g i j))).
Proof.
  intro H. unfold quadratic. rewrite (map_outcome_ok _ (fun i => sumn (size d) (fun j => alpha_of d j * g i j))).
  - cbn [obind]. apply osum_ok. intros i Hi. rewrite vget_map_seq by auto. cbn [obind]. rewrite vget_pt by auto. cbn [obind]. f_equal.
    unfold alpha_of. rewrite <- sumn_scal_r. apply sumn_ext. intros. ring.
  - intros i Hi. apply in_seq in Hi. apply osum_ok. intros j Hj. rewrite vget_pt by auto. cbn [obind]. rewrite H by lia. reflexivity.
Qed.

(** C90: getWeight gives one weight per feature, the combination of the examples with their dual variables and labels. *)
Lemma c90_weight : forall (d : data R), rect d ->
  exists w, getWeight d = Ok w /\ length w = dim d /\ forall f, (f < dim d)%nat -> nz w f = weight_of d (alpha_of d) f.
Proof.
  intros d HR. exists (map (weight_of d (alpha_of d)) (seq 0 (dim d))). split.
  - unfold getWeight. apply map_outcome_ok. intros f Hf. apply in_seq in Hf. apply osum_ok. intros i Hi. rewrite vget_pt by auto. cbn [obind].
    rewrite vget_nz by (rewrite rect_pt; auto; lia). reflexivity.
  - split; [rewrite map_length, seq_length; auto|]. intros f Hf. apply nz_map_seq0. auto.
Qed.
Lemma c90_weight_ex : rect kex /\ (1 < dim kex)%nat /\ (1 < size kex)%nat.
Proof. split; [apply rect_kex|]. split; cbn; lia. Qed.

(** C90: getDualWeightProdInt gives the squares of those weights. *)
Lemma c90_squares : forall (d : data R), rect d ->
  exists w, getDualWeightProdInt d = Ok w /\ length w = dim d /\ forall f, (f < dim d)%nat -> nz w f = (weight_of d (alpha_of d) f) ^ 2.
Proof.
  intros d HR. exists (map (fun f => (weight_of d (alpha_of d) f) ^ 2) (seq 0 (dim d))). split.
  - unfold getDualWeightProdInt. apply map_outcome_ok. intros f Hf. apply in_seq in Hf.
    rewrite (quadratic_ok d _ (fun i j => nz (p_x (pt d i)) f * nz (p_x (pt d j)) f * IZR (p_y (pt d i)) * IZR (p_y (pt d j)))).
    + f_equal. unfold weight_of. cbn [pow]. rewrite Rmult_1_r. rewrite <- sumn_scal_r. apply sumn_ext. intros i Hi. rewrite <- sumn_scal. apply sumn_ext. intros. ring.
    + intros i j Hi Hj. rewrite !vget_pt by auto. cbn [obind]. rewrite !vget_nz by (rewrite rect_pt; auto; lia). reflexivity.
  - split; [rewrite map_length, seq_length; auto|]. intros f Hf. apply (nz_map_seq0 (fun f => (weight_of d (alpha_of d) f) ^ 2)). auto.
Qed.
Lemma c90_squares_ex : rect kex /\ (1 < dim kex)%nat /\ (1 < size kex)%nat.
Proof. exact c90_weight_ex. Qed.

Lemma generateHwd_type pw k d j k' : generateHwd pw k d j = Ok k' -> k_type k' = k_type k /\ k_param k' = k_param k.
Proof.
  unfold generateHwd. match goal with |- context [obind ?x _] => generalize x end. intros [m| |] E; cbn [obind] in E; try discriminate. injection E as <-. split; reflexivity.
Qed.
Lemma kval1_sym pw t par n p q : t <> Custom -> kval1 pw t par n p q = kval1 pw t par n q p.
Proof. intro N. destruct t; cbn [kval1]; rewrite ?(inner_sym n (p_x p)); try reflexivity; apply kval_sym; intro; congruence. Qed.

(** C90: getDualWeight, for every kernel but a custom one, gives for every feature the quadratic form of the dual variables in the matrix
    y_i y_j K(i,j) - y_i y_j K'(i,j), K' being the kernel without the feature, except that above the diagonal the second term lacks the labels. *)
Lemma c90_dual : forall (pw : R -> R -> R) (k : kernel) (d : data R), rect d -> k_type k <> Custom ->
  k_H k = [] \/ shape (size d) (fun _ => size d) (k_H k) ->
  exists w k', getDualWeight pw k d = Ok (w, k') /\ length w = dim d /\ k_K k' = k_K k /\ k_type k' = k_type k /\ k_param k' = k_param k /\
    forall f, (f < dim d)%nat -> nz w f = sumn (size d) (fun i => sumn (size d) (fun j => alpha_of d i * alpha_of d j *
      (let y := IZR (p_y (pt d i)) * IZR (p_y (pt d j)) in
       y * value_full pw k d i j - (if Nat.leb j i then y else 1) * value_without pw k d f i j))).
Proof.
  intros pw k d HR NC HH.
  destruct (generateH_ok pw k d (fun _ _ _ => 0) HR (fun E => False_ind _ (NC E)) HH) as (k0 & E0 & K0 & T0 & P0 & _ & [_ M0]).
  unfold getDualWeight. rewrite E0. cbn [obind].
  set (g := fun f => sumn (size d) (fun i => sumn (size d) (fun j => alpha_of d i * alpha_of d j *
      (let y := IZR (p_y (pt d i)) * IZR (p_y (pt d j)) in
       y * value_full pw k d i j - (if Nat.leb j i then y else 1) * value_without pw k d f i j)))).
  destruct (ofold_seq (fun st f =>
    let* k1 := generateHwd pw (snd st) d (Z.of_nat f) in
    let* w := quadratic d (fun i j => let* h := mget (k_H k1) i j in let* hk := mget (k_Hwd k1) i j in Ok (h - hk)) in
    Ok (fst st ++ [w], k1)) (fun n (st : vec * kernel) => fst st = map g (seq 0 n) /\ k_type (snd st) = k_type k /\ k_param (snd st) = k_param k /\ k_K (snd st) = k_K k /\ k_H (snd st) = k_H k0) (dim d) ([], k0)) as ([w k'] & E & HW & HT & HP & HKK & _).
  - cbn. repeat split; auto.
  - intros f [w kk] Hf (HW & HT & HP & HKK & HH2). cbn [fst snd] in *.
    destruct (generateHwd_ok pw kk d f HR) as (k1 & E1 & K1 & H1 & _ & U1 & L1); [congruence|auto|]. rewrite E1. cbn [obind].
    destruct (generateHwd_type _ _ _ _ _ E1) as [T1 P1].
    rewrite (quadratic_ok d _ (fun i j => (let y := IZR (p_y (pt d i)) * IZR (p_y (pt d j)) in y * value_full pw k d i j - (if Nat.leb j i then y else 1) * value_without pw k d f i j))).
    + cbn [obind]. eexists. split; [reflexivity|]. cbn [fst snd]. rewrite seq_S, map_app, HW. cbn [map Nat.add]. repeat split; congruence.
    + intros i j Hi Hj. rewrite H1, HH2.
      assert (mget (k_H k0) i j = Ok (IZR (p_y (pt d i)) * IZR (p_y (pt d j)) * value_full pw k d i j)) as ->.
      { assert (forall a b, kval pw (k_type k) (k_param k) (fun _ _ _ => 0) (dim d) (pt d a) (pt d b) = value_full pw k d a b) as V
          by (intros; unfold kval, value_full; destruct (k_type k); reflexivity).
        destruct (le_lt_dec i j) as [L|L].
        - destruct (M0 i j ltac:(lia)) as [-> _]. rewrite V. f_equal. ring.
        - destruct (M0 j i ltac:(lia)) as [_ ->]. rewrite (kval_sym pw _ _ _ _ (pt d j)) by (intro; congruence). rewrite V. f_equal. ring. }
      assert (forall a b, kval1 pw (k_type kk) (k_param kk) (dim d - 1) (drop_feature f (pt d a)) (drop_feature f (pt d b)) = value_without pw k d f a b) as V1.
      { intros a b. rewrite HT, HP. unfold kval1, kval, value_without, drop_feature, without, remove_at. destruct (k_type k); reflexivity. }
      assert (forall a b, value_without pw k d f a b = value_without pw k d f b a) as VS.
      { intros a b. rewrite <- !V1. apply kval1_sym. congruence. }
      cbn [obind]. destruct (Nat.leb_spec j i) as [L|L].
      * rewrite (L1 j i) by lia. cbn [obind]. rewrite V1, VS. f_equal. ring.
      * rewrite (U1 i j) by lia. cbn [obind]. rewrite V1. f_equal. ring.
  - exists w, k'. split; [exact E|]. cbn [fst snd] in *. subst w. split; [rewrite map_length, seq_length; auto|]. repeat split; auto.
    intros f Hf. apply (nz_map_seq0 g). auto.
Qed.
Lemma c90_dual_ex : rect kex /\ k_type (kernel_make Gaussian 1) <> Custom /\ k_H (kernel_make Gaussian 1) = [] /\ (1 < dim kex)%nat.
Proof. split; [apply rect_kex|]. split; [discriminate|]. split; [reflexivity|cbn; lia]. Qed.

Lemma inner_without d f i j : rect d -> (f < dim d)%nat -> (i < size d)%nat -> (j < size d)%nat ->
  inner (dim d) (p_x (pt d i)) (p_x (pt d j)) = inner (dim d - 1) (p_x (without f (pt d i))) (p_x (without f (pt d j))) + nz (p_x (pt d i)) f * nz (p_x (pt d j)) f.
Proof.
  intros HR Hf Hi Hj. change (p_x (without f (pt d i))) with (remove_at f (p_x (pt d i))). change (p_x (without f (pt d j))) with (remove_at f (p_x (pt d j))).
  unfold inner. set (h := fun b => nz (p_x (pt d i)) b * nz (p_x (pt d j)) b).
  change (nz (p_x (pt d i)) f * nz (p_x (pt d j)) f) with (h f).
  rewrite (sumn_ext (dim d - 1) _ (fun a => h (if Nat.ltb a f then a else S a))).
  - rewrite <- (sumn_skip h f (dim d - 1)) by lia. replace (S (dim d - 1)) with (dim d) by lia.
    clearbody h. revert Hf. generalize (dim d). induction n as [|n IH]; intro L; [lia|]. cbn [sumn]. destruct (Nat.eqb_spec n f) as [->|N].
    + rewrite (sumn_ext f (fun b => if Nat.eqb b f then 0 else h b) h) by (intros b Hb; destruct (Nat.eqb_spec b f); [lia|auto]). ring.
    + rewrite IH by lia. ring.
  - intros a Ha. rewrite !nz_remove_at by (rewrite rect_pt; auto; lia). reflexivity.
Qed.

(** C90: with the inner product and one class only, getDualWeight gives the squares of the weights. *)
Lemma c90_dual_one_class : forall (pw : R -> R -> R) (k : kernel) (d : data R), rect d -> k_type k = InnerProduct ->
  k_H k = [] \/ shape (size d) (fun _ => size d) (k_H k) ->
  (forall p, In p (d_points d) -> p_y p = 1%Z) \/ (forall p, In p (d_points d) -> p_y p = (-1)%Z) ->
  exists w k', getDualWeight pw k d = Ok (w, k') /\ length w = dim d /\ forall f, (f < dim d)%nat -> nz w f = (weight_of d (alpha_of d) f) ^ 2.
Proof.
  intros pw k d HR HT HH HY. destruct (c90_dual pw k d HR ltac:(congruence) HH) as (w & k' & E & L & _ & _ & _ & HW).
  exists w, k'. split; auto. split; auto. intros f Hf. rewrite HW by auto. unfold weight_of. cbn [pow]. rewrite Rmult_1_r, <- sumn_scal_r.
  apply sumn_ext. intros i Hi. rewrite <- sumn_scal. apply sumn_ext. intros j Hj. unfold value_full, value_without. rewrite HT. cbn zeta.
  rewrite (inner_without d f i j HR Hf Hi Hj).
  assert (forall a, (a < size d)%nat -> In (pt d a) (d_points d)) as HIn by (intros; apply nth_In; auto).
  destruct HY as [HY|HY]; rewrite (HY (pt d i)), (HY (pt d j)) by auto; destruct (Nat.leb j i); ring.
Qed.
Definition wex1 : data R :=
  mkData [mkPoint [1; 2] 1%Z 1%Z 1; mkPoint [3; 1] 1%Z 2%Z 2] [1; 2]%Z [0; 1]%Z [] [1]%Z [2]%Z 2 2 false false false true.
Lemma c90_dual_one_class_ex : rect wex1 /\ (forall p, In p (d_points wex1) -> p_y p = 1%Z) /\ weight_of wex1 (alpha_of wex1) 0 = 7.
Proof.
  split; [intros p [<-|[<-|[]]]; reflexivity|]. split; [intros p [<-|[<-|[]]]; reflexivity|]. unfold weight_of, alpha_of, nz. cbn. ring.
Qed.

(** C90 refuted: with two classes a feature whose weight is 0 gets the value -4. *)
Definition wex2 : data R :=
  mkData [mkPoint [1; 1] 1%Z 1%Z 1; mkPoint [1; 2] (-1)%Z 2%Z 1] [1; 2]%Z [0; 1]%Z [] [1; -1]%Z [1; 1]%Z 2 2 false false false true.
Lemma c90_dual_refuted : forall pw : R -> R -> R, exists w k', getDualWeight pw (kernel_make InnerProduct 0) wex2 = Ok (w, k') /\ nz w 0 = -4 /\ weight_of wex2 (alpha_of wex2) 0 = 0.
Proof.
  intro pw. assert (rect wex2) as HR by (intros p [<-|[<-|[]]]; reflexivity).
  destruct (c90_dual pw (kernel_make InnerProduct 0) wex2 HR ltac:(discriminate) ltac:(left; reflexivity)) as (w & k' & E & _ & _ & _ & _ & HW).
  exists w, k'. split; auto. rewrite HW by (cbn; lia). split.
  - unfold alpha_of, value_full, value_without, inner, nz. cbn. ring.
  - unfold weight_of, alpha_of, nz. cbn. ring.
Qed.

(** ** The solution of SMO *)
Lemma put_alphas_length : forall a l, length (put_alphas a l) = length l.
Proof. induction a as [|v a IH]; intros [|p l]; cbn; auto. Qed.
Lemma put_alphas_nth : forall a l i, (i < length l)%nat -> length a = length l ->
  nth i (put_alphas a l) (mkPoint [] 0%Z 0%Z 0) = let p := nth i l (mkPoint [] 0%Z 0%Z 0) in mkPoint (p_x p) (p_y p) (p_id p) (nz a i).
Proof.
  induction a as [|v a IH]; intros [|p l] i Hi L; cbn [length] in *; try lia. destruct i as [|i]; cbn; auto. apply IH; lia.
Qed.
Lemma with_size d a : size (with_alphas d a) = size d.
Proof. apply put_alphas_length. Qed.
Lemma with_dim d a : dim (with_alphas d a) = dim d.
Proof. unfold dim. cbn [d_points with_alphas]. destruct a as [|v a], (d_points d); reflexivity. Qed.
Lemma with_pt d a i : (i < size d)%nat -> length a = size d -> pt (with_alphas d a) i = mkPoint (p_x (pt d i)) (p_y (pt d i)) (p_id (pt d i)) (nz a i).
Proof. intros Hi L. unfold pt. cbn [d_points with_alphas]. apply put_alphas_nth; auto. Qed.
Lemma with_rect d a : rect d -> length a = size d -> rect (with_alphas d a).
Proof.
  intros HR L p Hp. destruct (In_nth _ _ (mkPoint [] 0%Z 0%Z 0) Hp) as (i & Hi & <-). change (nth i (d_points (with_alphas d a)) (mkPoint [] 0%Z 0%Z 0)) with (pt (with_alphas d a) i).
  change (length (d_points (with_alphas d a))) with (size (with_alphas d a)) in Hi. rewrite with_size in Hi. rewrite with_pt by auto. rewrite with_dim. apply rect_pt; auto.
Qed.

Lemma smo_weights_ok pw k d : rect d -> k_type k <> Custom -> k_H k = [] ->
  exists w k', smo_weights pw k d = Ok (w, k') /\ length w = dim d /\ k_type k' = k_type k /\ k_param k' = k_param k.
Proof.
  intros HR NC HH. destruct (c90_dual pw k d HR NC (or_introl HH)) as (w & k' & E & L & _ & T & P & _).
  assert (exists w k', getDualWeight pw k d = Ok (w, k') /\ length w = dim d /\ k_type k' = k_type k /\ k_param k' = k_param k) as G by (exists w, k'; auto).
  assert (exists w k', (let* w := getWeight d in Ok (w, k)) = Ok (w, k') /\ length w = dim d /\ k_type k' = k_type k /\ k_param k' = k_param k) as G1.
  { destruct (c90_weight d HR) as (w0 & E0 & L0 & _). rewrite E0. exists w0, k. auto. }
  assert (exists w k', (let* w := getDualWeightProdInt d in Ok (w, k)) = Ok (w, k') /\ length w = dim d /\ k_type k' = k_type k /\ k_param k' = k_param k) as G2.
  { destruct (c90_squares d HR) as (w0 & E0 & L0 & _). rewrite E0. exists w0, k. auto. }
  unfold smo_weights. destruct (k_type k) eqn:T0; auto. destruct (Req_EM_T (k_param k) 1); auto.
Qed.

Lemma kval_features pw t par n p q p' q' : t <> Custom -> p_x p = p_x p' -> p_x q = p_x q' -> kval pw t par (fun _ _ _ => 0) n p q = kval pw t par (fun _ _ _ => 0) n p' q'.
Proof. intros N E1 E2. unfold kval. rewrite E1, E2. reflexivity. Qed.

Lemma start_kernel pw t par d : rect d -> t <> Custom ->
  exists k, compute pw (kernel_make t par) (with_alphas d (repeat 0 (size d))) None = Ok k /\ k_type k = t /\ k_param k = par /\ k_H k = [] /\
    kernel_matrix (size d) (k_K k) (fun i j => kval pw t par (fun _ _ _ => 0) (dim d) (pt d i) (pt d j)).
Proof.
  intros HR NC. set (a0 := repeat 0 (size d)). assert (length a0 = size d) as L0 by apply repeat_length.
  destruct (compute_ok pw (kernel_make t par) (with_alphas d a0) None (fun _ _ _ => 0)) as (k & E & T & P & _ & H & _ & [Sh M]);
    [reflexivity|apply with_rect; auto|intro; contradiction|]. cbn [k_type k_param k_H kernel_make] in *.
  exists k. split; [exact E|]. split; auto. split; auto. split; auto. rewrite with_size, with_dim in *.
  assert (forall i j, (i < size d)%nat -> (j < size d)%nat -> mget (k_K k) i j = Ok (kval pw t par (fun _ _ _ => 0) (dim d) (pt d i) (pt d j))) as G.
  { assert (forall i j, (i < size d)%nat -> (j < size d)%nat -> kval pw t par (fun _ _ _ => 0) (dim d) (pt (with_alphas d a0) i) (pt (with_alphas d a0) j) = kval pw t par (fun _ _ _ => 0) (dim d) (pt d i) (pt d j)) as V.
    { intros i j Hi Hj. apply kval_features; auto; rewrite with_pt by auto; reflexivity. }
    intros i j Hi Hj. destruct (le_lt_dec i j) as [L|L].
    - destruct (M i j ltac:(lia)) as [-> _]. rewrite V; auto.
    - destruct (M j i ltac:(lia)) as [_ ->]. rewrite V by auto. f_equal. apply kval_sym. intro; contradiction. }
  intros i j Hi Hj. split; [|apply kval_sym; intro; contradiction]. specialize (G i j Hi Hj). unfold mget in G. destruct (vget (k_K k) i) as [r| |] eqn:E1; cbn [obind] in G; try discriminate.
  exists r. split; apply vget_Ok; auto.
Qed.

(** C91: training, for every kernel but a custom one, ends and stores the dual variables (feasible), their number that is positive, a weight per feature,
    the inverse of the norm in feature space (infinite when that is 0) and predicts with the sign of the kernel expansion. *)
Lemma c91_solution : forall (pw : R -> R -> R) t par C TOL EPS rnd d max_epoch h,
  0 < C -> 0 < EPS -> binary d -> rect d -> heap_ok h -> t <> Custom ->
  exists s h', smo_fit pw t par C TOL EPS rnd d max_epoch h = Ok (Some (s, h')) /\
    let y i := IZR (p_y (pt d i)) in
    let q := sumn (size d) (fun i => sumn (size d) (fun j => nz (so_alpha s) i * y i * (nz (so_alpha s) j * y j) * kval pw t par (fun _ _ _ => 0) (dim d) (pt d i) (pt d j))) in
    (forall a, mem h' a = mem h a) /\ length (so_alpha s) = size d /\ dual_feasible C d (nz (so_alpha s)) /\ length (so_w s) = dim d /\
    so_svs s = length (filter (fun i => if Rlt_dec 0 (nz (so_alpha s) i) then true else false) (seq 0 (size d))) /\
    so_margin s = (if Rlt_dec 0 q then Some (1 / sqrt q) else None) /\
    size (so_data s) = size d /\ (forall i, (i < size d)%nat -> pt (so_data s) i = mkPoint (p_x (pt d i)) (p_y (pt d i)) (p_id (pt d i)) (nz (so_alpha s) i)) /\
    forall p, length (p_x p) = dim d -> dual_evaluate pw (so_kernel s) (so_data s) (so_alpha s) (so_bias s) p =
      Ok (if Rle_dec 0 (sumn (size d) (fun i => nz (so_alpha s) i * y i * kval pw t par (fun _ _ _ => 0) (dim d) p (pt d i)) + so_bias s) then 1%Z else (-1)%Z).
Proof.
  intros pw t par C TOL EPS rnd d max_epoch h HC HE HB HR HH NC. destruct (start_kernel pw t par d HR NC) as (k & E & T & P & H & HK).
  destruct (c44_train C TOL EPS rnd d _ _ max_epoch h HC HE HB HK HH) as (s & svs & b & ET & L & FE).
  destruct (c45_train C TOL EPS rnd d _ _ max_epoch h HC HE HB HK HH) as (s' & svs' & b' & ET' & ME & SV). rewrite ET in ET'. injection ET' as <- <- <-.
  set (d' := with_alphas d (sm_alpha s)). assert (rect d') as HR' by (apply with_rect; auto).
  destruct (smo_weights_ok pw k d' HR' ltac:(congruence) H) as (w & k' & EW & LW & TW & PW).
  set (q := sumn (size d) (fun i => sumn (size d) (fun j => nz (sm_alpha s) i * IZR (p_y (pt d i)) * (nz (sm_alpha s) j * IZR (p_y (pt d j))) * kval pw t par (fun _ _ _ => 0) (dim d) (pt d i) (pt d j)))).
  assert (featureSpaceNorm k d' = Ok (sqrto (Some q))) as EN.
  { rewrite (featureSpaceNorm_ok k d' (fun i j => kval pw t par (fun _ _ _ => 0) (dim d) (pt d i) (pt d j))).
    - do 3 f_equal. unfold dualsum, d'. rewrite with_size. apply sumn_ext. intros i Hi. apply sumn_ext. intros j Hj. rewrite !with_pt by auto. cbn [p_alpha p_y].
      rewrite (kval_sym pw t par _ (dim d) (pt d j)) by (intro; contradiction). reflexivity.
    - intros p Hp. destruct (In_nth _ _ (mkPoint [] 0%Z 0%Z 0) Hp) as (i & Hi & <-). change (nth i (d_points d') (mkPoint [] 0%Z 0%Z 0)) with (pt d' i).
      change (length (d_points d')) with (size d') in Hi. unfold d' in *. rewrite with_size in Hi. rewrite with_pt by auto. cbn [p_alpha]. destruct FE as [FE _]. apply FE. auto.
    - unfold d'. rewrite with_size. apply (kernel_matrix_get _ _ _ HK). }
  unfold smo_fit. rewrite E. cbn [obind]. rewrite ET. cbn [obind]. fold d'. rewrite EN. cbn [obind]. rewrite EW. cbn [obind fst snd].
  eexists _, _. split; [reflexivity|]. cbn [so_w so_bias so_margin so_alpha so_svs so_ok so_data so_kernel]. fold q.
  split; [exact ME|]. split; [exact L|]. split; [exact FE|]. split; [rewrite LW; apply with_dim|]. split; [exact SV|].
  split.
  { unfold sqrto. cbn. destruct (Rlt_dec 0 q) as [Q|Q].
    - destruct (Rle_dec 0 q); [|lra]. destruct (Req_EM_T (sqrt q) 0) as [Z|Z]; [|reflexivity]. apply sqrt_lt_R0 in Q. lra.
    - destruct (Rle_dec 0 q); [|reflexivity]. assert (q = 0) as -> by lra. rewrite sqrt_0. destruct (Req_EM_T 0 0); [reflexivity|lra]. }
  split; [apply with_size|]. split; [intros i Hi; apply with_pt; auto|].
  intros p Lp. rewrite dual_evaluate_ok; unfold d' in *; rewrite ?with_size, ?with_dim; auto; [|congruence]. unfold dual_value. rewrite with_size, TW, PW, T, P.
  rewrite (sumn_ext (size d) _ (fun i => nz (sm_alpha s) i * IZR (p_y (pt d i)) * kval pw t par (fun _ _ _ => 0) (dim d) p (pt d i))); [reflexivity|].
  intros i Hi. rewrite with_pt by auto. reflexivity.
Qed.
Lemma c91_solution_ex : binary smo_two /\ rect smo_two /\ heap_ok heap_empty /\ Gaussian <> Custom /\ size smo_two = 2%nat.
Proof.
  split; [apply smo_two_ok|]. split; [intros p [<-|[<-|[]]]; reflexivity|]. split; [apply heap_empty_ok|]. split; [discriminate|reflexivity].
Qed.

(** C91: with the inner product the stored weights and bias are the classifier: the weights are the combination of the examples, every prediction is the side
    of the hyperplane, and the margin is the inverse of the Euclidean norm of the weights (infinite when all weights are 0). *)
Lemma c91_linear : forall (pw : R -> R -> R) par C TOL EPS rnd d max_epoch h s h',
  0 < C -> 0 < EPS -> binary d -> rect d -> heap_ok h ->
  smo_fit pw InnerProduct par C TOL EPS rnd d max_epoch h = Ok (Some (s, h')) ->
  (forall f, (f < dim d)%nat -> nz (so_w s) f = weight_of d (nz (so_alpha s)) f) /\
  (forall p, length (p_x p) = dim d -> dual_evaluate pw (so_kernel s) (so_data s) (so_alpha s) (so_bias s) p =
     Ok (if Rle_dec 0 (inner (dim d) (so_w s) (p_x p) + so_bias s) then 1%Z else (-1)%Z)) /\
  so_margin s = (if Rlt_dec 0 (euclid (dim d) (so_w s)) then Some (1 / euclid (dim d) (so_w s)) else None).
Proof.
  intros pw par C TOL EPS rnd d max_epoch h s h' HC HE HB HR HH E.
  destruct (c91_solution pw InnerProduct par C TOL EPS rnd d max_epoch h HC HE HB HR HH ltac:(discriminate)) as (s1 & h1 & E1 & Q). rewrite E in E1. injection E1 as <- <-.
  cbn zeta in Q. destruct Q as (_ & L & _ & LW & _ & M & SD & PD & EV).
  assert (forall f, (f < dim d)%nat -> nz (so_w s) f = weight_of d (nz (so_alpha s)) f) as W.
  { unfold smo_fit in E. destruct (start_kernel pw InnerProduct par d HR ltac:(discriminate)) as (k & EK & T & P & H & HK). rewrite EK in E. cbn [obind] in E.
    destruct (smo_train _ _ _ _ _ _ _ _) as [[[[s0 svs] b]|]| |]; cbn [obind] in E; try discriminate.
    destruct (featureSpaceNorm _ _) as [nm| |]; cbn [obind] in E; try discriminate. unfold smo_weights in E. rewrite T in E.
    set (d' := with_alphas d (sm_alpha s0)) in *.
    destruct (getWeight d') as [w| |] eqn:EW; cbn [obind] in E; try discriminate. injection E as <- <-. cbn [so_w so_alpha so_data fst] in *.
    assert (rect d') as HR' by (apply with_rect; auto). destruct (c90_weight d' HR') as (w' & EW' & _ & HW). rewrite EW in EW'. injection EW' as <-.
    intros f Hf. rewrite HW by (unfold d'; rewrite with_dim; auto). unfold weight_of. rewrite SD. apply sumn_ext. intros i Hi. unfold alpha_of. rewrite PD by auto. reflexivity. }
  assert (forall x, inner (dim d) (so_w s) x = sumn (size d) (fun i => nz (so_alpha s) i * IZR (p_y (pt d i)) * inner (dim d) x (p_x (pt d i)))) as IW.
  { intro x. unfold inner at 1. rewrite (sumn_ext (dim d) _ (fun f => sumn (size d) (fun i => nz (so_alpha s) i * IZR (p_y (pt d i)) * nz (p_x (pt d i)) f * nz x f))).
    - rewrite sumn_swap. apply sumn_ext. intros i Hi. unfold inner. rewrite <- sumn_scal. apply sumn_ext. intros. ring.
    - intros f Hf. rewrite W by auto. unfold weight_of. rewrite <- sumn_scal_r. reflexivity. }
  split; [exact W|]. split.
  - intros p Lp. rewrite EV by auto. rewrite IW. reflexivity.
  - rewrite M. cbn [kval]. unfold euclid.
    assert (inner (dim d) (so_w s) (so_w s) = sumn (size d) (fun i => sumn (size d) (fun j => nz (so_alpha s) i * IZR (p_y (pt d i)) * (nz (so_alpha s) j * IZR (p_y (pt d j))) * inner (dim d) (p_x (pt d i)) (p_x (pt d j))))) as I2.
    { rewrite IW. apply sumn_ext. intros i Hi. rewrite IW, <- sumn_scal. apply sumn_ext. intros j Hj. ring. }
    rewrite <- I2. assert (0 <= inner (dim d) (so_w s) (so_w s)) as N by (unfold inner; apply sumn_nonneg; intros; apply Rle_0_sqr).
    destruct (Rlt_dec 0 (inner (dim d) (so_w s) (so_w s))) as [Y|Y]; destruct (Rlt_dec 0 (sqrt (inner (dim d) (so_w s) (so_w s)))) as [X|X]; auto.
    + exfalso. apply X, sqrt_lt_R0. auto.
    + exfalso. assert (inner (dim d) (so_w s) (so_w s) = 0) as Z by lra. rewrite Z, sqrt_0 in X. lra.
Qed.

(** C91: when linear training answers true on distinct points, every example with a dual variable below C lies on the right side of the hyperplane at a distance of
    at least (1 - TOL) times the reported margin, unless no pair with that example can make progress. *)
Lemma c91_margin : forall (pw : R -> R -> R) par C TOL EPS rnd d max_epoch h s h' m i,
  0 < C -> 0 < EPS -> binary d -> rect d -> heap_ok h ->
  (forall i j, (i < size d)%nat -> (j < size d)%nat -> i <> j -> exists f, (f < dim d)%nat /\ nz (p_x (pt d i)) f <> nz (p_x (pt d j)) f) ->
  smo_fit pw InnerProduct par C TOL EPS rnd d max_epoch h = Ok (Some (s, h')) -> so_ok s = true -> so_margin s = Some m ->
  (i < size d)%nat -> nz (so_alpha s) i < C ->
  (1 - TOL) * m <= IZR (p_y (pt d i)) * (inner (dim d) (so_w s) (p_x (pt d i)) + so_bias s) / euclid (dim d) (so_w s) \/
  forall j, (j < size d)%nat -> j <> i -> no_progress C EPS d (fun i j => inner (dim d) (p_x (pt d i)) (p_x (pt d j))) (nz (so_alpha s)) i j.
Proof.
  intros pw par C TOL EPS rnd d max_epoch h s h' m i HC HE HB HR HH HD E OK ME Hi Ai.
  destruct (c91_linear pw par C TOL EPS rnd d max_epoch h s h' HC HE HB HR HH E) as (W & _ & M). rewrite ME in M.
  destruct (Rlt_dec 0 (euclid (dim d) (so_w s))) as [P|P]; [|discriminate]. injection M as M.
  unfold smo_fit in E. destruct (start_kernel pw InnerProduct par d HR ltac:(discriminate)) as (k & EK & T & PK & H & HK). rewrite EK in E. cbn [obind] in E.
  destruct (smo_train C TOL EPS rnd d (k_K k) max_epoch h) as [[[[s0 svs] b]|]| |] eqn:ET; cbn [obind] in E; try discriminate.
  destruct (featureSpaceNorm _ _) as [nm| |]; cbn [obind] in E; try discriminate.
  destruct (smo_weights _ _ _) as [wk| |]; cbn [obind] in E; try discriminate. injection E as <- <-. cbn [so_w so_alpha so_ok so_bias] in *. subst b.
  cbn [kval] in HK.
  assert (dist_pos (size d) (fun i j => inner (dim d) (p_x (pt d i)) (p_x (pt d j)))) as DP.
  { intros a c Ha Hc N. rewrite <- dist2_expand. destruct (HD a c Ha Hc N) as (f & Hf & NE). unfold dist2.
    assert (forall n, (f < n)%nat -> 0 < sumn n (fun i => (nz (p_x (pt d a)) i - nz (p_x (pt d c)) i) * (nz (p_x (pt d a)) i - nz (p_x (pt d c)) i))) as G; [|apply G; auto].
    induction n as [|n IH]; intro Ln; [lia|]. cbn [sumn]. destruct (Nat.eq_dec n f) as [->|NF].
    - assert (0 <= sumn f (fun i => (nz (p_x (pt d a)) i - nz (p_x (pt d c)) i) * (nz (p_x (pt d a)) i - nz (p_x (pt d c)) i))) by (apply sumn_nonneg; intros; apply Rle_0_sqr).
      assert (0 < (nz (p_x (pt d a)) f - nz (p_x (pt d c)) f) * (nz (p_x (pt d a)) f - nz (p_x (pt d c)) f)) by (apply Rsqr_pos_lt; lra). lra.
    - assert (0 <= (nz (p_x (pt d a)) n - nz (p_x (pt d c)) n) * (nz (p_x (pt d a)) n - nz (p_x (pt d c)) n)) by apply Rle_0_sqr. specialize (IH ltac:(lia)). lra. }
  destruct (c75_true C TOL EPS rnd d (k_K k) _ max_epoch h s0 svs HC HE HB HK DP HH ET i Hi) as [[O _]|O]; [left|right; exact O].
  specialize (O Ai). subst m. unfold Rdiv. rewrite Rmult_1_l.
  apply Rmult_le_compat_r; [left; apply Rinv_0_lt_compat; auto|].
  replace (inner (dim d) (fst wk) (p_x (pt d i))) with (sumn (size d) (fun r => nz (sm_alpha s0) r * label_at d r * inner (dim d) (p_x (pt d r)) (p_x (pt d i)))); [exact O|].
  unfold inner at 2. rewrite (sumn_ext (dim d) _ (fun f => sumn (size d) (fun r => nz (sm_alpha s0) r * IZR (p_y (pt d r)) * nz (p_x (pt d r)) f * nz (p_x (pt d i)) f))).
  - rewrite sumn_swap. apply sumn_ext. intros r Hr. unfold inner, label_at. rewrite <- sumn_scal. apply sumn_ext. intros. ring.
  - intros f Hf. rewrite W by auto. unfold weight_of. rewrite <- sumn_scal_r. reflexivity.
Qed.

(** C91: with the polynomial kernel of degree 1, which is the same function as the inner product, the stored weights are the squares. *)
Lemma c91_degree_one : forall (pw : R -> R -> R) C TOL EPS rnd d max_epoch h s h',
  0 < C -> 0 < EPS -> binary d -> rect d -> heap_ok h ->
  smo_fit pw Polynomial 1 C TOL EPS rnd d max_epoch h = Ok (Some (s, h')) ->
  forall f, (f < dim d)%nat -> nz (so_w s) f = (weight_of d (nz (so_alpha s)) f) ^ 2.
Proof.
  intros pw C TOL EPS rnd d max_epoch h s h' HC HE HB HR HH E.
  destruct (c91_solution pw Polynomial 1 C TOL EPS rnd d max_epoch h HC HE HB HR HH ltac:(discriminate)) as (s1 & h1 & E1 & Q). rewrite E in E1. injection E1 as <- <-.
  cbn zeta in Q. destruct Q as (_ & L & _ & LW & _ & M & SD & PD & EV).
  unfold smo_fit in E. destruct (start_kernel pw Polynomial 1 d HR ltac:(discriminate)) as (k & EK & T & P & H & HK). rewrite EK in E. cbn [obind] in E.
  destruct (smo_train _ _ _ _ _ _ _ _) as [[[[s0 svs] b]|]| |]; cbn [obind] in E; try discriminate.
  destruct (featureSpaceNorm _ _) as [nm| |]; cbn [obind] in E; try discriminate. unfold smo_weights in E. rewrite T, P in E. destruct (Req_EM_T 1 1) as [_|N]; [|lra].
  set (d' := with_alphas d (sm_alpha s0)) in *.
  destruct (getDualWeightProdInt d') as [w| |] eqn:EW; cbn [obind] in E; try discriminate. injection E as <- <-. cbn [so_w so_alpha so_data fst] in *.
  assert (rect d') as HR' by (apply with_rect; auto). destruct (c90_squares d' HR') as (w' & EW' & _ & HW). rewrite EW in EW'. injection EW' as <-.
  intros f Hf. rewrite HW by (unfold d'; rewrite with_dim; auto). f_equal. unfold weight_of. rewrite SD. apply sumn_ext. intros i Hi. unfold alpha_of. rewrite PD by auto. reflexivity.
Qed.

(** C91 refuted for custom kernels: training on any dataset with a point throws, because it replaces the kernel object by a new one without a function. *)
Lemma c91_custom_refuted : forall (pw : R -> R -> R) par C TOL EPS rnd d max_epoch h, d_points d <> [] -> smo_fit pw Custom par C TOL EPS rnd d max_epoch h = Abort.
Proof.
  intros pw par C TOL EPS rnd d max_epoch h N. unfold smo_fit, compute. cbn [k_computed kernel_make]. rewrite with_size.
  destruct d as [pts fn ix cn cl ds sz dm ie nm cd cs]. cbn [d_points] in N. destruct pts as [|p r]; [contradiction|]. cbn [size d_points length]. unfold upper. cbn [seq flat_map].
  rewrite Nat.sub_0_r. cbn [seq map app ofold fst snd]. cbn [with_alphas d_points put_alphas repeat vget nth_error obind kfun k_type k_func kernel_make]. reflexivity.
Qed.
Lemma c91_custom_refuted_ex : d_points smo_two <> [].
Proof. discriminate. Qed.
Lemma smo_two_rect : rect smo_two.
Proof. intros p [<-|[<-|[]]]; reflexivity. Qed.
(** A concrete training. *)
Lemma two_fit pw t par : t = InnerProduct \/ (t = Polynomial /\ par = 1) ->
  exists s h', smo_fit pw t par 1 (/ 1000) (/ 1000) 0 smo_two 100 heap_empty = Ok (Some (s, h')) /\ so_ok s = true /\ so_margin s = Some 2 /\ nz (so_alpha s) 0 = / 8.
Proof.
  intro HT. assert (t <> Custom) as NC by (destruct HT as [->|[-> _]]; discriminate).
  destruct (c75_true_ex) as (s0 & svs & ET & _ & A0 & _). destruct smo_two_ok as (HB & HK0 & _).
  destruct (c91_solution pw t par 1 (/ 1000) (/ 1000) 0 smo_two 100 heap_empty ltac:(lra) ltac:(lra) HB smo_two_rect heap_empty_ok NC) as (s & h' & E & Q).
  cbn zeta in Q. destruct Q as (_ & L & FE & _ & _ & M & _).
  assert (so_ok s = true /\ nz (so_alpha s) 0 = / 8) as [OK A].
  { unfold smo_fit in E. destruct (start_kernel pw t par smo_two smo_two_rect NC) as (k & EK & T & P & _ & HK). rewrite EK in E. cbn [obind] in E.
    assert (k_K k = [[1; -3]; [-3; 9]]) as KE.
    { destruct (compute_ok pw (kernel_make t par) (with_alphas smo_two (repeat 0 (size smo_two))) None (fun _ _ _ => 0)) as (k2 & E2 & _ & _ & _ & _ & _ & [Sh _]);
        [reflexivity|apply with_rect; [apply smo_two_rect|reflexivity]|intro; contradiction|]. rewrite EK in E2. injection E2 as <-.
      rewrite with_size in Sh. change (size smo_two) with 2%nat in *. destruct Sh as [Ln Sh].
      destruct (kernel_matrix_get _ _ _ HK) as [G _]. destruct (k_K k) as [|r0 [|r1 [|]]]; cbn [length] in Ln; try lia.
      pose proof (Sh 0%nat r0 eq_refl) as L0. pose proof (Sh 1%nat r1 eq_refl) as L1. cbv beta in L0, L1.
      destruct r0 as [|a0 [|a1 [|]]]; cbn [length] in L0; try lia. destruct r1 as [|b0 [|b1 [|]]]; cbn [length] in L1; try lia.
      assert (forall i j, kval pw t par (fun _ _ _ => 0) (dim smo_two) (pt smo_two i) (pt smo_two j) = inner 1 (p_x (pt smo_two i)) (p_x (pt smo_two j))) as V.
      { intros i j. destruct HT as [->|[-> ->]]; [reflexivity|]. cbn [kval]. destruct (Rlt_dec 1 1); [lra|reflexivity]. }
      pose proof (G 0 0 ltac:(lia) ltac:(lia))%nat as X00. pose proof (G 0 1 ltac:(lia) ltac:(lia))%nat as X01. pose proof (G 1 0 ltac:(lia) ltac:(lia))%nat as X10. pose proof (G 1 1 ltac:(lia) ltac:(lia))%nat as X11.
      rewrite V in *. cbn in X00, X01, X10, X11. unfold inner, nz in *. cbn in X00, X01, X10, X11.
      injection X00 as ->. injection X01 as ->. injection X10 as ->. injection X11 as ->. repeat f_equal; ring. }
    rewrite KE, ET in E. cbn [obind] in E.
    destruct (featureSpaceNorm _ _) as [nm| |]; cbn [obind] in E; try discriminate. destruct (smo_weights _ _ _) as [wk| |]; cbn [obind] in E; try discriminate.
    injection E as <- <-. cbn [so_ok so_alpha]. auto. }
  exists s, h'. split; [exact E|]. split; [exact OK|]. split; [|exact A].
  assert (nz (so_alpha s) 1 = / 8) as A1. { destruct FE as [_ FE]. change (size smo_two) with 2%nat in FE. cbn in FE. rewrite A in FE. cbn in FE. unfold label_at in FE. cbn in FE. lra. }
  rewrite M. change (size smo_two) with 2%nat. cbn [sumn].
  assert (forall i j, kval pw t par (fun _ _ _ => 0) (dim smo_two) (pt smo_two i) (pt smo_two j) = inner 1 (p_x (pt smo_two i)) (p_x (pt smo_two j))) as V.
  { intros i j. destruct HT as [->|[-> ->]]; [reflexivity|]. cbn [kval]. destruct (Rlt_dec 1 1); [lra|reflexivity]. }
  rewrite !V, A, A1. cbn. unfold inner, nz. cbn.
  match goal with |- context [Rlt_dec 0 ?x] => replace x with (/ 2 * / 2) by lra end. destruct (Rlt_dec 0 (/ 2 * / 2)) as [_|N]; [|lra].
  rewrite sqrt_square by lra. f_equal. lra.
Qed.
Lemma c91_linear_ex : exists s h', smo_fit Rpower InnerProduct 0 1 (/ 1000) (/ 1000) 0 smo_two 100 heap_empty = Ok (Some (s, h')) /\ so_ok s = true /\ so_margin s = Some 2 /\ nz (so_alpha s) 0 = / 8.
Proof. apply two_fit. auto. Qed.
Lemma c91_margin_ex : (exists s h', smo_fit Rpower InnerProduct 0 1 (/ 1000) (/ 1000) 0 smo_two 100 heap_empty = Ok (Some (s, h')) /\ so_ok s = true /\ so_margin s = Some 2 /\ nz (so_alpha s) 0 = / 8) /\
  (forall i j, (i < size smo_two)%nat -> (j < size smo_two)%nat -> i <> j -> exists f, (f < dim smo_two)%nat /\ nz (p_x (pt smo_two i)) f <> nz (p_x (pt smo_two j)) f).
Proof.
  split; [exact c91_linear_ex|]. change (size smo_two) with 2%nat. intros i j Hi Hj N. exists 0%nat. split; [cbn; lia|].
  destruct i as [|[|i]], j as [|[|j]]; try lia; cbn; lra.
Qed.
Lemma c91_degree_one_ex : exists s h', smo_fit Rpower Polynomial 1 1 (/ 1000) (/ 1000) 0 smo_two 100 heap_empty = Ok (Some (s, h')) /\ so_ok s = true /\ so_margin s = Some 2 /\ nz (so_alpha s) 0 = / 8.
Proof. apply two_fit. auto. Qed.
(** Refuted: the weights of degree one are those of the classifier. Here the weight is 1/2 and 1/4 is stored. *)
Lemma c91_degree_one_refuted : forall pw : R -> R -> R, exists s h', smo_fit pw Polynomial 1 1 (/ 1000) (/ 1000) 0 smo_two 100 heap_empty = Ok (Some (s, h')) /\
  nz (so_w s) 0 = / 4 /\ weight_of smo_two (nz (so_alpha s)) 0 = / 2.
Proof.
  intro pw. destruct (two_fit pw Polynomial 1) as (s & h' & E & _ & _ & A); [auto|]. exists s, h'. split; [exact E|]. destruct smo_two_ok as (HB & HK0 & _).
  destruct (c91_solution pw Polynomial 1 1 (/ 1000) (/ 1000) 0 smo_two 100 heap_empty ltac:(lra) ltac:(lra) HB smo_two_rect heap_empty_ok ltac:(discriminate)) as (s1 & h1 & E1 & Q).
  rewrite E in E1. injection E1 as <- <-. cbn zeta in Q. destruct Q as (_ & _ & FE & _).
  assert (nz (so_alpha s) 1 = / 8) as A1. { destruct FE as [_ FE]. change (size smo_two) with 2%nat in FE. cbn in FE. rewrite A in FE. cbn in FE. unfold label_at in FE. cbn in FE. lra. }
  assert (weight_of smo_two (nz (so_alpha s)) 0 = / 2) as W.
  { unfold weight_of. change (size smo_two) with 2%nat. cbn [sumn]. rewrite A, A1. unfold nz. cbn. lra. }
  split; [|exact W]. rewrite (c91_degree_one pw 1 (/ 1000) (/ 1000) 0 smo_two 100 heap_empty s h'); auto; try lra; try (cbn; lia); try apply smo_two_rect; try apply heap_empty_ok; rewrite W; lra.
Qed.
