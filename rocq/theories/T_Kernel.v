(** Property lemmas for the kernel model: C29, C30, C31, C71. *)
From Coq Require Import ZArith Bool List Lia Reals Lra Psatz.
From Verif Require Import Base ListLib M_Data M_Point L_Vec Loop M_Kernel S_Kernel L_Kernel.
Import ListNotations.
Local Open Scope R_scope.

(** Two points in the plane with labels 1 and -1, both with dual variable 1. *)
Definition kex : data R :=
  mkData [mkPoint [1; 2] 1%Z 1%Z 1; mkPoint [3; 1] (-1)%Z 2%Z 1] [1; 2]%Z [0; 1]%Z [] [1; -1]%Z [1; 1]%Z 2 2 false false false true.
Definition kex1 : data R := mkData [mkPoint [1; 2] 1%Z 1%Z 1] [1; 2]%Z [0]%Z [] [1]%Z [1]%Z 1 2 false false false true.
Lemma rect_kex : rect kex.
Proof. intros p [<-|[<-|[]]]; reflexivity. Qed.
Lemma rect_kex1 : rect kex1.
Proof. intros p [<-|[]]; reflexivity. Qed.

(** C29: on a kernel whose matrix is not yet computed, compute succeeds for every dataset with points of
    one dimension, and the matrix is the table of kernel values of the points; hence symmetric. *)
Lemma c29_compute : forall (pw : R -> R -> R) (k : kernel) (d : data R) (f : option custom) (g : custom),
  k_computed k = false -> rect d ->
  (k_type k = Custom -> f = Some g /\ forall p q r, g p q r = g q p r) ->
  exists k', compute pw k d f = Ok k' /\
    k_K k' = table (size d) (fun i j => kval pw (k_type k) (k_param k) g (dim d) (pt d i) (pt d j)) /\
    symmetric (size d) (k_K k').
Proof.
  intros pw k d f g HC HR HF. destruct (compute_ok pw k d f g HC HR (fun T => proj1 (HF T))) as (k' & E & _ & _ & _ & _ & _ & M).
  exists k'. split; auto. split; [|apply (mirrors_symmetric _ _ _ M)]. apply mirrors_table; auto. intros i j _ _. apply kval_sym. intro T. apply HF. auto.
Qed.
Lemma c29_compute_ex : k_computed (kernel_make Gaussian 2) = false /\ rect kex /\ size kex = 2%nat.
Proof. split; [reflexivity|]. split; [apply rect_kex|reflexivity]. Qed.

(** C29: the matrix is positive semidefinite for the inner product, for the polynomial kernel with a natural
    exponent above 1 (std::pow being the power function there) or an exponent of at most 1, and for the Gaussian kernel with
    a non-negative parameter. *)
Lemma c29_psd : forall (pw : R -> R -> R) (k k' : kernel) (d : data R) (f : option custom),
  k_computed k = false -> rect d ->
  (k_type k = InnerProduct \/
   (k_type k = Polynomial /\ (k_param k <= 1 \/ exists n : nat, k_param k = INR n /\ forall x, pw x (INR n) = x ^ n)) \/
   (k_type k = Gaussian /\ 0 <= k_param k)) ->
  compute pw k d f = Ok k' ->
  exists K, (forall i j, (i < size d)%nat -> (j < size d)%nat -> mget (k_K k') i j = Ok (K i j)) /\
    forall c : nat -> R, 0 <= sumn (size d) (fun i => sumn (size d) (fun j => c i * c j * K i j)).
Proof.
  intros pw k k' d f HC HR HT E.
  destruct (c29_compute pw k d f (fun _ _ _ => 0) HC HR) as (k2 & E2 & HK & _).
  { intro T. rewrite T in HT. destruct HT as [T'|[[T' _]|[T' _]]]; discriminate. }
  rewrite E in E2. injection E2 as <-. rewrite HK. eexists. split; [intros i j Hi Hj; apply mget_table; auto|].
  change (psd (size d) (fun i j => kval pw (k_type k) (k_param k) (fun _ _ _ => 0) (dim d) (pt d i) (pt d j))).
  destruct HT as [->|[[-> HP]|[-> HP]]]; unfold kval.
  - apply (psd_ext _ (fun i j => inner (dim d) (p_x (pt d i)) (p_x (pt d j)) ^ 1)); [intros; ring|]. apply (psd_inner_pow (size d) (dim d) (fun i => p_x (pt d i))).
  - destruct HP as [L|(n & -> & P)].
    + destruct (Rlt_dec 1 (k_param k)); [lra|]. apply (psd_ext _ (fun i j => inner (dim d) (p_x (pt d i)) (p_x (pt d j)) ^ 1)); [intros; ring|]. apply (psd_inner_pow (size d) (dim d) (fun i => p_x (pt d i))).
    + destruct (Rlt_dec 1 (INR n)).
      * apply (psd_ext _ (fun i j => inner (dim d) (p_x (pt d i)) (p_x (pt d j)) ^ n)); [intros; rewrite P; auto|]. apply (psd_inner_pow (size d) (dim d) (fun i => p_x (pt d i))).
      * apply (psd_ext _ (fun i j => inner (dim d) (p_x (pt d i)) (p_x (pt d j)) ^ 1)); [intros; ring|]. apply (psd_inner_pow (size d) (dim d) (fun i => p_x (pt d i))).
  - apply (psd_gauss (size d) (dim d) (fun i => p_x (pt d i))). auto.
Qed.
Lemma c29_psd_ex : exists k', compute Rpower (kernel_make Gaussian 2) kex None = Ok k' /\ rect kex /\ 0 <= k_param (kernel_make Gaussian 2).
Proof.
  destruct (c29_compute Rpower (kernel_make Gaussian 2) kex None (fun _ _ _ => 0)) as (k' & E & _); [reflexivity|apply rect_kex|discriminate|].
  exists k'. split; [exact E|]. split; [apply rect_kex|]. cbn. lra.
Qed.

(** ** C30 *)
(** The dataset the matrix of a kernel object describes after a history: the first one computed since the
    last change of type or parameter, or recompute(). *)
Fixpoint current (ops : list kop) (now : option (data R)) : option (data R) :=
  match ops with
  | [] => now
  | KCompute d _ :: r => current r (match now with None => Some d | s => s end)
  | KSetType _ :: r | KSetParam _ :: r | KRecompute :: r => current r None
  | _ :: r => current r now
  end.
(** Datasets computed have points of one dimension; the type is never Custom. *)
Definition plain (o : kop) : Prop :=
  match o with KCompute d _ => rect d | KSetType t => t <> Custom | _ => True end.

Definition describes (pw : R -> R -> R) (k : kernel) (now : option (data R)) : Prop :=
  match now with
  | None => k_computed k = false
  | Some d => k_computed k = true /\
      k_K k = table (size d) (fun i j => kval pw (k_type k) (k_param k) (fun _ _ _ => 0) (dim d) (pt d i) (pt d j))
  end.

Lemma krun_describes pw : forall ops k now k', Forall plain ops -> k_type k <> Custom -> describes pw k now -> krun pw ops k = Ok k' ->
  describes pw k' (current ops now) /\ k_type k' <> Custom.
Proof.
  unfold krun. induction ops as [|o r IH]; intros k now k' HP HT HD E; cbn [ofold] in E.
  - injection E as <-. auto.
  - inversion HP as [|? ? Ho Hr]; subst. destruct (kapply pw k o) as [k1| |] eqn:E1; try discriminate. cbn [obind] in E.
    destruct o as [d f|t|p| |d|d j]; cbn [kapply] in E1; cbn [current].
    + destruct now as [s|]; cbn in HD.
      * destruct HD as [C HK]. unfold compute in E1. rewrite C in E1. injection E1 as <-. apply (IH k _ _); auto. split; auto.
      * destruct (c29_compute pw k d f (fun _ _ _ => 0) HD Ho) as (k2 & E2 & HK & _); [intro; tauto|].
        destruct (compute_ok pw k d f (fun _ _ _ => 0) HD Ho) as (k3 & E3 & T3 & P3 & C3 & _); [intro; tauto|].
        rewrite E1 in E2, E3. injection E2 as <-. injection E3 as <-. apply (IH k1); auto; [congruence|]. split; auto. rewrite T3, P3. auto.
    + injection E1 as <-. apply (IH (setType t k)); auto. reflexivity.
    + injection E1 as <-. apply (IH (setParam p k)); auto. reflexivity.
    + injection E1 as <-. apply (IH (recompute k)); auto. reflexivity.
    + unfold generateH in E1. destruct (ofold _ _ _); try discriminate. injection E1 as <-. eapply IH; [auto| |  |exact E]; auto.
    + unfold generateHwd in E1. destruct (ofold _ _ _); try discriminate. injection E1 as <-. eapply IH; [auto| |  |exact E]; auto.
Qed.

(** C30: after any history of calls on one kernel object ending with compute(data), the matrix is the
    table, for the current type and parameter, of the first dataset computed since the last
    setType/setParam/recompute. That need not be [data]: see c30_stale_refuted. *)
Lemma c30_history : forall (pw : R -> R -> R) (t : ktype) (par : R) (ops : list kop) (k : kernel) (d : data R) (f : option custom),
  t <> Custom -> Forall plain (ops ++ [KCompute d f]) ->
  krun pw (ops ++ [KCompute d f]) (kernel_make t par) = Ok k ->
  exists s, current (ops ++ [KCompute d f]) None = Some s /\
    k_K k = table (size s) (fun i j => kval pw (k_type k) (k_param k) (fun _ _ _ => 0) (dim s) (pt s i) (pt s j)).
Proof.
  intros pw t par ops k d f HT HP E. destruct (krun_describes pw _ (kernel_make t par) None _ HP HT eq_refl E) as [HD _].
  assert (forall ops now, current (ops ++ [KCompute d f]) now <> None) as NN.
  { clear. induction ops as [|o r IH]; intros now; cbn; [destruct now; discriminate|]. destruct o; auto. }
  destruct (current (ops ++ [KCompute d f]) None) as [s|] eqn:C; [|exfalso; apply (NN _ _ C)]. exists s. split; auto. apply HD.
Qed.
Lemma c30_history_ex : exists k, krun Rpower ([KCompute kex1 None; KSetParam 2] ++ [KCompute kex None]) (kernel_make Gaussian 1) = Ok k /\
  Forall plain ([KCompute kex1 None; KSetParam 2] ++ [KCompute kex None]) /\
  current ([KCompute kex1 None; KSetParam 2] ++ [KCompute kex None]) None = Some kex.
Proof.
  destruct (compute_ok Rpower (kernel_make Gaussian 1) kex1 None (fun _ _ _ => 0)) as (k1 & E1 & T1 & _); [reflexivity|apply rect_kex1|discriminate|].
  destruct (compute_ok Rpower (setParam 2 k1) kex None (fun _ _ _ => 0)) as (k2 & E2 & _); [reflexivity|apply rect_kex|cbn; rewrite T1; discriminate|].
  exists k2. split; [|split; [repeat constructor; [apply rect_kex1|apply rect_kex]|reflexivity]].
  unfold krun. cbn [app ofold kapply]. rewrite E1. cbn [obind]. rewrite E2. reflexivity.
Qed.

(** C30: right after setType, setParam or recompute (and on a new object), compute(data) describes [data]. *)
Lemma c30_after_reset : forall (pw : R -> R -> R) (t : ktype) (par : R) (ops : list kop) (o : kop) (k : kernel) (d : data R) (f : option custom),
  t <> Custom -> Forall plain (ops ++ [o; KCompute d f]) -> (o = KRecompute \/ (exists t, o = KSetType t) \/ (exists p, o = KSetParam p)) ->
  krun pw (ops ++ [o; KCompute d f]) (kernel_make t par) = Ok k ->
  k_K k = table (size d) (fun i j => kval pw (k_type k) (k_param k) (fun _ _ _ => 0) (dim d) (pt d i) (pt d j)).
Proof.
  intros pw t par ops o k d f HT HP HO E. destruct (krun_describes pw _ (kernel_make t par) None _ HP HT eq_refl E) as [HD _].
  assert (forall now, current (ops ++ [o; KCompute d f]) now = Some d) as C.
  { clear - HO. induction ops as [|a r IH]; intro now; cbn.
    - destruct HO as [->|[[t ->]|[p ->]]]; reflexivity.
    - destruct a; auto. }
  rewrite C in HD. apply HD.
Qed.
Lemma c30_after_reset_ex : exists k, krun Rpower ([KCompute kex1 None] ++ [KRecompute; KCompute kex None]) (kernel_make Gaussian 1) = Ok k /\
  Forall plain ([KCompute kex1 None] ++ [KRecompute; KCompute kex None]).
Proof.
  destruct (compute_ok Rpower (kernel_make Gaussian 1) kex1 None (fun _ _ _ => 0)) as (k1 & E1 & T1 & _); [reflexivity|apply rect_kex1|discriminate|].
  destruct (compute_ok Rpower (recompute k1) kex None (fun _ _ _ => 0)) as (k2 & E2 & _); [reflexivity|apply rect_kex|cbn; rewrite T1; discriminate|].
  exists k2. split; [|repeat constructor; [apply rect_kex1|apply rect_kex]].
  unfold krun. cbn [app ofold kapply]. rewrite E1. cbn [obind]. rewrite E2. reflexivity.
Qed.

(** C30 refuted: computing for a second dataset with the same kernel object keeps the matrix of the first. *)
Lemma c30_stale_refuted : forall pw : R -> R -> R, exists k,
  krun pw [KCompute kex1 None; KCompute kex None] (kernel_make InnerProduct 0) = Ok k /\ k_K k = [[5]] /\ size kex = 2%nat.
Proof.
  intro pw. destruct (compute_ok pw (kernel_make InnerProduct 0) kex1 None (fun _ _ _ => 0)) as (k1 & E1 & T1 & P1 & C1 & _ & _ & M); [reflexivity|apply rect_kex1|discriminate|].
  exists k1. split; [|split; [|reflexivity]].
  - unfold krun. cbn [ofold kapply]. rewrite E1. cbn [obind]. unfold compute. rewrite C1. reflexivity.
  - apply mirrors_table in M; [|intros; apply kval_sym; discriminate]. rewrite M. cbn. do 2 f_equal. unfold inner, nz. cbn. ring.
Qed.

(** ** C31 *)
(** C31: generateMatrixH, on a kernel object that has not yet built an H matrix or whose last one was for a dataset of
    the same size, gives the table of y_i y_j K(i,j). For other sizes see c31_resize_refuted. *)
Lemma c31_H : forall (pw : R -> R -> R) (k : kernel) (d : data R),
  rect d -> k_type k <> Custom -> k_H k = [] \/ shape (size d) (fun _ => size d) (k_H k) ->
  exists k', generateH pw k d = Ok k' /\ symmetric (size d) (k_H k') /\
    k_H k' = table (size d) (fun i j => IZR (p_y (pt d i)) * IZR (p_y (pt d j)) * kval pw (k_type k) (k_param k) (fun _ _ _ => 0) (dim d) (pt d i) (pt d j)).
Proof.
  intros pw k d HR NC HH. destruct (generateH_ok pw k d (fun _ _ _ => 0) HR (fun T => False_ind _ (NC T)) HH) as (k' & E & _ & _ & _ & _ & M).
  exists k'. split; auto. split; [apply (mirrors_symmetric _ _ _ M)|]. apply mirrors_table in M.
  - rewrite M. apply table_eq. intros. ring.
  - intros i j _ _. rewrite (kval_sym pw (k_type k) (k_param k) _ _ (pt d i) (pt d j)) by tauto. ring.
Qed.
Lemma c31_H_ex : rect kex /\ k_type (kernel_make Gaussian 1) <> Custom /\ k_H (kernel_make Gaussian 1) = [] /\ size kex = 2%nat.
Proof. split; [apply rect_kex|]. split; [discriminate|]. split; reflexivity. Qed.

(** C31 refuted: after an H matrix for one point, building one for two points writes outside the first row. *)
Lemma c31_resize_refuted : forall pw : R -> R -> R, exists k1,
  generateH pw (kernel_make InnerProduct 0) kex1 = Ok k1 /\ generateH pw k1 kex = UB.
Proof.
  intro pw. eexists. split; [vm_compute; reflexivity|]. vm_compute. reflexivity.
Qed.

(** C31: generateMatrixHwithoutDim drops feature [j] from every point; the lower triangle and the diagonal are
    y_a y_b K(a,b), but the upper triangle is K(a,b) without the labels. For the polynomial kernel with exponent above 1 the
    base is increased by one. *)
Lemma c31_without : forall (pw : R -> R -> R) (k : kernel) (d : data R) (j : nat),
  rect d -> k_type k <> Custom -> (j < dim d)%nat ->
  let v a b := kval1 pw (k_type k) (k_param k) (dim d - 1) (drop_feature j (pt d a)) (drop_feature j (pt d b)) in
  exists k', generateHwd pw k d (Z.of_nat j) = Ok k' /\
    (forall a b, (a <= b < size d)%nat -> mget (k_Hwd k') b a = Ok (v a b * IZR (p_y (pt d a)) * IZR (p_y (pt d b)))) /\
    (forall a b, (a < b < size d)%nat -> mget (k_Hwd k') a b = Ok (v a b)).
Proof.
  intros pw k d j HR NC Hj v. destruct (generateHwd_ok pw k d j HR NC Hj) as (k' & E & _ & _ & _ & A & B). exists k'. auto.
Qed.
Lemma c31_without_ex : rect kex /\ k_type (kernel_make Gaussian 1) <> Custom /\ (1 < dim kex)%nat.
Proof. split; [apply rect_kex|]. split; [discriminate|]. cbn. lia. Qed.

(** C31 refuted: the matrix without a dimension is not symmetric for two points of different classes. *)
Lemma c31_without_refuted : forall pw : R -> R -> R, exists k, generateHwd pw (kernel_make InnerProduct 0) kex 0 = Ok k /\
  mget (k_Hwd k) 0 1 = Ok 2 /\ mget (k_Hwd k) 1 0 = Ok (-2).
Proof.
  intro pw. destruct (generateHwd_ok pw (kernel_make InnerProduct 0) kex 0) as (k & E & _ & _ & _ & A & B); [apply rect_kex|discriminate|cbn; lia|].
  exists k. split; [exact E|]. split; [rewrite (A 0%nat 1%nat) by (cbn; lia)|rewrite (B 0%nat 1%nat) by (cbn; lia)]; cbn; unfold inner, nz; cbn; f_equal; ring.
Qed.

(** ** C71 *)
(** C71: for an inner-product kernel computed on the data and non-negative dual variables, featureSpaceNorm is the Euclidean norm of
    the weight vector sum_i alpha_i y_i x_i. *)
Lemma c71_featureSpaceNorm : forall (pw : R -> R -> R) (k k' : kernel) (d : data R) (f : option custom),
  k_type k = InnerProduct -> k_computed k = false -> rect d -> (forall p, In p (d_points d) -> 0 <= p_alpha p) ->
  compute pw k d f = Ok k' ->
  featureSpaceNorm k' d = Ok (Some (sqrt (sumn (dim d) (fun a =>
    (sumn (size d) (fun i => p_alpha (pt d i) * IZR (p_y (pt d i)) * nz (p_x (pt d i)) a)) *
    (sumn (size d) (fun i => p_alpha (pt d i) * IZR (p_y (pt d i)) * nz (p_x (pt d i)) a)))))).
Proof.
  intros pw k k' d f HT HC HR HA E.
  destruct (c29_compute pw k d f (fun _ _ _ => 0) HC HR) as (k2 & E2 & HK & _); [rewrite HT; discriminate|]. rewrite E in E2. injection E2 as <-.
  rewrite (featureSpaceNorm_ok k' d (fun i j => inner (dim d) (p_x (pt d i)) (p_x (pt d j)))); auto.
  - f_equal. rewrite dualsum_inner. unfold sqrto. cbn. destruct (Rle_dec 0 _) as [|N]; [reflexivity|]. exfalso. apply N. apply sumn_nonneg. intros. apply Rle_0_sqr.
  - intros i j Hi Hj. rewrite HK, mget_table by auto. rewrite HT. reflexivity.
Qed.
Lemma c71_featureSpaceNorm_ex : exists k', compute Rpower (kernel_make InnerProduct 0) kex None = Ok k' /\ rect kex /\ (forall p, In p (d_points kex) -> 0 <= p_alpha p).
Proof.
  destruct (c29_compute Rpower (kernel_make InnerProduct 0) kex None (fun _ _ _ => 0)) as (k' & E & _); [reflexivity|apply rect_kex|discriminate|].
  exists k'. split; [exact E|]. split; [apply rect_kex|]. intros p [<-|[<-|[]]]; cbn; lra.
Qed.

(** C71 refuted for norm(): its inner accumulator is not reset and the outer one is updated at every step. For the points (1,2) of class 1 and (3,1)
    of class -1 with dual variables 1 and 2 the weight vector is (-5,0), of squared norm 25; norm() gives the root of 40. *)
Definition kex2 : data R :=
  mkData [mkPoint [1; 2] 1%Z 1%Z 1; mkPoint [3; 1] (-1)%Z 2%Z 2] [1; 2]%Z [0; 1]%Z [] [1; -1]%Z [1; 1]%Z 2 2 false false false true.
Lemma c71_norm_refuted : forall pw : R -> R -> R, exists k',
  compute pw (kernel_make InnerProduct 0) kex2 None = Ok k' /\ knorm k' kex2 = Ok (Some (sqrt 40)) /\ featureSpaceNorm k' kex2 = Ok (Some (sqrt 25)).
Proof.
  intro pw. assert (rect kex2) as HR by (intros p [<-|[<-|[]]]; reflexivity).
  destruct (c29_compute pw (kernel_make InnerProduct 0) kex2 None (fun _ _ _ => 0)) as (k' & E & HK & _); [reflexivity|auto|discriminate|].
  exists k'. split; [auto|]. split.
  - unfold knorm. change (size kex2) with 2%nat in *. rewrite HK. cbn. unfold inner, nz. cbn. unfold sqrto. cbn.
    match goal with |- context [Rle_dec 0 ?x] => replace x with 40 by ring end. destruct (Rle_dec 0 40); [reflexivity|lra].
  - rewrite (c71_featureSpaceNorm pw (kernel_make InnerProduct 0) k' kex2 None); auto.
    + cbn. unfold nz. cbn. do 3 f_equal. ring.
    + intros p [<-|[<-|[]]]; cbn; lra.
Qed.
