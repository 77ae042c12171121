(** Property theorems: Property lemmas for the kernel model: C29, C30, C31, C71.
    Each is closed by the lemma of the same (lower-case) name in T_Kernel.v. *)
From Coq Require Import ZArith Bool List Lia Reals Lra Psatz.
From Verif Require Import Base ListLib M_Data M_Point L_Vec Loop M_Kernel S_Kernel L_Kernel.
From Verif Require Import T_Kernel.
Import ListNotations.
Local Open Scope R_scope.

(** C29: on a kernel whose matrix is not yet computed, compute succeeds for every dataset with points of
    one dimension, and the matrix is the table of kernel values of the points; hence symmetric. *)
Theorem C29_compute : forall (pw : R -> R -> R) (k : kernel) (d : data R) (f : option custom) (g : custom),
  k_computed k = false -> rect d ->
  (k_type k = Custom -> f = Some g /\ forall p q r, g p q r = g q p r) ->
  exists k', compute pw k d f = Ok k' /\
    k_K k' = table (size d) (fun i j => kval pw (k_type k) (k_param k) g (dim d) (pt d i) (pt d j)) /\
    symmetric (size d) (k_K k').
Proof. exact c29_compute. Qed.
Print Assumptions C29_compute.

Example C29_compute_ex : k_computed (kernel_make Gaussian 2) = false /\ rect kex /\ size kex = 2%nat.
Proof. exact c29_compute_ex. Qed.

(** C29: the matrix is positive semidefinite for the inner product, for the polynomial kernel with a natural
    exponent above 1 (std::pow being the power function there) or an exponent of at most 1, and for the Gaussian kernel with
    a non-negative parameter. *)
Theorem C29_psd : forall (pw : R -> R -> R) (k k' : kernel) (d : data R) (f : option custom),
  k_computed k = false -> rect d ->
  (k_type k = InnerProduct \/
   (k_type k = Polynomial /\ (k_param k <= 1 \/ exists n : nat, k_param k = INR n /\ forall x, pw x (INR n) = x ^ n)) \/
   (k_type k = Gaussian /\ 0 <= k_param k)) ->
  compute pw k d f = Ok k' ->
  exists K, (forall i j, (i < size d)%nat -> (j < size d)%nat -> mget (k_K k') i j = Ok (K i j)) /\
    forall c : nat -> R, 0 <= sumn (size d) (fun i => sumn (size d) (fun j => c i * c j * K i j)).
Proof. exact c29_psd. Qed.
Print Assumptions C29_psd.

Example C29_psd_ex : exists k', compute Rpower (kernel_make Gaussian 2) kex None = Ok k' /\ rect kex /\ 0 <= k_param (kernel_make Gaussian 2).
Proof. exact c29_psd_ex. Qed.

(** C30: after any history of calls on one kernel object ending with compute(data), the matrix is the
    table, for the current type and parameter, of the first dataset computed since the last
    setType/setParam/recompute. That need not be [data]: see c30_stale_refuted. *)
Theorem C30_history : forall (pw : R -> R -> R) (t : ktype) (par : R) (ops : list kop) (k : kernel) (d : data R) (f : option custom),
  t <> Custom -> Forall plain (ops ++ [KCompute d f]) ->
  krun pw (ops ++ [KCompute d f]) (kernel_make t par) = Ok k ->
  exists s, current (ops ++ [KCompute d f]) None = Some s /\
    k_K k = table (size s) (fun i j => kval pw (k_type k) (k_param k) (fun _ _ _ => 0) (dim s) (pt s i) (pt s j)).
Proof. exact c30_history. Qed.
Print Assumptions C30_history.

Example C30_history_ex : exists k, krun Rpower ([KCompute kex1 None; KSetParam 2] ++ [KCompute kex None]) (kernel_make Gaussian 1) = Ok k /\
  Forall plain ([KCompute kex1 None; KSetParam 2] ++ [KCompute kex None]) /\
  current ([KCompute kex1 None; KSetParam 2] ++ [KCompute kex None]) None = Some kex.
Proof. exact c30_history_ex. Qed.

(** C30: right after setType, setParam or recompute (and on a new object), compute(data) describes [data]. *)
Theorem C30_after_reset : forall (pw : R -> R -> R) (t : ktype) (par : R) (ops : list kop) (o : kop) (k : kernel) (d : data R) (f : option custom),
  t <> Custom -> Forall plain (ops ++ [o; KCompute d f]) -> (o = KRecompute \/ (exists t, o = KSetType t) \/ (exists p, o = KSetParam p)) ->
  krun pw (ops ++ [o; KCompute d f]) (kernel_make t par) = Ok k ->
  k_K k = table (size d) (fun i j => kval pw (k_type k) (k_param k) (fun _ _ _ => 0) (dim d) (pt d i) (pt d j)).
Proof. exact c30_after_reset. Qed.
Print Assumptions C30_after_reset.

Example C30_after_reset_ex : exists k, krun Rpower ([KCompute kex1 None] ++ [KRecompute; KCompute kex None]) (kernel_make Gaussian 1) = Ok k /\
  Forall plain ([KCompute kex1 None] ++ [KRecompute; KCompute kex None]).
Proof. exact c30_after_reset_ex. Qed.

(** C30 refuted: computing for a second dataset with the same kernel object keeps the matrix of the first. *)
Theorem C30_stale_refuted : forall pw : R -> R -> R, exists k,
  krun pw [KCompute kex1 None; KCompute kex None] (kernel_make InnerProduct 0) = Ok k /\ k_K k = [[5]] /\ size kex = 2%nat.
Proof. exact c30_stale_refuted. Qed.
Print Assumptions C30_stale_refuted.

(** C31: generateMatrixH, on a kernel object that has not yet built an H matrix or whose last one was for a dataset of
    the same size, gives the table of y_i y_j K(i,j). For other sizes see c31_resize_refuted. *)
Theorem C31_H : forall (pw : R -> R -> R) (k : kernel) (d : data R),
  rect d -> k_type k <> Custom -> k_H k = [] \/ shape (size d) (fun _ => size d) (k_H k) ->
  exists k', generateH pw k d = Ok k' /\ symmetric (size d) (k_H k') /\
    k_H k' = table (size d) (fun i j => IZR (p_y (pt d i)) * IZR (p_y (pt d j)) * kval pw (k_type k) (k_param k) (fun _ _ _ => 0) (dim d) (pt d i) (pt d j)).
Proof. exact c31_H. Qed.
Print Assumptions C31_H.

Example C31_H_ex : rect kex /\ k_type (kernel_make Gaussian 1) <> Custom /\ k_H (kernel_make Gaussian 1) = [] /\ size kex = 2%nat.
Proof. exact c31_H_ex. Qed.

(** C31 refuted: after an H matrix for one point, building one for two points writes outside the first row. *)
Theorem C31_resize_refuted : forall pw : R -> R -> R, exists k1,
  generateH pw (kernel_make InnerProduct 0) kex1 = Ok k1 /\ generateH pw k1 kex = UB.
Proof. exact c31_resize_refuted. Qed.
Print Assumptions C31_resize_refuted.

(** C31: generateMatrixHwithoutDim drops feature [j] from every point; the lower triangle and the diagonal are
    y_a y_b K(a,b), but the upper triangle is K(a,b) without the labels. For the polynomial kernel with exponent above 1 the
    base is increased by one. *)
Theorem C31_without : forall (pw : R -> R -> R) (k : kernel) (d : data R) (j : nat),
  rect d -> k_type k <> Custom -> (j < dim d)%nat ->
  let v a b := kval1 pw (k_type k) (k_param k) (dim d - 1) (drop_feature j (pt d a)) (drop_feature j (pt d b)) in
  exists k', generateHwd pw k d (Z.of_nat j) = Ok k' /\
    (forall a b, (a <= b < size d)%nat -> mget (k_Hwd k') b a = Ok (v a b * IZR (p_y (pt d a)) * IZR (p_y (pt d b)))) /\
    (forall a b, (a < b < size d)%nat -> mget (k_Hwd k') a b = Ok (v a b)).
Proof. exact c31_without. Qed.
Print Assumptions C31_without.

Example C31_without_ex : rect kex /\ k_type (kernel_make Gaussian 1) <> Custom /\ (1 < dim kex)%nat.
Proof. exact c31_without_ex. Qed.

(** C31 refuted: the matrix without a dimension is not symmetric for two points of different classes. *)
Theorem C31_without_refuted : forall pw : R -> R -> R, exists k, generateHwd pw (kernel_make InnerProduct 0) kex 0 = Ok k /\
  mget (k_Hwd k) 0 1 = Ok 2 /\ mget (k_Hwd k) 1 0 = Ok (-2).
Proof. exact c31_without_refuted. Qed.
Print Assumptions C31_without_refuted.

(** C71: for an inner-product kernel computed on the data and non-negative dual variables, featureSpaceNorm is the Euclidean norm of
    the weight vector sum_i alpha_i y_i x_i. *)
Theorem C71_featureSpaceNorm : forall (pw : R -> R -> R) (k k' : kernel) (d : data R) (f : option custom),
  k_type k = InnerProduct -> k_computed k = false -> rect d -> (forall p, In p (d_points d) -> 0 <= p_alpha p) ->
  compute pw k d f = Ok k' ->
  featureSpaceNorm k' d = Ok (Some (sqrt (sumn (dim d) (fun a =>
    (sumn (size d) (fun i => p_alpha (pt d i) * IZR (p_y (pt d i)) * nz (p_x (pt d i)) a)) *
    (sumn (size d) (fun i => p_alpha (pt d i) * IZR (p_y (pt d i)) * nz (p_x (pt d i)) a)))))).
Proof. exact c71_featureSpaceNorm. Qed.
Print Assumptions C71_featureSpaceNorm.

Example C71_featureSpaceNorm_ex : exists k', compute Rpower (kernel_make InnerProduct 0) kex None = Ok k' /\ rect kex /\ (forall p, In p (d_points kex) -> 0 <= p_alpha p).
Proof. exact c71_featureSpaceNorm_ex. Qed.

Theorem C71_norm_refuted : forall pw : R -> R -> R, exists k',
  compute pw (kernel_make InnerProduct 0) kex2 None = Ok k' /\ knorm k' kex2 = Ok (Some (sqrt 40)) /\ featureSpaceNorm k' kex2 = Ok (Some (sqrt 25)).
Proof. exact c71_norm_refuted. Qed.
Print Assumptions C71_norm_refuted.

