(** Property theorems: Property lemmas for the weight vectors of dual classifiers and the solution SMO stores: C90, C91.
    Each is closed by the lemma of the same (lower-case) name in T_Weight.v. *)
From Coq Require Import ZArith Bool List Lia Reals Lra Psatz.
From Verif Require Import Base ListLib M_Data M_Point L_Vec Loop M_Kernel S_Kernel L_Kernel T_Kernel M_Perc S_Perc L_Perc T_Perc M_Dll S_Dll M_Smo S_Smo L_Smo T_Smo M_Weight S_Weight.
From Verif Require Import T_Weight.
Import ListNotations.
Local Open Scope R_scope.

(** C90: getWeight gives one weight per feature, the combination of the examples with their dual variables and labels. *)
Theorem C90_weight : forall (d : data R), rect d ->
  exists w, getWeight d = Ok w /\ length w = dim d /\ forall f, (f < dim d)%nat -> nz w f = weight_of d (alpha_of d) f.
Proof. exact c90_weight. Qed.
Print Assumptions C90_weight.

Example C90_weight_ex : rect kex /\ (1 < dim kex)%nat /\ (1 < size kex)%nat.
Proof. exact c90_weight_ex. Qed.

(** C90: getDualWeightProdInt gives the squares of those weights. *)
Theorem C90_squares : forall (d : data R), rect d ->
  exists w, getDualWeightProdInt d = Ok w /\ length w = dim d /\ forall f, (f < dim d)%nat -> nz w f = (weight_of d (alpha_of d) f) ^ 2.
Proof. exact c90_squares. Qed.
Print Assumptions C90_squares.

Example C90_squares_ex : rect kex /\ (1 < dim kex)%nat /\ (1 < size kex)%nat.
Proof. exact c90_squares_ex. Qed.

(** C90: getDualWeight, for every kernel but a custom one, gives for every feature the quadratic form of the dual variables in the matrix
    y_i y_j K(i,j) - y_i y_j K'(i,j), K' being the kernel without the feature, except that above the diagonal the second term lacks the labels. *)
Theorem C90_dual : forall (pw : R -> R -> R) (k : kernel) (d : data R), rect d -> k_type k <> Custom ->
  k_H k = [] \/ shape (size d) (fun _ => size d) (k_H k) ->
  exists w k', getDualWeight pw k d = Ok (w, k') /\ length w = dim d /\ k_K k' = k_K k /\ k_type k' = k_type k /\ k_param k' = k_param k /\
    forall f, (f < dim d)%nat -> nz w f = sumn (size d) (fun i => sumn (size d) (fun j => alpha_of d i * alpha_of d j *
      (let y := IZR (p_y (pt d i)) * IZR (p_y (pt d j)) in
       y * value_full pw k d i j - (if Nat.leb j i then y else 1) * value_without pw k d f i j))).
Proof. exact c90_dual. Qed.
Print Assumptions C90_dual.

Example C90_dual_ex : rect kex /\ k_type (kernel_make Gaussian 1) <> Custom /\ k_H (kernel_make Gaussian 1) = [] /\ (1 < dim kex)%nat.
Proof. exact c90_dual_ex. Qed.

(** C90: with the inner product and one class only, getDualWeight gives the squares of the weights. *)
Theorem C90_dual_one_class : forall (pw : R -> R -> R) (k : kernel) (d : data R), rect d -> k_type k = InnerProduct ->
  k_H k = [] \/ shape (size d) (fun _ => size d) (k_H k) ->
  (forall p, In p (d_points d) -> p_y p = 1%Z) \/ (forall p, In p (d_points d) -> p_y p = (-1)%Z) ->
  exists w k', getDualWeight pw k d = Ok (w, k') /\ length w = dim d /\ forall f, (f < dim d)%nat -> nz w f = (weight_of d (alpha_of d) f) ^ 2.
Proof. exact c90_dual_one_class. Qed.
Print Assumptions C90_dual_one_class.

Example C90_dual_one_class_ex : rect wex1 /\ (forall p, In p (d_points wex1) -> p_y p = 1%Z) /\ weight_of wex1 (alpha_of wex1) 0 = 7.
Proof. exact c90_dual_one_class_ex. Qed.

Theorem C90_dual_refuted : forall pw : R -> R -> R, exists w k', getDualWeight pw (kernel_make InnerProduct 0) wex2 = Ok (w, k') /\ nz w 0 = -4 /\ weight_of wex2 (alpha_of wex2) 0 = 0.
Proof. exact c90_dual_refuted. Qed.
Print Assumptions C90_dual_refuted.

(** C91: training, for every kernel but a custom one, ends and stores the dual variables (feasible), their number that is positive, a weight per feature,
    the inverse of the norm in feature space (infinite when that is 0) and predicts with the sign of the kernel expansion. *)
Theorem C91_solution : forall (pw : R -> R -> R) t par C TOL EPS rnd d max_epoch h,
  0 < C -> 0 < EPS -> binary d -> rect d -> heap_ok h -> t <> Custom ->
  exists s h', smo_fit pw t par C TOL EPS rnd d max_epoch h = Ok (Some (s, h')) /\
    let y i := IZR (p_y (pt d i)) in
    let q := sumn (size d) (fun i => sumn (size d) (fun j => nz (so_alpha s) i * y i * (nz (so_alpha s) j * y j) * kval pw t par (fun _ _ _ => 0) (dim d) (pt d i) (pt d j))) in
    (forall a, mem h' a = mem h a) /\ length (so_alpha s) = size d /\ dual_feasible C d (nz (so_alpha s)) /\ length (so_w s) = dim d /\
    so_svs s = length (filter (fun i => if Rlt_dec 0 (nz (so_alpha s) i) then true else false) (seq 0 (size d))) /\
    so_margin s = (if Rlt_dec 0 q then Some (1 / sqrt q) else None) /\
    size (so_data s) = size d /\ (forall i, (i < size d)%nat -> pt (so_data s) i = mkPoint (p_x (pt d i)) (p_y (pt d i)) (p_id (pt d i)) (nz (so_alpha s) i)) /\
    forall p, length (p_x p) = dim d -> dual_evaluate pw (so_kernel s) (so_data s) (so_alpha s) (so_bias s) p =
      Ok (if Rle_dec 0 (sumn (size d) (fun i => nz (so_alpha s) i * y i * kval pw t par (fun _ _ _ => 0) (dim d) p (pt d i)) + so_bias s) then 1%Z else (-1)%Z).
Proof. exact c91_solution. Qed.
Print Assumptions C91_solution.

Example C91_solution_ex : binary smo_two /\ rect smo_two /\ heap_ok heap_empty /\ Gaussian <> Custom /\ size smo_two = 2%nat.
Proof. exact c91_solution_ex. Qed.

(** C91: with the inner product the stored weights and bias are the classifier: the weights are the combination of the examples, every prediction is the side
    of the hyperplane, and the margin is the inverse of the Euclidean norm of the weights (infinite when all weights are 0). *)
Theorem C91_linear : forall (pw : R -> R -> R) par C TOL EPS rnd d max_epoch h s h',
  0 < C -> 0 < EPS -> binary d -> rect d -> heap_ok h ->
  smo_fit pw InnerProduct par C TOL EPS rnd d max_epoch h = Ok (Some (s, h')) ->
  (forall f, (f < dim d)%nat -> nz (so_w s) f = weight_of d (nz (so_alpha s)) f) /\
  (forall p, length (p_x p) = dim d -> dual_evaluate pw (so_kernel s) (so_data s) (so_alpha s) (so_bias s) p =
     Ok (if Rle_dec 0 (inner (dim d) (so_w s) (p_x p) + so_bias s) then 1%Z else (-1)%Z)) /\
  so_margin s = (if Rlt_dec 0 (euclid (dim d) (so_w s)) then Some (1 / euclid (dim d) (so_w s)) else None).
Proof. exact c91_linear. Qed.
Print Assumptions C91_linear.

(** C91: when linear training answers true on distinct points, every example with a dual variable below C lies on the right side of the hyperplane at a distance of
    at least (1 - TOL) times the reported margin, unless no pair with that example can make progress. *)
Theorem C91_margin : forall (pw : R -> R -> R) par C TOL EPS rnd d max_epoch h s h' m i,
  0 < C -> 0 < EPS -> binary d -> rect d -> heap_ok h ->
  (forall i j, (i < size d)%nat -> (j < size d)%nat -> i <> j -> exists f, (f < dim d)%nat /\ nz (p_x (pt d i)) f <> nz (p_x (pt d j)) f) ->
  smo_fit pw InnerProduct par C TOL EPS rnd d max_epoch h = Ok (Some (s, h')) -> so_ok s = true -> so_margin s = Some m ->
  (i < size d)%nat -> nz (so_alpha s) i < C ->
  (1 - TOL) * m <= IZR (p_y (pt d i)) * (inner (dim d) (so_w s) (p_x (pt d i)) + so_bias s) / euclid (dim d) (so_w s) \/
  forall j, (j < size d)%nat -> j <> i -> no_progress C EPS d (fun i j => inner (dim d) (p_x (pt d i)) (p_x (pt d j))) (nz (so_alpha s)) i j.
Proof. exact c91_margin. Qed.
Print Assumptions C91_margin.

(** C91: with the polynomial kernel of degree 1, which is the same function as the inner product, the stored weights are the squares. *)
Theorem C91_degree_one : forall (pw : R -> R -> R) C TOL EPS rnd d max_epoch h s h',
  0 < C -> 0 < EPS -> binary d -> rect d -> heap_ok h ->
  smo_fit pw Polynomial 1 C TOL EPS rnd d max_epoch h = Ok (Some (s, h')) ->
  forall f, (f < dim d)%nat -> nz (so_w s) f = (weight_of d (nz (so_alpha s)) f) ^ 2.
Proof. exact c91_degree_one. Qed.
Print Assumptions C91_degree_one.

(** C91 refuted for custom kernels: training on any dataset with a point throws, because it replaces the kernel object by a new one without a function. *)
Theorem C91_custom_refuted : forall (pw : R -> R -> R) par C TOL EPS rnd d max_epoch h, d_points d <> [] -> smo_fit pw Custom par C TOL EPS rnd d max_epoch h = Abort.
Proof. exact c91_custom_refuted. Qed.
Print Assumptions C91_custom_refuted.

Example C91_custom_refuted_ex : d_points smo_two <> [].
Proof. exact c91_custom_refuted_ex. Qed.

Example C91_linear_ex : exists s h', smo_fit Rpower InnerProduct 0 1 (/ 1000) (/ 1000) 0 smo_two 100 heap_empty = Ok (Some (s, h')) /\ so_ok s = true /\ so_margin s = Some 2 /\ nz (so_alpha s) 0 = / 8.
Proof. exact c91_linear_ex. Qed.

Example C91_margin_ex : (exists s h', smo_fit Rpower InnerProduct 0 1 (/ 1000) (/ 1000) 0 smo_two 100 heap_empty = Ok (Some (s, h')) /\ so_ok s = true /\ so_margin s = Some 2 /\ nz (so_alpha s) 0 = / 8) /\
  (forall i j, (i < size smo_two)%nat -> (j < size smo_two)%nat -> i <> j -> exists f, (f < dim smo_two)%nat /\ nz (p_x (pt smo_two i)) f <> nz (p_x (pt smo_two j)) f).
Proof. exact c91_margin_ex. Qed.

Example C91_degree_one_ex : exists s h', smo_fit Rpower Polynomial 1 1 (/ 1000) (/ 1000) 0 smo_two 100 heap_empty = Ok (Some (s, h')) /\ so_ok s = true /\ so_margin s = Some 2 /\ nz (so_alpha s) 0 = / 8.
Proof. exact c91_degree_one_ex. Qed.

(** Refuted: the weights of degree one are those of the classifier. Here the weight is 1/2 and 1/4 is stored. *)
Theorem C91_degree_one_refuted : forall pw : R -> R -> R, exists s h', smo_fit pw Polynomial 1 1 (/ 1000) (/ 1000) 0 smo_two 100 heap_empty = Ok (Some (s, h')) /\
  nz (so_w s) 0 = / 4 /\ weight_of smo_two (nz (so_alpha s)) 0 = / 2.
Proof. exact c91_degree_one_refuted. Qed.
Print Assumptions C91_degree_one_refuted.

