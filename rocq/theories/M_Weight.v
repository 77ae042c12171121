(** Model of the weight vectors a dual classifier reports
    (/repo/subprojects/ufjfmltk-classifier/include/ufjfmltk/classifier/DualClassifier.hpp:106-178) and of what SMO::train() stores in
    its solution (SMO.hpp:93-153), over the reals.

    Simplifications: verbose output is left out; solution.w is the vector that is returned, every position of which is assigned. *)
From Coq Require Import ZArith Bool List Reals.
From Verif Require Import Base M_Data M_Point L_Vec Loop M_Kernel M_Dll M_Smo.
Import ListNotations.
Local Open Scope R_scope.

(** DualClassifier.hpp:106-117: getWeight(). *)
Definition getWeight (d : data R) : outcome vec :=
  map_outcome (fun i => osum (size d) (fun j =>
    let* p := vget (d_points d) j in let* x := vget (p_x p) i in Ok (p_alpha p * IZR (p_y p) * x))) (seq 0 (dim d)).

(** DualClassifier.hpp:140-145 and 169-174: alphaaux[i] = sum_j alpha_j m[i][j], then the sum of alphaaux[i] * alpha_i; [m i j] reads the matrix. *)
Definition quadratic (d : data R) (m : nat -> nat -> outcome R) : outcome R :=
  let n := size d in
  let* aux := map_outcome (fun i => osum n (fun j => let* p := vget (d_points d) j in let* h := m i j in Ok (p_alpha p * h))) (seq 0 n) in
  osum n (fun i => let* a := vget aux i in let* p := vget (d_points d) i in Ok (a * p_alpha p)).

(** DualClassifier.hpp:123-149: getDualWeight(); both matrices live in the kernel object. *)
Definition getDualWeight (pw : R -> R -> R) (k : kernel) (d : data R) : outcome (vec * kernel) :=
  let* k0 := generateH pw k d in
  ofold (fun st f =>
    let* k1 := generateHwd pw (snd st) d (Z.of_nat f) in
    let* w := quadratic d (fun i j => let* h := mget (k_H k1) i j in let* hk := mget (k_Hwd k1) i j in Ok (h - hk)) in
    Ok (fst st ++ [w], k1)) (seq 0 (dim d)) ([], k0).

(** DualClassifier.hpp:155-178: getDualWeightProdInt(). *)
Definition getDualWeightProdInt (d : data R) : outcome vec :=
  map_outcome (fun f => quadratic d (fun i j =>
    let* p := vget (d_points d) i in let* q := vget (d_points d) j in
    let* a := vget (p_x p) f in let* b := vget (p_x q) f in
    Ok (a * b * IZR (p_y p) * IZR (p_y q)))) (seq 0 (dim d)).

(** SMO.hpp:105, 342-343: the dataset with the dual variables [a] in its points; the points are shared with the classifier. *)
Fixpoint put_alphas (a : vec) (l : list (point R)) : list (point R) :=
  match a, l with
  | v :: a', p :: l' => mkPoint (p_x p) (p_y p) (p_id p) v :: put_alphas a' l'
  | _, _ => l
  end.
(** SMO.hpp:105, 342-343: the same on the dataset. *)
Definition with_alphas (d : data R) (a : vec) : data R :=
  mkData (put_alphas a (d_points d)) (d_fnames d) (d_index d) (d_cnames d) (d_classes d) (d_dist d) (d_size d) (d_dim d)
    (d_isempty d) (d_normalized d) (d_cdist d) (d_class d).

(** Solution.hpp: the fields SMO fills in (SMO.hpp:124-134); an infinite or NaN margin is [None]. *)
Record smo_solution := mkSol { so_w : vec; so_bias : R; so_margin : option R; so_alpha : vec; so_svs : nat; so_ok : bool; so_data : data R; so_kernel : kernel }.

(** SMO.hpp:116-123: which of the three weight vectors is stored. *)
Definition smo_weights (pw : R -> R -> R) (k : kernel) (d : data R) : outcome (vec * kernel) :=
  match k_type k with
  | InnerProduct => let* w := getWeight d in Ok (w, k)
  | Polynomial => if Req_EM_T (k_param k) 1 then let* w := getDualWeightProdInt d in Ok (w, k) else getDualWeight pw k d
  | _ => getDualWeight pw k d
  end.

(** SMO.hpp:93-153: train() as a whole. [None]: the fuel of the main loop ran out. *)
Definition smo_fit (pw : R -> R -> R) (t : ktype) (par C TOL EPS : R) (rnd : nat) (d : data R) (max_epoch : nat) (h : heap)
  : outcome (option (smo_solution * heap)) :=
  let* k := compute pw (kernel_make t par) (with_alphas d (repeat 0 (size d))) None in
  let* r := smo_train C TOL EPS rnd d (k_K k) max_epoch h in
  match r with
  | None => Ok None
  | Some (s, svs, b) =>
      let d' := with_alphas d (sm_alpha s) in
      let* norm := featureSpaceNorm k d' in
      let* wk := smo_weights pw k d' in
      let margin := match norm with None => None | Some v => if Req_EM_T v 0 then None else Some (1 / v) end in
      Ok (Some (mkSol (fst wk) (sm_bias s) margin (sm_alpha s) svs b d' (snd wk), sm_heap s))
  end.
