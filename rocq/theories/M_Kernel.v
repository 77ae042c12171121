(** Model of mltk::Kernel<double>
    (/repo/subprojects/ufjfmltk-core/include/ufjfmltk/core/Kernel.hpp) over the reals.

    Simplifications: doubles are reals; std::pow is an arbitrary function [pw] of its two arguments (the
    theorems that need more say which exponents they use); a custom kernel function is a function of the two
    points and the parameter and has no side effect; NaN from a root of a negative number is [None]. *)
From Coq Require Import ZArith Bool List Reals.
From Verif Require Import Base M_Data M_Point L_Vec Loop.
Import ListNotations.
Local Open Scope nat_scope.

(** The type of a custom kernel function, Kernel.hpp:33-42. *)
Definition custom := point R -> point R -> R -> R.

(** Kernel.hpp:16: KernelType; any other integer makes every switch fall through ([Other]). *)
Inductive ktype := InnerProduct | Polynomial | Gaussian | Custom | Other.

(** Kernel.hpp:33-42: the fields. *)
Record kernel : Type := mkKernel {
  k_type : ktype;
  k_param : R;
  k_func : option custom;
  k_computed : bool;
  k_K : list (list R);
  k_H : list (list R);
  k_Hwd : list (list R) }.

(** Kernel.hpp:338-342: Kernel(type, param). *)
Definition kernel_make (t : ktype) (param : R) : kernel := mkKernel t param None false [] [] [].
(** Kernel.hpp:344-347: Kernel(matrix); type{} is 0 and param{} is 0. *)
Definition kernel_of_matrix (m : list (list R)) : kernel := mkKernel InnerProduct 0%R None false m [] [].
(** Kernel.hpp:359-363, 365-369, 371-374, 88. *)
Definition setType (t : ktype) (k : kernel) : kernel := mkKernel t (k_param k) (k_func k) false (k_K k) (k_H k) (k_Hwd k).
(** Kernel.hpp:365-369. *)
Definition setParam (p : R) (k : kernel) : kernel := mkKernel (k_type k) p (k_func k) false (k_K k) (k_H k) (k_Hwd k).
(** Kernel.hpp:371-374. *)
Definition setKernelMatrix (m : list (list R)) (k : kernel) : kernel := mkKernel (k_type k) (k_param k) (k_func k) (k_computed k) m (k_H k) (k_Hwd k).
(** Kernel.hpp:88. *)
Definition recompute (k : kernel) : kernel := mkKernel (k_type k) (k_param k) (k_func k) false (k_K k) (k_H k) (k_Hwd k).

Section Kernel.
Variable pw : R -> R -> R.

(** Kernel.hpp:217-256: function(one, two, dim, f); a[i] and b[i] are unchecked vector accesses, an empty
    std::function throws. *)
Definition kfun (k : kernel) (one two : point R) (dim : nat) (f : option custom) : outcome R :=
  let prod := osum dim (fun i => let* a := vget (p_x one) i in let* b := vget (p_x two) i in Ok (a * b)%R) in
  match k_type k with
  | InnerProduct => prod
  | Polynomial => let* s := prod in Ok (if Rlt_dec 1 (k_param k) then pw s (k_param k) else s)
  | Gaussian =>
      let* s := osum dim (fun i => let* a := vget (p_x one) i in let* b := vget (p_x two) i in Ok ((a - b) * (a - b))%R) in
      Ok (exp (-1 * s * k_param k))
  | Custom =>
      match f with
      | Some g => Ok (g one two (k_param k))
      | None => match k_func k with Some g => Ok (g one two (k_param k)) | None => Abort end
      end
  | Other => Ok 0%R
  end.

(** Point::operator[] asserts the index (Point.hpp:247-250). *)
Definition pat (p : point R) (i : nat) : outcome R :=
  match nth_error (p_x p) i with Some v => Ok v | None => Abort end.

(** Kernel.hpp:258-294: functionWithoutDim(one, two, j, dim); the polynomial case adds 1, unlike function().
    [j] is an int: a negative one drops nothing. *)
Definition kfun_without (k : kernel) (one two : point R) (j : Z) (dim : nat) : outcome R :=
  let skip i := Z.eqb (Z.of_nat i) j in
  let prod := osum dim (fun i => if skip i then Ok 0%R else let* a := pat one i in let* b := pat two i in Ok (a * b)%R) in
  match k_type k with
  | InnerProduct => prod
  | Polynomial => let* s := prod in Ok (if Rlt_dec 1 (k_param k) then pw (s + 1)%R (k_param k) else s)
  | Gaussian =>
      let* s := osum dim (fun i => if skip i then Ok 0%R else let* a := pat one i in let* b := pat two i in Ok ((a - b) * (a - b))%R) in
      Ok (exp (-1 * s * k_param k))
  | Custom => match k_func k with Some g => Ok (g one two (k_param k)) | None => Abort end
  | Other => Ok 0%R
  end.

(** Kernel.hpp:159-175: compute(samples, f). *)
Definition compute (k : kernel) (d : data R) (f : option custom) : outcome kernel :=
  if k_computed k then Ok k
  else
    let k1 := mkKernel (k_type k) (k_param k) (match k_type k with Custom => f | _ => k_func k end) false (k_K k) (k_H k) (k_Hwd k) in
    let n := size d in
    let* m := ofold (fun m ij =>
      let* p := vget (d_points d) (fst ij) in let* q := vget (d_points d) (snd ij) in
      let* v := kfun k1 p q (dim d) f in
      let* m1 := mset m (fst ij) (snd ij) v in mset m1 (snd ij) (fst ij) v) (upper n) (repeat (repeat 0%R n) n) in
    Ok (mkKernel (k_type k1) (k_param k1) (k_func k1) true m (k_H k1) (k_Hwd k1)).

(** Kernel.hpp:177-193: generateMatrixH(samples). H.resize keeps the rows it already had. *)
Definition generateH (k : kernel) (d : data R) : outcome kernel :=
  let n := size d in
  let* m := ofold (fun m ij =>
    let* p := vget (d_points d) (fst ij) in let* q := vget (d_points d) (snd ij) in
    let* v := kfun k p q (dim d) None in
    let h := (v * IZR (p_y p) * IZR (p_y q))%R in
    let* m1 := mset m (fst ij) (snd ij) h in mset m1 (snd ij) (fst ij) h) (upper n) (vresize (repeat 0%R n) n (k_H k)) in
  Ok (mkKernel (k_type k) (k_param k) (k_func k) (k_computed k) (k_K k) m (k_Hwd k)).

(** Kernel.hpp:195-215: generateMatrixHwithoutDim(samples, j): only the lower triangle gets the labels. *)
Definition generateHwd (k : kernel) (d : data R) (j : Z) : outcome kernel :=
  let n := size d in
  let* m := ofold (fun m ij =>
    let* p := vget (d_points d) (fst ij) in let* q := vget (d_points d) (snd ij) in
    let* v := kfun_without k p q j (dim d) in
    let* m1 := mset m (fst ij) (snd ij) v in mset m1 (snd ij) (fst ij) (v * IZR (p_y p) * IZR (p_y q))%R) (upper n) (repeat (repeat 0%R n) n) in
  Ok (mkKernel (k_type k) (k_param k) (k_func k) (k_computed k) (k_K k) (k_H k) m).

(** Kernel.hpp:296-312: norm(data): the inner sum is never reset and the outer sum is updated inside it. *)
Definition knorm (k : kernel) (d : data R) : outcome (option R) :=
  let n := size d in
  let* s := ofold (fun s i => ofold (fun s j =>
      let* pi := vget (d_points d) i in let* pj := vget (d_points d) j in let* v := mget (k_K k) i j in
      let s1 := (snd s + p_alpha pj * IZR (p_y pj) * v)%R in
      Ok (fst s + IZR (p_y pi) * p_alpha pi * s1, s1)%R) (seq 0 n) s) (seq 0 n) (0, 0)%R in
  Ok (sqrto (Some (fst s))).

(** Kernel.hpp:314-336: featureSpaceNorm(data). *)
Definition featureSpaceNorm (k : kernel) (d : data R) : outcome (option R) :=
  let n := size d in
  let* s := osum n (fun i =>
    let* pi := vget (d_points d) i in
    if Rlt_dec 0 (p_alpha pi) then
      let* s1 := osum n (fun j =>
        let* pj := vget (d_points d) j in
        if Rlt_dec 0 (p_alpha pj) then let* v := mget (k_K k) j i in Ok (IZR (p_y pj) * p_alpha pj * v)%R else Ok 0%R) in
      Ok (p_alpha pi * IZR (p_y pi) * s1)%R
    else Ok 0%R) in
  Ok (sqrto (Some s)).

(** Operations on a kernel object, for histories. Kernel.hpp:88, 159-374. *)
Inductive kop :=
| KCompute (d : data R) (f : option custom)
| KSetType (t : ktype) | KSetParam (p : R) | KRecompute
| KH (d : data R) | KHwd (d : data R) (j : Z).
(** One call, Kernel.hpp:88, 159-374. *)
Definition kapply (k : kernel) (o : kop) : outcome kernel :=
  match o with
  | KCompute d f => compute k d f
  | KSetType t => Ok (setType t k)
  | KSetParam p => Ok (setParam p k)
  | KRecompute => Ok (recompute k)
  | KH d => generateH k d
  | KHwd d j => generateHwd k d j
  end.
(** A history of calls, Kernel.hpp:88, 159-374. *)
Definition krun (ops : list kop) (k : kernel) : outcome kernel := ofold kapply ops k.

End Kernel.
