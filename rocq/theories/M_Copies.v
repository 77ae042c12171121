(** Model of the kernel objects held by the dual classifiers (SMO, PerceptronDual, IMADual): who allocates one, who deletes it, what a copy
    of a classifier shares with the original, and which kernel matrix a training sees.
    /repo/subprojects/ufjfmltk-classifier/include/ufjfmltk/classifier/{DualClassifier,SMO,Perceptron,IMA,OneVsOne,OneVsAll}.hpp.

    Kernel objects live in a heap that is never compacted: an address is a position, [None] is a deleted object, and every [new] takes the
    next position. Using or deleting a deleted object, using a null pointer, and using a destroyed classifier are [UB].

    Simplifications: the numbers a training computes are an arbitrary function [slv] of the kind of classifier, the kernel matrix, the
    samples and what the object kept from before (the algorithms are modelled in M_Perc, M_Smo and M_Imad), but its reads of the matrix
    are kept; the time limit allows at least one pass. The samples are values: the alphas a training leaves in the points are not seen by the
    kernel. setKernel, by which the user hands over a pointer of their own, is left out, and so are the H matrices of the weights reported
    for a kernel that is not linear (M_Kernel, C31). *)
From Coq Require Import ZArith Bool List Reals.
From Verif Require Import Base M_Data M_Point L_Vec Loop M_Kernel M_Perc.
Import ListNotations.
Local Open Scope nat_scope.

(** The classes: SMO.hpp:26-27, Perceptron.hpp:49-50, IMA.hpp:76-77. *)
Inductive kind := Smo | Perc | Ima.

(** Solution.hpp:15-32: what evaluate and the next training read of a solution. *)
Record sol := mkSol { so_alpha : vec; so_bias : R; so_norm : R }.
(** Solution.hpp:15-32: a new Solution. *)
Definition sol0 : sol := mkSol [] 0 0.

(** The fields of a dual classifier: DualClassifier.hpp:19-25 (alpha, kernel_type, kernel_param, kernel), Classifier.hpp:25 (solution),
    Learner.hpp:21 (samples). *)
Record learner := mkLearner {
  l_kind : kind; l_type : ktype; l_param : R; l_kernel : option nat; l_samples : data R; l_alpha : vec; l_sol : sol }.

(** The objects of a program: kernels (DualClassifier.hpp:25 points to them) and classifiers; [None] is a deleted or destroyed object. *)
Record world := mkWorld { w_heap : list (option kernel); w_learners : list (option learner) }.

(** The program starts without objects (no counterpart in /repo: state before the first constructor, SMO.hpp:74-81). *)
Definition world0 : world := mkWorld [] [].

(** An object that is still there; the use of another one is undefined. No counterpart in /repo: the meaning of [->] at
    DualClassifier.hpp:39. *)
Definition obj {A} (l : list (option A)) (i : nat) : outcome A :=
  match nth_error l i with Some (Some a) => Ok a | _ => UB end.
(** Reading through the member pointer kernel, DualClassifier.hpp:25, 39. *)
Definition deref (h : list (option kernel)) (p : option nat) : outcome kernel :=
  match p with Some a => obj h a | None => UB end.
(** delete kernel, SMO.hpp:89, 108. *)
Definition kfree (h : list (option kernel)) (a : nat) : outcome (list (option kernel)) :=
  let* _ := obj h a in vupd a (fun _ => None) h.
(** if(kernel) delete kernel, SMO.hpp:89, 108. *)
Definition release (h : list (option kernel)) (p : option nat) : outcome (list (option kernel)) :=
  match p with Some a => kfree h a | None => Ok h end.
(** Writing to the object behind the pointer: kernel->compute, setType, setParam, recompute (DualClassifier.hpp:46, 62-74). *)
Definition kput (h : list (option kernel)) (a : nat) (k : kernel) : outcome (list (option kernel)) :=
  vupd a (fun _ => Some k) h.
(** Writing the classifier back after a member function changed it, DualClassifier.hpp:46-74. *)
Definition put (w : world) (h : list (option kernel)) (i : nat) (l : option learner) : outcome world :=
  let* ls := vupd i (fun _ => l) (w_learners w) in Ok (mkWorld h ls).

(** Every entry of the first [n] rows and columns is there: the entries a training of [n] samples reads, Perceptron.hpp:431-432, 437,
    512-516. *)
Definition covers (K : list (list R)) (n : nat) : bool :=
  forallb (fun i => match nth_error K i with Some r => Nat.leb n (length r) | None => false end) (seq 0 n).

(** What a program does with dual classifiers; a classifier is addressed by its number in order of creation.
    [New]: SMO.hpp:74-81, Perceptron.hpp:376-386, IMA.hpp:537-551; [NewPlain]: Perceptron.hpp:388-398; [Copy]: the implicit copy constructor
    (DualClassifier.hpp:16, Classifier.hpp:36-40), as called at OneVsOne.hpp:47, 71 and OneVsAll.hpp:41; [SetSamples]: Learner.hpp:150-155;
    [SetType], [SetParam], [Recompute]: DualClassifier.hpp:46, 62-74; [Train]: SMO.hpp:92-153, Perceptron.hpp:401-464, IMA.hpp:553-707;
    [Destroy]: SMO.hpp:83-90 and the implicit destructors. *)
Inductive lop :=
| New (k : kind) (t : ktype) (p : R) (d : data R)
| NewPlain (d : data R)
| Copy (i : nat)
| SetSamples (i : nat) (d : data R)
| SetType (i : nat) (t : ktype)
| SetParam (i : nat) (p : R)
| Recompute (i : nat)
| Train (i : nat)
| Destroy (i : nat).

Section Copies.
Variable pw : R -> R -> R.
(** The numbers a training computes: alpha by index, bias and norm. *)
Variable slv : kind -> list (list R) -> data R -> vec -> sol -> (nat -> R) * R * R.

(** A solution with [n] alphas out of a training, SMO.hpp:128-135, Perceptron.hpp:451-453, IMA.hpp:682-685. *)
Definition solved (k : kind) (K : list (list R)) (d : data R) (a : vec) (s : sol) (n : nat) : sol :=
  let r := slv k K d a s in mkSol (map (fst (fst r)) (seq 0 n)) (snd (fst r)) (snd r).

(** SMO.hpp:74-81: no kernel object; Perceptron.hpp:376-386, IMA.hpp:537-551: a new kernel object, and the members kernel_type and
    kernel_param keep their defaults (DualClassifier.hpp:22-23). *)
Definition construct (w : world) (k : kind) (t : ktype) (p : R) (d : data R) : world :=
  match k with
  | Smo => mkWorld (w_heap w) (w_learners w ++ [Some (mkLearner Smo t p None d [] sol0)])
  | _ => mkWorld (w_heap w ++ [Some (kernel_make t p)])
           (w_learners w ++ [Some (mkLearner k InnerProduct 0 (Some (length (w_heap w))) d [] sol0)])
  end.
(** Perceptron.hpp:388-398. *)
Definition construct_plain (w : world) (d : data R) : world :=
  mkWorld (w_heap w) (w_learners w ++ [Some (mkLearner Perc InnerProduct 0 None d [] sol0)]).
(** DualClassifier.hpp:16-25: the implicit copy constructor copies the pointer; Classifier.hpp:36-40: the base copies neither the solution nor
    the support vectors; Learner.hpp:56-70. *)
Definition copy_of (l : learner) : learner :=
  mkLearner (l_kind l) (l_type l) (l_param l) (l_kernel l) (l_samples l) (l_alpha l) sol0.

(** SMO.hpp:92-153: the old kernel object is deleted, a new one is allocated and computed. *)
Definition train_smo (w : world) (i : nat) (l : learner) : outcome world :=
  let d := l_samples l in
  let* h := release (w_heap w) (l_kernel l) in
  let* k := compute pw (kernel_make (l_type l) (l_param l)) d None in
  let s := solved Smo (k_K k) d [] sol0 (size d) in
  put w (h ++ [Some k]) i (Some (mkLearner Smo (l_type l) (l_param l) (Some (length h)) d (repeat 0%R (size d)) s)).

(** Perceptron.hpp:401-464: a kernel object is allocated when there is none (line 411); alpha is set up only when it is empty (416-418). *)
Definition train_perc (w : world) (i : nat) (l : learner) : outcome world :=
  let d := l_samples l in
  let hp := match l_kernel l with
            | Some a => (w_heap w, a)
            | None => (w_heap w ++ [Some (kernel_make InnerProduct 0)], length (w_heap w)) end in
  let* k := obj (fst hp) (snd hp) in
  let* k1 := compute pw k d None in
  let* h := kput (fst hp) (snd hp) k1 in
  let a := match l_alpha l with [] => repeat 0%R (size d) | al => al end in
  if covers (k_K k1) (size d) && Nat.leb (size d) (length a) then
    let s := solved Perc (k_K k1) d (l_alpha l) (l_sol l) (length a) in
    put w h i (Some (mkLearner Perc (l_type l) (l_param l) (Some (snd hp)) d (so_alpha s) s))
  else UB.

(** IMA.hpp:553-707: the kernel object must be there (567); the inner PerceptronFixedMarginDual gets the pointer (595) and its own alpha
    vector, which stays 0 (Perceptron.hpp:491-493). *)
Definition train_ima (w : world) (i : nat) (l : learner) : outcome world :=
  let d := l_samples l in
  match l_kernel l with
  | None => UB
  | Some a =>
      let* k := obj (w_heap w) a in
      let* k1 := compute pw k d None in
      let* h := kput (w_heap w) a k1 in
      if covers (k_K k1) (size d) then
        let s := solved Ima (k_K k1) d [] sol0 (size d) in
        put w h i (Some (mkLearner Ima (l_type l) (l_param l) (Some a) d (repeat 0%R (size d)) s))
      else UB
  end.

(** train() of the three classes, SMO.hpp:92-153, Perceptron.hpp:401-464, IMA.hpp:553-707. *)
Definition train_op (w : world) (i : nat) : outcome world :=
  let* l := obj (w_learners w) i in
  match l_kind l with
  | Smo => train_smo w i l
  | Perc => train_perc w i l
  | Ima => train_ima w i l
  end.

(** SMO.hpp:83-90 (head is null after every training, int_dll.cpp:98); the other classes have no destructor, their kernel object stays. *)
Definition destroy (w : world) (i : nat) : outcome world :=
  let* l := obj (w_learners w) i in
  match l_kind l with
  | Smo => let* h := release (w_heap w) (l_kernel l) in put w h i None
  | _ => put w (w_heap w) i None
  end.

(** Changing the kernel object when there is one, DualClassifier.hpp:46, 62-74. *)
Definition on_kernel (w : world) (i : nat) (f : learner -> learner) (g : kernel -> kernel) : outcome world :=
  let* l := obj (w_learners w) i in
  match l_kernel l with
  | None => put w (w_heap w) i (Some (f l))
  | Some a => let* k := obj (w_heap w) a in let* h := kput (w_heap w) a (g k) in put w h i (Some (f l))
  end.
(** DualClassifier.hpp:62-65. *)
Definition set_type (t : ktype) (l : learner) : learner :=
  mkLearner (l_kind l) t (l_param l) (l_kernel l) (l_samples l) (l_alpha l) (l_sol l).
(** DualClassifier.hpp:71-74. *)
Definition set_param (p : R) (l : learner) : learner :=
  mkLearner (l_kind l) (l_type l) p (l_kernel l) (l_samples l) (l_alpha l) (l_sol l).
(** Learner.hpp:150-155. *)
Definition set_samples (d : data R) (l : learner) : learner :=
  mkLearner (l_kind l) (l_type l) (l_param l) (l_kernel l) d (l_alpha l) (l_sol l).

(** One step of a program; the citations are with [lop] (SMO.hpp:74-153, DualClassifier.hpp:46-74). *)
Definition lstep (w : world) (o : lop) : outcome world :=
  match o with
  | New k t p d => Ok (construct w k t p d)
  | NewPlain d => Ok (construct_plain w d)
  | Copy i => let* l := obj (w_learners w) i in Ok (mkWorld (w_heap w) (w_learners w ++ [Some (copy_of l)]))
  | SetSamples i d => let* l := obj (w_learners w) i in put w (w_heap w) i (Some (set_samples d l))
  | SetType i t => on_kernel w i (set_type t) (setType t)
  | SetParam i p => on_kernel w i (set_param p) (setParam p)
  | Recompute i => on_kernel w i (fun l => l) recompute
  | Train i => train_op w i
  | Destroy i => destroy w i
  end.

(** A program: its steps in order (no counterpart in /repo: the caller, e.g. OneVsOne.hpp:86-119). *)
Fixpoint lrun (w : world) (ops : list lop) : outcome world :=
  match ops with
  | [] => Ok w
  | o :: r => let* w1 := lstep w o in lrun w1 r
  end.

(** DualClassifier.hpp:28-44: evaluate; the kernel object is used for every sample. *)
Definition answer (w : world) (i : nat) (p : point R) : outcome Z :=
  let* l := obj (w_learners w) i in
  if negb (Nat.eqb (length (p_x p)) (dim (l_samples l))) then Ok 0%Z
  else if Nat.eqb (size (l_samples l)) 0 then Ok (if Rle_dec 0 (so_bias (l_sol l)) then 1%Z else (-1)%Z)
  else let* k := deref (w_heap w) (l_kernel l) in
       dual_evaluate pw k (l_samples l) (so_alpha (l_sol l)) (so_bias (l_sol l)) p.

(** OneVsOne.hpp:30-53 and OneVsAll.hpp:30-44 (the constructors) make [n] copies of classifier [i]. *)
Definition copies (i n : nat) : list lop := repeat (Copy i) n.
(** OneVsOne.hpp:112-113, OneVsAll.hpp:77-78: the copies number [j], [j+1], ... get their samples and are trained in turn. *)
Fixpoint trainings (j : nat) (ds : list (data R)) : list lop :=
  match ds with
  | [] => []
  | d :: r => SetSamples j d :: Train j :: trainings (S j) r
  end.
End Copies.
