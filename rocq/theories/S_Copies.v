(** Specification for copies of dual classifiers: the same programs when every classifier holds its kernel as a value of its own. *)
From Coq Require Import ZArith Bool List Reals.
From Verif Require Import Base M_Data M_Point L_Vec Loop M_Kernel S_Kernel M_Perc S_Perc M_Copies.
Import ListNotations.
Local Open Scope nat_scope.

(** The kernel matrix of a dataset: the table of the kernel values of its points. *)
Definition gram (pw : R -> R -> R) (t : ktype) (p : R) (d : data R) : list (list R) :=
  table (size d) (fun i j => kval pw t p (fun _ _ _ => 0%R) (dim d) (pt d i) (pt d j)).

(** A classifier with a kernel of its own. Three flags describe the kernel object of the real one, for the rules below: it exists, it may be
    shared with another classifier, no matrix is stored in it. *)
Record vlearner := mkV {
  v_kind : kind; v_type : ktype; v_param : R; v_samples : data R; v_alpha : vec; v_sol : sol;
  v_own : bool; v_shared : bool; v_clean : bool }.

(** Classifier number [i], if it has not been destroyed. *)
Definition vobj (vs : list (option vlearner)) (i : nat) : option vlearner :=
  match nth_error vs i with Some (Some v) => Some v | _ => None end.
(** Replace classifier number [i]. *)
Definition vput (vs : list (option vlearner)) (i : nat) (v : option vlearner) : option (list (option vlearner)) :=
  upd i (fun _ => v) vs.

Section Values.
Variable pw : R -> R -> R.
Variable slv : kind -> list (list R) -> data R -> vec -> sol -> (nat -> R) * R * R.

(** The solution a training computes from the matrix [K]: [n] alphas, the bias and the norm. *)
Definition outcome_of (k : kind) (K : list (list R)) (d : data R) (a : vec) (s : sol) (n : nat) : sol :=
  match slv k K d a s with (f, b, m) => mkSol (map f (seq 0 n)) b m end.

(** A training sees the kernel matrix of the samples of the classifier, for its kernel type and parameter. A perceptron starts from the
    alphas it has, which must not be fewer than the samples. *)
Definition vtrain (v : vlearner) : option vlearner :=
  let d := v_samples v in let K := gram pw (v_type v) (v_param v) d in
  match v_kind v with
  | Smo => Some (mkV Smo (v_type v) (v_param v) d (repeat 0%R (size d)) (outcome_of Smo K d [] sol0 (size d)) true false false)
  | Ima => Some (mkV Ima (v_type v) (v_param v) d (repeat 0%R (size d)) (outcome_of Ima K d [] sol0 (size d)) true (v_shared v) false)
  | Perc =>
      let n := match v_alpha v with [] => size d | a => length a end in
      if Nat.leb (size d) n then
        let s := outcome_of Perc K d (v_alpha v) (v_sol v) n in
        Some (mkV Perc (v_type v) (v_param v) d (so_alpha s) s true (v_shared v) false)
      else None
  end.

(** One step. *)
Definition vstep (vs : list (option vlearner)) (o : lop) : option (list (option vlearner)) :=
  match o with
  | New k t p d => Some (vs ++ [Some (mkV k t p d [] sol0 (match k with Smo => false | _ => true end) false true)])
  | NewPlain d => Some (vs ++ [Some (mkV Perc InnerProduct 0 d [] sol0 false false true)])
  | Copy i =>
      match vobj vs i with
      | None => None
      | Some v =>
          let s := v_own v in
          match vput vs i (Some (mkV (v_kind v) (v_type v) (v_param v) (v_samples v) (v_alpha v) (v_sol v) (v_own v) s (v_clean v))) with
          | None => None
          | Some vs1 => Some (vs1 ++ [Some (mkV (v_kind v) (v_type v) (v_param v) (v_samples v) (v_alpha v) sol0 (v_own v) s (v_clean v))])
          end
      end
  | SetSamples i d =>
      match vobj vs i with
      | None => None
      | Some v => vput vs i (Some (mkV (v_kind v) (v_type v) (v_param v) d (v_alpha v) (v_sol v) (v_own v) (v_shared v) (v_clean v)))
      end
  | SetType i t =>
      match vobj vs i with
      | None => None
      | Some v => vput vs i (Some (mkV (v_kind v) t (v_param v) (v_samples v) (v_alpha v) (v_sol v) (v_own v) (v_shared v) true))
      end
  | SetParam i p =>
      match vobj vs i with
      | None => None
      | Some v => vput vs i (Some (mkV (v_kind v) (v_type v) p (v_samples v) (v_alpha v) (v_sol v) (v_own v) (v_shared v) true))
      end
  | Recompute i =>
      match vobj vs i with
      | None => None
      | Some v => vput vs i (Some (mkV (v_kind v) (v_type v) (v_param v) (v_samples v) (v_alpha v) (v_sol v) (v_own v) (v_shared v) true))
      end
  | Train i =>
      match vobj vs i with
      | None => None
      | Some v => match vtrain v with None => None | Some v1 => vput vs i (Some v1) end
      end
  | Destroy i => match vobj vs i with None => None | Some _ => vput vs i None end
  end.

(** The rules: no custom kernel function; an SMO that has been trained is not copied; the kernel of another classifier is not changed while
    it has none or may share it; and another classifier is trained right after recomputeKernel(), or when it shares its kernel with nobody and
    has no matrix in it. [prev] is the step before. *)
Definition allowed (vs : list (option vlearner)) (prev : option lop) (o : lop) : Prop :=
  match o with
  | New _ t _ _ => t <> Custom
  | Copy i => forall v, vobj vs i = Some v -> v_kind v = Smo -> v_own v = false
  | SetType i t => t <> Custom /\ forall v, vobj vs i = Some v -> v_kind v = Smo \/ (v_own v = true /\ v_shared v = false)
  | SetParam i _ => forall v, vobj vs i = Some v -> v_kind v = Smo \/ (v_own v = true /\ v_shared v = false)
  | Train i => forall v, vobj vs i = Some v ->
      rect (v_samples v) /\
      (v_kind v = Smo \/ prev = Some (Recompute i) \/ (v_shared v = false /\ v_clean v = true))
  | _ => True
  end.

(** A program that keeps the rules, and reaches [vs] when every classifier has its own kernel. *)
Inductive polite : list (option vlearner) -> option lop -> list lop -> list (option vlearner) -> Prop :=
| polite_end vs prev : polite vs prev [] vs
| polite_step vs prev o r vs1 vs2 : allowed vs prev o -> vstep vs o = Some vs1 -> polite vs1 (Some o) r vs2 -> polite vs prev (o :: r) vs2.

(** The answer of a trained classifier with a kernel of its own: the sign of the kernel expansion. *)
Definition vanswer (v : vlearner) (p : point R) : Z :=
  let d := v_samples v in
  if Nat.eq_dec (length (p_x p)) (dim d)
  then if Rle_dec 0 (dual_value (kval pw (v_type v) (v_param v) (fun _ _ _ => 0%R) (dim d)) d (so_alpha (v_sol v)) (so_bias (v_sol v)) p)
       then 1%Z else (-1)%Z
  else 0%Z.
End Values.

(** What can be seen of the classifiers: their kind, samples and solution. *)
Definition looks (ls : list (option learner)) : list (option (kind * data R * sol)) :=
  map (option_map (fun l => (l_kind l, l_samples l, l_sol l))) ls.
Definition vlooks (vs : list (option vlearner)) : list (option (kind * data R * sol)) :=
  map (option_map (fun v => (v_kind v, v_samples v, v_sol v))) vs.

(** The step deletes the kernel object of classifier [i] when it is an SMO. *)
Definition releases (i : nat) (o : lop) : Prop := o = Train i \/ o = Destroy i.
(** The step creates an SMO. *)
Definition makes_smo (o : lop) : Prop := match o with New Smo _ _ _ => True | _ => False end.
(** The step creates a classifier of another kind. *)
Definition makes_other (o : lop) : Prop := match o with New Smo _ _ _ => False | New _ _ _ _ => True | NewPlain _ => True | _ => False end.
(** The step allocates a kernel object in a constructor. *)
Definition allocates (o : lop) : bool := match o with New Smo _ _ _ => false | New _ _ _ _ => true | _ => false end.
