(** Specification vocabulary for weight vectors of dual classifiers. *)
From Coq Require Import ZArith List Reals.
From Verif Require Import Base M_Data M_Point L_Vec M_Kernel S_Kernel.
Import ListNotations.
Local Open Scope R_scope.

(** The weight of feature [f] when the examples have the dual variables [a]: sum_i a_i y_i x_if. *)
Definition weight_of (d : data R) (a : nat -> R) (f : nat) : R :=
  sumn (size d) (fun i => a i * IZR (p_y (pt d i)) * nz (p_x (pt d i)) f).
(** The dual variables stored in the points. *)
Definition alpha_of (d : data R) (i : nat) : R := p_alpha (pt d i).
(** The point without coordinate [f]. *)
Definition without (f : nat) (p : point R) : point R :=
  mkPoint (firstn f (p_x p) ++ skipn (S f) (p_x p)) (p_y p) (p_id p) (p_alpha p).
(** The kernel value on the points without coordinate [f]; the polynomial kernel adds one to the inner product there. *)
Definition value_without (pw : R -> R -> R) (k : kernel) (d : data R) (f i j : nat) : R :=
  let x := p_x (without f (pt d i)) in let y := p_x (without f (pt d j)) in let n := (dim d - 1)%nat in
  match k_type k with
  | InnerProduct => inner n x y
  | Polynomial => if Rlt_dec 1 (k_param k) then pw (inner n x y + 1) (k_param k) else inner n x y
  | Gaussian => exp (- (k_param k * dist2 n x y))
  | _ => 0
  end.
(** The same with all coordinates. *)
Definition value_full (pw : R -> R -> R) (k : kernel) (d : data R) (i j : nat) : R :=
  let x := p_x (pt d i) in let y := p_x (pt d j) in let n := dim d in
  match k_type k with
  | InnerProduct => inner n x y
  | Polynomial => if Rlt_dec 1 (k_param k) then pw (inner n x y) (k_param k) else inner n x y
  | Gaussian => exp (- (k_param k * dist2 n x y))
  | _ => 0
  end.

