(** Specification of kernels: values on vectors, Gram tables, positive semidefiniteness. *)
From Coq Require Import ZArith List Reals.
From Verif Require Import Base M_Data M_Point L_Vec Loop M_Kernel.
Import ListNotations.
Local Open Scope R_scope.

(** Inner product and squared distance of two vectors of length [n]. *)
Definition inner (n : nat) (x y : vec) : R := sumn n (fun i => nz x i * nz y i).
Definition dist2 (n : nat) (x y : vec) : R := sumn n (fun i => (nz x i - nz y i) * (nz x i - nz y i)).

(** The kernel value of two points of dimension [n]. *)
Definition kval (pw : R -> R -> R) (t : ktype) (par : R) (g : custom) (n : nat) (p q : point R) : R :=
  match t with
  | InnerProduct => inner n (p_x p) (p_x q)
  | Polynomial => if Rlt_dec 1 par then pw (inner n (p_x p) (p_x q)) par else inner n (p_x p) (p_x q)
  | Gaussian => exp (- (par * dist2 n (p_x p) (p_x q)))
  | Custom => g p q par
  | Other => 0
  end.

(** All points have the dimension the dataset reports. *)
Definition rect (d : data R) : Prop := forall p, In p (d_points d) -> length (p_x p) = dim d.
(** Point number [i]. *)
Definition pt (d : data R) (i : nat) : point R := nth i (d_points d) (mkPoint [] 0%Z 0%Z 0).

(** [m] is the n x n matrix whose upper triangle is [f] and whose lower triangle mirrors it. *)
Definition mirrors (n : nat) (f : nat -> nat -> R) (m : list (list R)) : Prop :=
  shape n (fun _ => n) m /\ forall i j, (i <= j < n)%nat -> mget m i j = Ok (f i j) /\ mget m j i = Ok (f i j).
(** [m] is symmetric. *)
Definition symmetric (n : nat) (m : list (list R)) : Prop := forall i j, (i < n)%nat -> (j < n)%nat -> mget m i j = mget m j i.
(** [m] is the n x n matrix [f] and is positive semidefinite. *)
Definition psd (n : nat) (f : nat -> nat -> R) : Prop :=
  forall c : nat -> R, 0 <= sumn n (fun i => sumn n (fun j => c i * c j * f i j)).
