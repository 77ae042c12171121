(** Specification of one update of the fixed-margin trainers. *)
From Coq Require Import List Reals.
From Verif Require Import M_Data M_Point L_Vec M_Fixed.
Import ListNotations.
Local Open Scope R_scope.

(** The largest absolute value of v 0, ..., v (n-1). *)
Fixpoint largest (n : nat) (v : nat -> R) : R := match n with O => 0 | S k => Rmax (largest k v) (Rabs (v k)) end.
(** The norm that the trainer of each formulation works with. *)
Definition norm_at (pw : R -> R -> R) (kind : qnorm) (n : nat) (v : nat -> R) : R :=
  match kind with
  | Linf => sumn n (fun j => Rabs (v j))
  | L2 => sqrt (sumn n (fun j => v j * v j))
  | Lp q => pw (sumn n (fun j => pw (Rabs (v j)) q)) (1 / q)
  | L1 => largest n v
  end.
(** [pw] is the power function of positive bases, and 0 at base 0 and positive exponents. *)
Definition power (pw : R -> R -> R) : Prop := (forall x q, 0 < x -> pw x q = Rpower x q) /\ forall q, 0 < q -> pw 0 q = 0.
(** The weights [w] with [t] at position [j]. *)
Definition with_coord (w : list R) (j : nat) (t : R) : nat -> R := fun i => if Nat.eqb i j then t else nz w i.
(** The absolute value of [a] is within the relative tolerance [eps] of [top], which is not 0. *)
Definition within (eps top a : R) : Prop := top <> 0 /\ Rabs (top - Rabs a) / top < eps.
