(** Specification vocabulary for the soft-margin dual that SMO solves. Examples are positions of the dataset, [y i] their labels, [k] the kernel matrix, [a] the dual variables. *)
From Coq Require Import ZArith List Reals.
From Verif Require Import Base M_Data M_Point L_Vec M_Kernel S_Kernel.
Import ListNotations.
Local Open Scope R_scope.

Definition label_at (d : data R) (i : nat) : R := IZR (p_y (pt d i)).
(** Feasibility: 0 <= a_i <= C and sum a_i y_i = 0. *)
Definition dual_feasible (C : R) (d : data R) (a : nat -> R) : Prop :=
  (forall i, (i < size d)%nat -> 0 <= a i <= C) /\ sumn (size d) (fun i => a i * label_at d i) = 0.
(** Decision value of example [i]. *)
Definition value_at (d : data R) (k : nat -> nat -> R) (a : nat -> R) (b : R) (i : nat) : R :=
  sumn (size d) (fun r => a r * label_at d r * k r i) + b.
(** Dual objective: sum a_i - 1/2 sum sum a_i a_r y_i y_r k(r, i). *)
Definition dual_objective (d : data R) (k : nat -> nat -> R) (a : nat -> R) : R :=
  sumn (size d) a - / 2 * sumn (size d) (fun i => a i * label_at d i * sumn (size d) (fun r => a r * label_at d r * k r i)).
(** [k] is a symmetric kernel matrix stored in [K]. *)
Definition kernel_matrix (n : nat) (K : list (list R)) (k : nat -> nat -> R) : Prop :=
  forall i j, (i < n)%nat -> (j < n)%nat -> (exists r, nth_error K i = Some r /\ nth_error r j = Some (k i j)) /\ k i j = k j i.
(** Squared feature-space distances are not negative / are positive between different examples. *)
Definition dist_nonneg (n : nat) (k : nat -> nat -> R) : Prop := forall i j, (i < n)%nat -> (j < n)%nat -> 0 <= k i i + k j j - 2 * k i j.
Definition dist_pos (n : nat) (k : nat -> nat -> R) : Prop := forall i j, (i < n)%nat -> (j < n)%nat -> i <> j -> 0 < k i i + k j j - 2 * k i j.
(** Optimality conditions of example [i] within the tolerance [tol]: y f >= 1 - tol unless a_i = C, and y f <= 1 + tol unless a_i = 0. *)
Definition optimal_at (C tol : R) (d : data R) (k : nat -> nat -> R) (a : nat -> R) (b : R) (i : nat) : Prop :=
  (a i < C -> 1 - tol <= label_at d i * value_at d k a b i) /\ (0 < a i -> label_at d i * value_at d k a b i <= 1 + tol).
(** The dual variables after example [j] gets the value [n] and example [i] compensates so that sum a y stays the same. *)
Definition moved (d : data R) (a : nat -> R) (i j : nat) (n : R) : nat -> R :=
  fun r => if Nat.eqb r j then n else if Nat.eqb r i then a i - label_at d i * label_at d j * (n - a j) else a r.
(** Both variables stay within [0, C]. *)
Definition in_box (C : R) (d : data R) (a : nat -> R) (i j : nat) (n : R) : Prop := 0 <= n <= C /\ 0 <= moved d a i j n i <= C.
(** The best value of example [j] along this line differs from its present value by less than eps * (new + old + eps). *)
Definition no_progress (C eps : R) (d : data R) (k : nat -> nat -> R) (a : nat -> R) (i j : nat) : Prop :=
  forall n, in_box C d a i j n -> (forall n', in_box C d a i j n' -> dual_objective d k (moved d a i j n') <= dual_objective d k (moved d a i j n)) ->
  Rabs (n - a j) < eps * (n + a j + eps).
