(** Property theorems: C134: a kernel matrix given from outside.
    Each is closed by the lemma of the same (lower-case) name in T_KernelSet.v. *)
From Coq Require Import ZArith Bool List Lia Reals Lra.
From Verif Require Import Base ListLib M_Data M_Point L_Vec Loop M_Kernel S_Kernel L_Kernel T_Kernel M_KernelSet S_KernelSet.
From Verif Require Import T_KernelSet.
Import ListNotations.
Local Open Scope R_scope.

(** C134: after any history of calls on a kernel object built with a type and parameter, the matrix is the one the caller can follow by remembering its
    last source, the type and parameter at that time, and whether a compute() has happened since the last setType, setParam or recompute. *)
Theorem C134_history : forall (pw : R -> R -> R) (t : ktype) (par : R) (cs : list kcall) (k : kernel), t <> Custom -> Forall usual cs ->
  kcalls pw cs (kernel_make t par) = Ok k -> k_K k = matrix_of pw (m_src (fold_left remember cs (mkMemo (Given []) t par false))).
Proof. exact c134_history. Qed.
Print Assumptions C134_history.

(** C134: the same for an object built from a matrix: it has the inner product, parameter 0, and no compute() behind it. *)
Theorem C134_of_matrix : forall (pw : R -> R -> R) (m : list (list R)) (cs : list kcall) (k : kernel), Forall usual cs ->
  kcalls pw cs (kernel_of_matrix m) = Ok k -> k_K k = matrix_of pw (m_src (fold_left remember cs (mkMemo (Given m) InnerProduct 0 false))).
Proof. exact c134_of_matrix. Qed.
Print Assumptions C134_of_matrix.

(** C134: a matrix given after a compute() stays, whatever datasets are computed next. *)
Theorem C134_kept : forall (pw : R -> R -> R) (t : ktype) (par : R) (d : data R) (f : option custom) (m : list (list R)) (ds : list (data R)) (k : kernel), t <> Custom -> rect d -> Forall rect ds ->
  kcalls pw (KCall (KCompute d f) :: KGive m :: map (fun e => KCall (KCompute e f)) ds) (kernel_make t par) = Ok k -> k_K k = m.
Proof. exact c134_kept. Qed.
Print Assumptions C134_kept.

(** C134: but the matrix an object was built from, or that was given before the first compute(), is replaced by the first compute() (every training calls it):
    the result does not depend on it. *)
Theorem C134_lost_refuted : forall (pw : R -> R -> R) (m : list (list R)) (d : data R) (f : option custom), rect d ->
  exists k, kcalls pw [KCall (KCompute d f)] (kernel_of_matrix m) = Ok k /\ k_K k = table (size d) (fun i j => inner (dim d) (p_x (pt d i)) (p_x (pt d j))).
Proof. exact c134_lost_refuted. Qed.
Print Assumptions C134_lost_refuted.

(** C134: operator[] gives a row of the matrix, and stops outside it. *)
Theorem C134_row : forall (k : kernel) (i : nat), (exists r, nth_error (k_K k) i = Some r /\ krow k i = Ok r) \/ ((length (k_K k) <= i)%nat /\ krow k i = Abort).
Proof. exact c134_row. Qed.
Print Assumptions C134_row.

(** C134: the kernel of two points is the kernel value, for points of one size; other sizes stop; a custom kernel has no function here and stops unless a
    compute() stored one. *)
Theorem C134_pair : forall (pw : R -> R -> R) (k : kernel) (a b : point R), k_type k <> Custom ->
  kpair pw k a b = if Nat.eqb (length (p_x a)) (length (p_x b)) then Ok (kval pw (k_type k) (k_param k) (fun _ _ _ => 0) (length (p_x a)) a b) else Abort.
Proof. exact c134_pair. Qed.
Print Assumptions C134_pair.

Theorem C134_custom : forall (pw : R -> R -> R) (k : kernel) (d : data R) (g : custom), k_type k = Custom -> kdata pw k d None = Abort /\ kdata pw k d (Some g) = compute pw k d (Some g).
Proof. exact c134_custom. Qed.
Print Assumptions C134_custom.

Example C134_history_ex : Forall usual [KGive [[7]]; KCall (KCompute kex None); KCall (KSetParam 3); KGive [[8]]; KCall (KCompute kex1 None)] /\
  m_src (fold_left remember [KGive [[7]]; KCall (KCompute kex None); KCall (KSetParam 3); KGive [[8]]; KCall (KCompute kex1 None)] (mkMemo (Given []) Gaussian 1 false)) = Of kex1 Gaussian 3 /\
  m_src (fold_left remember [KCall (KCompute kex None); KGive [[8]]; KCall (KCompute kex1 None)] (mkMemo (Given []) Gaussian 1 false)) = Given [[8]].
Proof. exact c134_history_ex. Qed.

Example C134_of_matrix_ex : exists k, kcalls Rpower [KCall (KSetParam 3)] (kernel_of_matrix [[7]]) = Ok k /\ k_K k = [[7]] /\ Forall usual [KCall (KSetParam 3)].
Proof. exact c134_of_matrix_ex. Qed.

Example C134_kept_ex : exists k, kcalls Rpower [KCall (KCompute kex None); KGive [[8]]; KCall (KCompute kex1 None)] (kernel_make Gaussian 1) = Ok k /\ rect kex /\ Forall rect [kex1].
Proof. exact c134_kept_ex. Qed.

Example C134_lost_refuted_ex : rect kex /\ size kex = 2%nat.
Proof. exact c134_lost_refuted_ex. Qed.

Example C134_row_ex : krow (kernel_of_matrix [[7; 1]; [1; 5]]) 1 = Ok [1; 5] /\ krow (kernel_of_matrix [[7; 1]; [1; 5]]) 2 = Abort.
Proof. exact c134_row_ex. Qed.

Example C134_pair_ex : k_type (kernel_make InnerProduct 0) <> Custom /\ kpair Rpower (kernel_make InnerProduct 0) (mkPoint [1; 2] 1%Z 1%Z 0) (mkPoint [3] 1%Z 1%Z 0) = Abort.
Proof. exact c134_pair_ex. Qed.

Example C134_custom_ex : k_type (kernel_make Custom 0) = Custom.
Proof. exact c134_custom_ex. Qed.

