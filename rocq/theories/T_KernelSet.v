(** C134: a kernel matrix given from outside. *)
From Coq Require Import ZArith Bool List Lia Reals Lra.
From Verif Require Import Base ListLib M_Data M_Point L_Vec Loop M_Kernel S_Kernel L_Kernel T_Kernel M_KernelSet S_KernelSet.
Import ListNotations.
Local Open Scope R_scope.

Lemma kcalls_memo pw : forall cs k s k', Forall usual cs -> k_type k <> Custom -> k_K k = matrix_of pw (m_src s) -> k_type k = m_type s -> k_param k = m_par s -> k_computed k = m_done s ->
  kcalls pw cs k = Ok k' ->
  k_K k' = matrix_of pw (m_src (fold_left remember cs s)) /\ k_type k' = m_type (fold_left remember cs s) /\ k_param k' = m_par (fold_left remember cs s) /\ k_computed k' = m_done (fold_left remember cs s).
Proof.
  unfold kcalls. induction cs as [|c r IH]; intros k s k' HP HT HK Ht Hp Hc E; cbn [ofold fold_left] in *; [injection E as <-; auto|].
  inversion HP as [|? ? Hu Hr]; subst. destruct (kcalled pw k c) as [k1| |] eqn:E1; try discriminate. cbn [obind] in E.
  destruct c as [[d f|t|p| |d|d j]|m]; cbn [kcalled kapply] in E1; cbn [remember usual] in *.
  - destruct (m_done s) eqn:D.
    + unfold compute in E1. rewrite Hc in E1. injection E1 as <-. apply (IH k); auto. congruence.
    + destruct (c29_compute pw k d f (fun _ _ _ => 0) Hc Hu) as (k2 & E2 & HK2 & _); [intro; tauto|].
      destruct (compute_ok pw k d f (fun _ _ _ => 0) Hc Hu) as (k3 & E3 & T3 & P3 & C3 & _); [intro; tauto|].
      rewrite E1 in E2, E3. injection E2 as <-. injection E3 as <-. apply (IH k1); auto; cbn [m_src m_type m_par m_done matrix_of]; try congruence.
      rewrite HK2, Ht, Hp. reflexivity.
  - injection E1 as <-. apply (IH (setType t k)); auto.
  - injection E1 as <-. apply (IH (setParam p k)); auto.
  - injection E1 as <-. apply (IH (recompute k)); auto.
  - unfold generateH in E1. destruct (ofold _ _ _); try discriminate. injection E1 as <-. eapply IH; [exact Hr| | | | | |exact E]; auto.
  - unfold generateHwd in E1. destruct (ofold _ _ _); try discriminate. injection E1 as <-. eapply IH; [exact Hr| | | | | |exact E]; auto.
  - injection E1 as <-. apply (IH (setKernelMatrix m k)); auto.
Qed.

(** C134: after any history of calls on a kernel object built with a type and parameter, the matrix is the one the caller can follow by remembering its
    last source, the type and parameter at that time, and whether a compute() has happened since the last setType, setParam or recompute. *)
Lemma c134_history : forall (pw : R -> R -> R) (t : ktype) (par : R) (cs : list kcall) (k : kernel), t <> Custom -> Forall usual cs ->
  kcalls pw cs (kernel_make t par) = Ok k -> k_K k = matrix_of pw (m_src (fold_left remember cs (mkMemo (Given []) t par false))).
Proof. intros pw t par cs k HT HU E. apply (kcalls_memo pw cs (kernel_make t par) (mkMemo (Given []) t par false) k); auto. Qed.
(** C134: the same for an object built from a matrix: it has the inner product, parameter 0, and no compute() behind it. *)
Lemma c134_of_matrix : forall (pw : R -> R -> R) (m : list (list R)) (cs : list kcall) (k : kernel), Forall usual cs ->
  kcalls pw cs (kernel_of_matrix m) = Ok k -> k_K k = matrix_of pw (m_src (fold_left remember cs (mkMemo (Given m) InnerProduct 0 false))).
Proof. intros pw m cs k HU E. apply (kcalls_memo pw cs (kernel_of_matrix m) (mkMemo (Given m) InnerProduct 0 false) k); auto. discriminate. Qed.
(** C134: a matrix given after a compute() stays, whatever datasets are computed next. *)
Lemma c134_kept : forall (pw : R -> R -> R) (t : ktype) (par : R) (d : data R) (f : option custom) (m : list (list R)) (ds : list (data R)) (k : kernel), t <> Custom -> rect d -> Forall rect ds ->
  kcalls pw (KCall (KCompute d f) :: KGive m :: map (fun e => KCall (KCompute e f)) ds) (kernel_make t par) = Ok k -> k_K k = m.
Proof.
  intros pw t par d f m ds k HT Hd Hds E. rewrite (c134_history pw t par _ k HT) with (2 := E).
  - cbn [fold_left remember m_done m_src m_type m_par].
    assert (forall s, m_done s = true -> fold_left remember (map (fun e => KCall (KCompute e f)) ds) s = s) as G.
    { clear. induction ds as [|e ds IH]; intros s D; [reflexivity|]. cbn [map fold_left remember]. rewrite D. apply IH. exact D. }
    rewrite G by reflexivity. reflexivity.
  - constructor; [exact Hd|]. constructor; [exact I|]. apply Forall_forall. intros c Hc. apply in_map_iff in Hc. destruct Hc as (e & <- & He). cbn. rewrite Forall_forall in Hds. auto.
Qed.
(** C134: but the matrix an object was built from, or that was given before the first compute(), is replaced by the first compute() (every training calls it):
    the result does not depend on it. *)
Lemma c134_lost_refuted : forall (pw : R -> R -> R) (m : list (list R)) (d : data R) (f : option custom), rect d ->
  exists k, kcalls pw [KCall (KCompute d f)] (kernel_of_matrix m) = Ok k /\ k_K k = table (size d) (fun i j => inner (dim d) (p_x (pt d i)) (p_x (pt d j))).
Proof.
  intros pw m d f HR. destruct (compute_ok pw (kernel_of_matrix m) d f (fun _ _ _ => 0)) as (k & E & _); [reflexivity|exact HR|discriminate|]. exists k.
  assert (kcalls pw [KCall (KCompute d f)] (kernel_of_matrix m) = Ok k) as E' by (unfold kcalls; cbn [ofold kcalled kapply]; rewrite E; reflexivity).
  split; [exact E'|]. rewrite (c134_of_matrix pw m _ k) with (2 := E') by (constructor; [exact HR|constructor]). reflexivity.
Qed.
(** C134: operator[] gives a row of the matrix, and stops outside it. *)
Lemma c134_row : forall (k : kernel) (i : nat), (exists r, nth_error (k_K k) i = Some r /\ krow k i = Ok r) \/ ((length (k_K k) <= i)%nat /\ krow k i = Abort).
Proof. intros k i. unfold krow. destruct (nth_error (k_K k) i) as [r|] eqn:E; [left; exists r; auto|right]. split; [apply nth_error_None; exact E|reflexivity]. Qed.
(** C134: the kernel of two points is the kernel value, for points of one size; other sizes stop; a custom kernel has no function here and stops unless a
    compute() stored one. *)
Lemma c134_pair : forall (pw : R -> R -> R) (k : kernel) (a b : point R), k_type k <> Custom ->
  kpair pw k a b = if Nat.eqb (length (p_x a)) (length (p_x b)) then Ok (kval pw (k_type k) (k_param k) (fun _ _ _ => 0) (length (p_x a)) a b) else Abort.
Proof.
  intros pw k a b HT. unfold kpair. destruct (Nat.eqb_spec (length (p_x a)) (length (p_x b))) as [L|L]; [|reflexivity].
  apply kfun_ok; [intro K; contradiction|lia|lia].
Qed.
Lemma c134_custom : forall (pw : R -> R -> R) (k : kernel) (d : data R) (g : custom), k_type k = Custom -> kdata pw k d None = Abort /\ kdata pw k d (Some g) = compute pw k d (Some g).
Proof. intros pw k d g HT. unfold kdata. rewrite HT. auto. Qed.
Lemma c134_history_ex : Forall usual [KGive [[7]]; KCall (KCompute kex None); KCall (KSetParam 3); KGive [[8]]; KCall (KCompute kex1 None)] /\
  m_src (fold_left remember [KGive [[7]]; KCall (KCompute kex None); KCall (KSetParam 3); KGive [[8]]; KCall (KCompute kex1 None)] (mkMemo (Given []) Gaussian 1 false)) = Of kex1 Gaussian 3 /\
  m_src (fold_left remember [KCall (KCompute kex None); KGive [[8]]; KCall (KCompute kex1 None)] (mkMemo (Given []) Gaussian 1 false)) = Given [[8]].
Proof. split; [repeat constructor; [apply rect_kex|apply rect_kex1]|]. split; reflexivity. Qed.
Lemma c134_of_matrix_ex : exists k, kcalls Rpower [KCall (KSetParam 3)] (kernel_of_matrix [[7]]) = Ok k /\ k_K k = [[7]] /\ Forall usual [KCall (KSetParam 3)].
Proof. eexists. split; [reflexivity|]. split; [reflexivity|]. repeat constructor. Qed.
Lemma c134_kept_ex : exists k, kcalls Rpower [KCall (KCompute kex None); KGive [[8]]; KCall (KCompute kex1 None)] (kernel_make Gaussian 1) = Ok k /\ rect kex /\ Forall rect [kex1].
Proof.
  destruct (compute_ok Rpower (kernel_make Gaussian 1) kex None (fun _ _ _ => 0)) as (k1 & E1 & T1 & P1 & C1 & _); [reflexivity|apply rect_kex|discriminate|].
  exists (setKernelMatrix [[8]] k1). split; [|split; [apply rect_kex|repeat constructor; apply rect_kex1]].
  unfold kcalls. cbn [ofold kcalled kapply]. rewrite E1. cbn [obind]. unfold compute. cbn [setKernelMatrix k_computed]. rewrite C1. reflexivity.
Qed.
Lemma c134_lost_refuted_ex : rect kex /\ size kex = 2%nat.
Proof. split; [apply rect_kex|reflexivity]. Qed.
Lemma c134_row_ex : krow (kernel_of_matrix [[7; 1]; [1; 5]]) 1 = Ok [1; 5] /\ krow (kernel_of_matrix [[7; 1]; [1; 5]]) 2 = Abort.
Proof. split; reflexivity. Qed.
Lemma c134_pair_ex : k_type (kernel_make InnerProduct 0) <> Custom /\ kpair Rpower (kernel_make InnerProduct 0) (mkPoint [1; 2] 1%Z 1%Z 0) (mkPoint [3] 1%Z 1%Z 0) = Abort.
Proof. split; [discriminate|reflexivity]. Qed.
Lemma c134_custom_ex : k_type (kernel_make Custom 0) = Custom.
Proof. reflexivity. Qed.
