(** Property theorems: Property lemmas: copies of kernel classifiers.
    Each is closed by the lemma of the same (lower-case) name in T_Copies.v. *)
From Coq Require Import ZArith Bool List Lia Reals Lra.
From Verif Require Import Base ListLib M_Data M_Point L_Vec Loop M_Kernel S_Kernel L_Kernel T_Kernel M_Perc S_Perc L_Perc T_Perc M_Copies S_Copies L_Copies L_Copies2 L_Copies3 L_Copies4 L_Copies5.
From Verif Require Import T_Copies.
Import ListNotations.
Local Open Scope nat_scope.

(** C118: as long as the rules are kept (a trained SMO is not copied; the kernel of a perceptron or IMA is not changed while a copy may hold it;
    they train right after recomputeKernel(), or with a kernel nobody else holds and without a stored matrix), a program with copies does what it
    would do with a kernel of its own in every classifier: the same samples, solutions and answers. *)
Theorem C118_values : forall pw slv ops vs, polite pw slv [] None ops vs -> exists w, lrun pw slv world0 ops = Ok w /\
  looks (w_learners w) = vlooks vs /\
  forall i v p, nth_error vs i = Some (Some v) -> v_own v = true -> rect (v_samples v) -> length (so_alpha (v_sol v)) = size (v_samples v) ->
    answer pw w i p = Ok (vanswer pw v p).
Proof. exact c118_values. Qed.
Print Assumptions C118_values.

Example C118_values_ex : exists vs, polite Rpower (ones 0) [] None
  [New Perc Gaussian 2 pair1; Copy 0; SetSamples 1 triple; Recompute 1; Train 1; Recompute 0; Train 0; New Smo InnerProduct 0 pair1; Copy 2; Train 2; Train 3; Destroy 2] vs /\
  exists u, vlooks vs = [Some (Perc, pair1, mkSol [1; 1] 0 1); Some (Perc, triple, mkSol [1; 1; 1] 0 1); None; Some (Smo, pair1, u)]%R.
Proof. exact c118_values_ex. Qed.

(** C118 fails for a trained SMO that is copied: both hold the same kernel object and both delete it. Whatever the program does next, it cannot
    train or destroy both. *)
Theorem C118_copy_refuted : forall pw slv ops more i w l, lrun pw slv world0 ops = Ok w -> In (Train i) ops ->
  obj (w_learners w) i = Ok l -> l_kind l = Smo ->
  (exists o, In o more /\ releases i o) -> (exists o, In o more /\ releases (length (w_learners w)) o) ->
  forall w2, lrun pw slv world0 (ops ++ Copy i :: more) <> Ok w2.
Proof. exact c118_copy_refuted. Qed.
Print Assumptions C118_copy_refuted.

Example C118_copy_refuted_ex :
  let ops := [New Smo InnerProduct 0 pair1; Train 0] in
  (exists w l, lrun Rpower (ones 0) world0 ops = Ok w /\ obj (w_learners w) 0 = Ok l /\ l_kind l = Smo /\ length (w_learners w) = 1) /\
  lrun Rpower (ones 0) world0 (ops ++ [Copy 0; Destroy 1; Destroy 0]) = UB.
Proof. exact c118_copy_refuted_ex. Qed.

(** C118: with SMOs alone every kernel object is deleted: when the last classifier is destroyed none is left. *)
Theorem C118_freed : forall pw slv ops w, Forall (fun o => ~ makes_other o) ops -> lrun pw slv world0 ops = Ok w ->
  Forall (fun l => l = None) (w_learners w) -> Forall (fun k => k = None) (w_heap w).
Proof. exact c118_freed. Qed.
Print Assumptions C118_freed.

Example C118_freed_ex : exists w, let ops := [New Smo InnerProduct 0 pair1; Train 0; Train 0; Destroy 0] in
  Forall (fun o => ~ makes_other o) ops /\ lrun Rpower (ones 0) world0 ops = Ok w /\ w = mkWorld [None; None] [None].
Proof. exact c118_freed_ex. Qed.

(** C118: with perceptrons and IMAs no kernel object is ever deleted: each construction with a kernel type loses one. *)
Theorem C118_leak_refuted : forall pw slv ops w, Forall (fun o => ~ makes_smo o) ops -> lrun pw slv world0 ops = Ok w ->
  Forall (fun k => k <> None) (w_heap w) /\ length (filter allocates ops) <= length (w_heap w).
Proof. exact c118_leak_refuted. Qed.
Print Assumptions C118_leak_refuted.

Example C118_leak_refuted_ex : let ops := [New Perc Gaussian 2 pair1; Destroy 0; New Ima InnerProduct 0 pair2; Destroy 1] in
  Forall (fun o => ~ makes_smo o) ops /\ length (filter allocates ops) = 2 /\
  lrun Rpower (ones 0) world0 ops = Ok (mkWorld [Some (kernel_make Gaussian 2); Some (kernel_make InnerProduct 0)] [None; None]).
Proof. exact c118_leak_refuted_ex. Qed.

(** C118 fails for the copies that OneVsOne and OneVsAll train in turn when they were given a perceptron or an IMA with a kernel: all of
    them are trained with the kernel matrix of the first set. *)
Theorem C118_stale_refuted : forall pw slv k t p d0 d1 ds, k <> Smo -> t <> Custom -> rect d1 ->
  Forall (fun d => size d <= size d1) ds ->
  exists w, lrun pw slv world0 (New k t p d0 :: copies 0 (length (d1 :: ds)) ++ trainings 1 (d1 :: ds)) = Ok w /\
    looks (w_learners w) = Some (k, d0, sol0) :: map (fun d => Some (k, d, outcome_of slv k (gram pw t p d1) d [] sol0 (size d))) (d1 :: ds).
Proof. exact c118_stale_refuted. Qed.
Print Assumptions C118_stale_refuted.

Example C118_stale_refuted_ex : Perc <> Smo /\ InnerProduct <> Custom /\ rect pair1 /\ Forall (fun d : data R => size d <= size pair1) [pair2] /\
  gram Rpower InnerProduct 0 pair1 = [[1; -1]; [-1; 1]]%R /\ gram Rpower InnerProduct 0 pair2 = [[1; 3]; [3; 9]]%R.
Proof. exact c118_stale_refuted_ex. Qed.

(** C118: when a later set is larger than the first one the training reads outside the stored matrix. *)
Theorem C118_larger_refuted : forall pw slv k t p d0 d1 ds, k <> Smo -> t <> Custom -> rect d1 ->
  Exists (fun d => size d1 < size d) ds ->
  lrun pw slv world0 (New k t p d0 :: copies 0 (length (d1 :: ds)) ++ trainings 1 (d1 :: ds)) = UB.
Proof. exact c118_larger_refuted. Qed.
Print Assumptions C118_larger_refuted.

Example C118_larger_refuted_ex : Ima <> Smo /\ Gaussian <> Custom /\ rect pair1 /\ Exists (fun d : data R => size pair1 < size d) [pair2; triple].
Proof. exact c118_larger_refuted_ex. Qed.

(** C118: what this does to a dual perceptron. After the matrix of the points 1 and -1 is stored, training on 1 with label -1 and 3 with label +1
    answers true, but the point 1 is then classified as +1. *)
Theorem C118_wrong_refuted : forall pw k, k_type k = InnerProduct -> k_computed k = true -> k_K k = gram pw InnerProduct 0 pair1 ->
  exists u, dual_train pw (lim 1 5) (fun _ => true) pair2 (dual_fresh k) = Ok (Some (u, true)) /\
    exists x, nth_error (d_points pair2) 0 = Some x /\ p_y x = (-1)%Z /\ dual_evaluate pw (du_k u) pair2 (du_alpha u) (du_b u) x = Ok 1%Z.
Proof. exact c118_wrong_refuted. Qed.
Print Assumptions C118_wrong_refuted.

Example C118_wrong_refuted_ex : exists k, compute Rpower (kernel_make InnerProduct 0) pair1 None = Ok k /\ k_type k = InnerProduct /\ k_computed k = true /\
  k_K k = gram Rpower InnerProduct 0 pair1.
Proof. exact c118_wrong_refuted_ex. Qed.

(** C118: with an SMO that has not been trained each copy is trained with the kernel matrix of its own set; so it is with a perceptron that was
    constructed without a kernel type, for the inner product. *)
Theorem C118_ovo_smo : forall pw slv t p d0 ds, t <> Custom -> Forall rect ds ->
  exists w, lrun pw slv world0 (New Smo t p d0 :: copies 0 (length ds) ++ trainings 1 ds) = Ok w /\
    looks (w_learners w) = Some (Smo, d0, sol0) :: map (fun d => Some (Smo, d, outcome_of slv Smo (gram pw t p d) d [] sol0 (size d))) ds.
Proof. exact c118_ovo_smo. Qed.
Print Assumptions C118_ovo_smo.

Example C118_ovo_smo_ex : Polynomial <> Custom /\ Forall rect [pair1; triple; pair2].
Proof. exact c118_ovo_smo_ex. Qed.

Theorem C118_ovo_plain : forall pw slv d0 ds, Forall rect ds ->
  exists w, lrun pw slv world0 (NewPlain d0 :: copies 0 (length ds) ++ trainings 1 ds) = Ok w /\
    looks (w_learners w) = Some (Perc, d0, sol0) :: map (fun d => Some (Perc, d, outcome_of slv Perc (gram pw InnerProduct 0 d) d [] sol0 (size d))) ds.
Proof. exact c118_ovo_plain. Qed.
Print Assumptions C118_ovo_plain.

Example C118_ovo_plain_ex : Forall rect [triple; pair2].
Proof. exact c118_ovo_plain_ex. Qed.

(** C118 fails for an SMO that was trained before it was given to OneVsOne or OneVsAll: two of its copies cannot both be trained. *)
Theorem C118_trained_refuted : forall pw slv t p d0 ds n, 2 <= length ds -> length ds <= n ->
  forall w, lrun pw slv world0 (New Smo t p d0 :: Train 0 :: copies 0 n ++ trainings 1 ds) <> Ok w.
Proof. exact c118_trained_refuted. Qed.
Print Assumptions C118_trained_refuted.

Example C118_trained_refuted_ex : 2 <= length [pair1; pair2] /\ exists w, lrun Rpower (ones 0) world0 [New Smo InnerProduct 0 pair1; Train 0] = Ok w.
Proof. exact c118_trained_refuted_ex. Qed.

(** C118: a copy does not take over the solution: asked before it is trained itself it reads outside its empty alphas. *)
Theorem C118_blank_refuted : forall pw slv w i l k p w2, obj (w_learners w) i = Ok l -> deref (w_heap w) (l_kernel l) = Ok k -> k_type k <> Custom ->
  rect (l_samples l) -> size (l_samples l) <> 0 -> length (p_x p) = dim (l_samples l) ->
  lstep pw slv w (Copy i) = Ok w2 -> answer pw w2 (length (w_learners w)) p = UB.
Proof. exact c118_blank_refuted. Qed.
Print Assumptions C118_blank_refuted.

Example C118_blank_refuted_ex : exists w l k w2, lrun Rpower (ones 0) world0 [New Perc Gaussian 2 pair1; Train 0] = Ok w /\ obj (w_learners w) 0 = Ok l /\
  deref (w_heap w) (l_kernel l) = Ok k /\ k_type k <> Custom /\ rect (l_samples l) /\ size (l_samples l) <> 0 /\ dim (l_samples l) = 1 /\
  lstep Rpower (ones 0) w (Copy 0) = Ok w2 /\ so_alpha (l_sol l) = [1; 1]%R.
Proof. exact c118_blank_refuted_ex. Qed.

(** C118: setKernelType on one of two perceptrons or IMAs that hold the same kernel changes the answers of the other, which keeps its
    solution. *)
Theorem C118_settype_refuted : forall pw slv w i j l lj a k t w2 p, i <> j -> obj (w_learners w) i = Ok l -> obj (w_learners w) j = Ok lj ->
  l_kernel l = Some a -> l_kernel lj = Some a -> obj (w_heap w) a = Ok k -> t <> Custom ->
  rect (l_samples l) -> size (l_samples l) <> 0 -> length (so_alpha (l_sol l)) = size (l_samples l) -> length (p_x p) = dim (l_samples l) ->
  lstep pw slv w (SetType j t) = Ok w2 ->
  answer pw w2 i p = Ok (if Rle_dec 0 (dual_value (kval pw t (k_param k) (fun _ _ _ => 0%R) (dim (l_samples l))) (l_samples l) (so_alpha (l_sol l)) (so_bias (l_sol l)) p)
                         then 1%Z else (-1)%Z).
Proof. exact c118_settype_refuted. Qed.
Print Assumptions C118_settype_refuted.

Example C118_settype_refuted_ex : exists w w2, lrun Rpower (ones (-1)) world0 [New Perc InnerProduct 1 (line [(2%R, 1%Z)]); Train 0; Copy 0] = Ok w /\
  lstep Rpower (ones (-1)) w (SetType 1 Gaussian) = Ok w2 /\
  answer Rpower w 0 (mkPoint [5%R] 1%Z 0%Z 0%R) = Ok 1%Z /\ answer Rpower w2 0 (mkPoint [5%R] 1%Z 0%Z 0%R) = Ok (-1)%Z.
Proof. exact c118_settype_refuted_ex. Qed.

(** C118: a perceptron constructed without a kernel type has no kernel object, and its training makes one for the inner product: a kernel
    type set in between has no effect. *)
Theorem C118_plain_type_refuted : forall pw slv d t, rect d -> exists w, lrun pw slv world0 [NewPlain d; SetType 0 t; Train 0] = Ok w /\
  looks (w_learners w) = [Some (Perc, d, outcome_of slv Perc (gram pw InnerProduct 0 d) d [] sol0 (size d))].
Proof. exact c118_plain_type_refuted. Qed.
Print Assumptions C118_plain_type_refuted.

Example C118_plain_type_refuted_ex : rect triple /\ gram Rpower InnerProduct 0 triple <> gram Rpower Other 0 triple.
Proof. exact c118_plain_type_refuted_ex. Qed.

