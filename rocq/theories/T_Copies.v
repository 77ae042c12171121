(** Property lemmas: copies of kernel classifiers. *)
From Coq Require Import ZArith Bool List Lia Reals Lra.
From Verif Require Import Base ListLib M_Data M_Point L_Vec Loop M_Kernel S_Kernel L_Kernel T_Kernel M_Perc S_Perc L_Perc T_Perc M_Copies S_Copies L_Copies L_Copies2 L_Copies3 L_Copies4 L_Copies5.
Import ListNotations.
Local Open Scope nat_scope.

(** Datasets on the line: values with their labels. *)
Definition line (l : list (R * Z)) : data R :=
  mkData (map (fun q => mkPoint [fst q] (snd q) 0%Z 0%R) l) [1]%Z (map Z.of_nat (seq 0 (length l))) [] [] [] (length l) 1 false false false true.
Lemma rect_line l : rect (line l).
Proof.
  intros p Hp. unfold line in *. cbn [d_points] in Hp. unfold dim. cbn [d_points]. destruct l as [|q r]; [destruct Hp|].
  cbn [map]. apply in_map_iff in Hp. destruct Hp as (x & <- & _). reflexivity.
Qed.
(** A training that sets every alpha to 1 and the bias to b. *)
Definition ones (b : R) : kind -> list (list R) -> data R -> vec -> sol -> (nat -> R) * R * R := fun _ _ _ _ _ => (fun _ => 1%R, b, 1%R).
Definition pair1 : data R := line [(1%R, 1%Z); ((-1)%R, (-1)%Z)].
Definition pair2 : data R := line [(1%R, (-1)%Z); (3%R, 1%Z)].
Definition triple : data R := line [(1%R, 1%Z); (2%R, 1%Z); (5%R, (-1)%Z)].

(** C118: as long as the rules are kept (a trained SMO is not copied; the kernel of a perceptron or IMA is not changed while a copy may hold it;
    they train right after recomputeKernel(), or with a kernel nobody else holds and without a stored matrix), a program with copies does what it
    would do with a kernel of its own in every classifier: the same samples, solutions and answers. *)
Lemma c118_values : forall pw slv ops vs, polite pw slv [] None ops vs -> exists w, lrun pw slv world0 ops = Ok w /\
  looks (w_learners w) = vlooks vs /\
  forall i v p, nth_error vs i = Some (Some v) -> v_own v = true -> rect (v_samples v) -> length (so_alpha (v_sol v)) = size (v_samples v) ->
    answer pw w i p = Ok (vanswer pw v p).
Proof.
  intros pw slv ops vs H. assert (P0 : prevok (w_heap world0) (w_learners world0) None) by (intros i X; discriminate). destruct (run_ok pw slv ops world0 [] None vs base0 P0 H) as (w & E & B). exists w. split; auto.
  split; [apply (base_looks _ _ _ B)|]. intros i v p N O Rc La. apply (base_answer pw w vs i v p B N O Rc La).
Qed.
Ltac ltac_polite := eapply polite_step; [| reflexivity | first [apply polite_end | ltac_polite]].
Lemma c118_values_ex : exists vs, polite Rpower (ones 0) [] None
  [New Perc Gaussian 2 pair1; Copy 0; SetSamples 1 triple; Recompute 1; Train 1; Recompute 0; Train 0; New Smo InnerProduct 0 pair1; Copy 2; Train 2; Train 3; Destroy 2] vs /\
  exists u, vlooks vs = [Some (Perc, pair1, mkSol [1; 1] 0 1); Some (Perc, triple, mkSol [1; 1; 1] 0 1); None; Some (Smo, pair1, u)]%R.
Proof.
  eexists. split.
  - ltac_polite; cbn -[line]; try exact I; try discriminate.
    + intros v E. injection E as <-. discriminate.
    + intros v E. injection E as <-. split; [apply rect_line|auto].
    + intros v E. injection E as <-. split; [apply rect_line|auto].
    + intros v E. injection E as <-. intros _. reflexivity.
    + intros v E. injection E as <-. split; [apply rect_line|auto].
    + intros v E. injection E as <-. split; [apply rect_line|auto].
  - eexists. reflexivity.
Qed.

(** C118 fails for a trained SMO that is copied: both hold the same kernel object and both delete it. Whatever the program does next, it cannot
    train or destroy both. *)
Lemma c118_copy_refuted : forall pw slv ops more i w l, lrun pw slv world0 ops = Ok w -> In (Train i) ops ->
  obj (w_learners w) i = Ok l -> l_kind l = Smo ->
  (exists o, In o more /\ releases i o) -> (exists o, In o more /\ releases (length (w_learners w)) o) ->
  forall w2, lrun pw slv world0 (ops ++ Copy i :: more) <> Ok w2.
Proof.
  intros pw slv ops more i w l E T O K A B w2 H. rewrite lrun_app, E in H. cbn [obind lrun lstep] in H. rewrite O in H. cbn [obind] in H.
  destruct (armed_run pw slv ops world0 i w E (or_intror T)) as (Li & Ar). specialize (Ar l O K).
  destruct (l_kernel l) as [a|] eqn:Ka; [|congruence].
  refine (twins_run pw slv more _ i (length (w_learners w)) a w2 _ H A B). split; [lia|]. cbn [w_learners]. split.
  - exists l. split; [now apply obj_app|auto].
  - exists (copy_of l). split; [apply obj_last|]. auto.
Qed.
Lemma c118_copy_refuted_ex :
  let ops := [New Smo InnerProduct 0 pair1; Train 0] in
  (exists w l, lrun Rpower (ones 0) world0 ops = Ok w /\ obj (w_learners w) 0 = Ok l /\ l_kind l = Smo /\ length (w_learners w) = 1) /\
  lrun Rpower (ones 0) world0 (ops ++ [Copy 0; Destroy 1; Destroy 0]) = UB.
Proof.
  cbv zeta. assert (Ni : InnerProduct <> Custom) by discriminate.
  destruct (compute_gram Rpower (kernel_make InnerProduct 0) pair1 eq_refl Ni (rect_line _)) as (k & C & _).
  assert (E : exists l, l_kind l = Smo /\ l_kernel l = Some 0 /\ lrun Rpower (ones 0) world0 [New Smo InnerProduct 0 pair1; Train 0] = Ok (mkWorld [Some k] [Some l])).
  { eexists. split; [|split]; [| |unfold lrun, lstep, world0, construct, train_op; cbn [obind w_learners w_heap app obj nth_error l_kind]; unfold train_smo;
      cbn [w_heap l_kernel release obind l_type l_param l_samples]; rewrite C; cbn [obind]; unfold put; cbn [w_learners vupd upd obind app length]; reflexivity]; reflexivity. }
  destruct E as (l & Kl & Kk & E). split.
  - exists (mkWorld [Some k] [Some l]), l. auto.
  - rewrite lrun_app, E. destruct l as [lk lt lp lkk ls la lsol]. cbn [l_kind l_kernel] in Kl, Kk. subst. reflexivity.
Qed.

(** C118: with SMOs alone every kernel object is deleted: when the last classifier is destroyed none is left. *)
Lemma c118_freed : forall pw slv ops w, Forall (fun o => ~ makes_other o) ops -> lrun pw slv world0 ops = Ok w ->
  Forall (fun l => l = None) (w_learners w) -> Forall (fun k => k = None) (w_heap w).
Proof.
  intros pw slv ops w F E D. assert (K0 : kept world0) by (split; intros [|x] y O; discriminate).
  destruct (kept_run pw slv ops world0 w K0 F E) as (_ & Kh). apply Forall_forall. intros c Ic. destruct c as [k|]; auto. exfalso.
  apply In_nth_error in Ic. destruct Ic as (a & Na). destruct (Kh a k (proj2 (obj_Ok _ _ _) Na)) as (i & l & O & _). apply obj_Ok in O.
  apply nth_error_In in O. apply (proj1 (Forall_forall _ _) D) in O. discriminate.
Qed.
Lemma c118_freed_ex : exists w, let ops := [New Smo InnerProduct 0 pair1; Train 0; Train 0; Destroy 0] in
  Forall (fun o => ~ makes_other o) ops /\ lrun Rpower (ones 0) world0 ops = Ok w /\ w = mkWorld [None; None] [None].
Proof.
  assert (Ni : InnerProduct <> Custom) by discriminate.
  destruct (compute_gram Rpower (kernel_make InnerProduct 0) pair1 eq_refl Ni (rect_line _)) as (k & C & _).
  eexists. split; [repeat constructor; auto|]. split; [|reflexivity].
  unfold lrun, lstep, world0, construct, train_op; cbn [obind w_learners w_heap app obj nth_error l_kind]; unfold train_smo;
      cbn [w_heap l_kernel release obind l_type l_param l_samples]; rewrite C; cbn [obind]; unfold put; cbn [w_learners vupd upd obind app length obj nth_error l_kind w_heap l_kernel release kfree l_type l_param l_samples].
  rewrite C. reflexivity.
Qed.

(** C118: with perceptrons and IMAs no kernel object is ever deleted: each construction with a kernel type loses one. *)
Lemma c118_leak_refuted : forall pw slv ops w, Forall (fun o => ~ makes_smo o) ops -> lrun pw slv world0 ops = Ok w ->
  Forall (fun k => k <> None) (w_heap w) /\ length (filter allocates ops) <= length (w_heap w).
Proof.
  intros pw slv ops w F E. assert (K0 : lost 0 world0) by (split; [intros [|x] y O; discriminate|split; [constructor|auto]]).
  destruct (lost_run pw slv ops 0 world0 w K0 F E) as (_ & A & B). auto.
Qed.
Lemma c118_leak_refuted_ex : let ops := [New Perc Gaussian 2 pair1; Destroy 0; New Ima InnerProduct 0 pair2; Destroy 1] in
  Forall (fun o => ~ makes_smo o) ops /\ length (filter allocates ops) = 2 /\
  lrun Rpower (ones 0) world0 ops = Ok (mkWorld [Some (kernel_make Gaussian 2); Some (kernel_make InnerProduct 0)] [None; None]).
Proof. split; [repeat constructor; auto|]. split; reflexivity. Qed.

(** C118 fails for the copies that OneVsOne and OneVsAll train in turn when they were given a perceptron or an IMA with a kernel: all of
    them are trained with the kernel matrix of the first set. *)
Lemma c118_stale_refuted : forall pw slv k t p d0 d1 ds, k <> Smo -> t <> Custom -> rect d1 ->
  Forall (fun d => size d <= size d1) ds ->
  exists w, lrun pw slv world0 (New k t p d0 :: copies 0 (length (d1 :: ds)) ++ trainings 1 (d1 :: ds)) = Ok w /\
    looks (w_learners w) = Some (k, d0, sol0) :: map (fun d => Some (k, d, outcome_of slv k (gram pw t p d1) d [] sol0 (size d))) (d1 :: ds).
Proof.
  intros pw slv k t p d0 d1 ds Nk Nt Rc F.
  change (New k t p d0 :: copies 0 (length (d1 :: ds)) ++ trainings 1 (d1 :: ds)) with ([New k t p d0] ++ (copies 0 (length (d1 :: ds)) ++ trainings 1 (d1 :: ds))).
  assert (C : construct world0 k t p d0 = mkWorld [Some (kernel_make t p)] [Some (waiting k d0)]) by (destruct k; [congruence|reflexivity|reflexivity]).
  rewrite lrun_app. cbn [lrun lstep]. rewrite C. cbn [obind]. rewrite lrun_app, (copies_run pw slv 0 _ _ [Some (waiting k d0)] (waiting k d0) eq_refl). cbn [obind].
  change (copy_of (waiting k d0)) with (waiting k d0).
  destruct (compute_gram pw (kernel_make t p) d1 eq_refl Nt Rc) as (kk & E & K & _ & _ & Cm). cbn [kernel_make k_type k_param] in K.
  cbn [length repeat]. cbn [trainings]. change (SetSamples 1 d1 :: Train 1 :: trainings 2 ds) with ([SetSamples 1 d1; Train 1] ++ trainings 2 ds).
  rewrite lrun_app. destruct (shared_turn pw slv k d0 _ kk d1 [Some (waiting k d0)] (repeat (Some (waiting k d0)) (length ds)) Nk E) as (y & Y & T).
  cbn [length] in T. rewrite T, K, covers_gram. cbn [obind].
  destruct (shared_turns pw slv k d0 kk t p d1 Nk Cm K ds [Some (waiting k d0); Some y]) as (A & _). destruct (A F) as (w & Ew & Lw). cbn [length] in Ew.
  exists w. split; [exact Ew|]. rewrite Lw. change (looks [Some (waiting k d0); Some y]) with (Some (k, d0, sol0) :: looks [Some y]). rewrite Y, K. reflexivity.
Qed.
Lemma c118_stale_refuted_ex : Perc <> Smo /\ InnerProduct <> Custom /\ rect pair1 /\ Forall (fun d : data R => size d <= size pair1) [pair2] /\
  gram Rpower InnerProduct 0 pair1 = [[1; -1]; [-1; 1]]%R /\ gram Rpower InnerProduct 0 pair2 = [[1; 3]; [3; 9]]%R.
Proof.
  split; [discriminate|]. split; [discriminate|]. split; [apply rect_line|]. split; [constructor; [cbn; lia|constructor]|].
  split; cbn; repeat f_equal; unfold inner; cbn; ring.
Qed.
(** C118: when a later set is larger than the first one the training reads outside the stored matrix. *)
Lemma c118_larger_refuted : forall pw slv k t p d0 d1 ds, k <> Smo -> t <> Custom -> rect d1 ->
  Exists (fun d => size d1 < size d) ds ->
  lrun pw slv world0 (New k t p d0 :: copies 0 (length (d1 :: ds)) ++ trainings 1 (d1 :: ds)) = UB.
Proof.
  intros pw slv k t p d0 d1 ds Nk Nt Rc F.
  change (New k t p d0 :: copies 0 (length (d1 :: ds)) ++ trainings 1 (d1 :: ds)) with ([New k t p d0] ++ (copies 0 (length (d1 :: ds)) ++ trainings 1 (d1 :: ds))).
  assert (C : construct world0 k t p d0 = mkWorld [Some (kernel_make t p)] [Some (waiting k d0)]) by (destruct k; [congruence|reflexivity|reflexivity]).
  rewrite lrun_app. cbn [lrun lstep]. rewrite C. cbn [obind]. rewrite lrun_app, (copies_run pw slv 0 _ _ [Some (waiting k d0)] (waiting k d0) eq_refl). cbn [obind].
  change (copy_of (waiting k d0)) with (waiting k d0).
  destruct (compute_gram pw (kernel_make t p) d1 eq_refl Nt Rc) as (kk & E & K & _ & _ & Cm). cbn [kernel_make k_type k_param] in K.
  cbn [length repeat]. cbn [trainings]. change (SetSamples 1 d1 :: Train 1 :: trainings 2 ds) with ([SetSamples 1 d1; Train 1] ++ trainings 2 ds).
  rewrite lrun_app. destruct (shared_turn pw slv k d0 _ kk d1 [Some (waiting k d0)] (repeat (Some (waiting k d0)) (length ds)) Nk E) as (y & Y & T).
  cbn [length] in T. rewrite T, K, covers_gram. cbn [obind].
  destruct (shared_turns pw slv k d0 kk t p d1 Nk Cm K ds [Some (waiting k d0); Some y]) as (_ & B). apply B, F.
Qed.
Lemma c118_larger_refuted_ex : Ima <> Smo /\ Gaussian <> Custom /\ rect pair1 /\ Exists (fun d : data R => size pair1 < size d) [pair2; triple].
Proof. split; [discriminate|]. split; [discriminate|]. split; [apply rect_line|]. apply Exists_cons_tl, Exists_cons_hd. cbn. lia. Qed.

(** C118: what this does to a dual perceptron. After the matrix of the points 1 and -1 is stored, training on 1 with label -1 and 3 with label +1
    answers true, but the point 1 is then classified as +1. *)
Lemma c118_wrong_refuted : forall pw k, k_type k = InnerProduct -> k_computed k = true -> k_K k = gram pw InnerProduct 0 pair1 ->
  exists u, dual_train pw (lim 1 5) (fun _ => true) pair2 (dual_fresh k) = Ok (Some (u, true)) /\
    exists x, nth_error (d_points pair2) 0 = Some x /\ p_y x = (-1)%Z /\ dual_evaluate pw (du_k u) pair2 (du_alpha u) (du_b u) x = Ok 1%Z.
Proof.
  intros pw k Kt Kc KK.
  assert (G : k_K k = [[1; -1]; [-1; 1]]%R) by (rewrite KK; cbn; repeat f_equal; unfold inner; cbn; ring). clear KK.
  assert (L : dloop (lim 1 5) pair2 (k_K k) (fun _ => true) 6 0 0 (mkD [0; 0]%R 0 0 0 1) = Ok (Some (mkD [0 + 1; 0 + 1]%R (0 + 1 * -1 + 1 * 1)%R
     (sqrt (sqrt (0 * 0 + 2 * 1 * -1 * (0 + 0 * -1 * 1 + 0 * 1 * -1 - 0) + 1 * 1 * 1) * sqrt (0 * 0 + 2 * 1 * -1 * (0 + 0 * -1 * 1 + 0 * 1 * -1 - 0) + 1 * 1 * 1) +
        2 * 1 * 1 * (0 + 1 * -1 + (0 + 1) * -1 * -1 + 0 * 1 * 1 - (0 + 1 * -1)) + 1 * 1 * 1)) 2 0, 2))).
  { rewrite G. change (dloop (lim 1 5) pair2 [[1; -1]; [-1; 1]]%R (fun _ => true) 6 0 0 (mkD [0; 0]%R 0 0 0 1)) with
      (let* s1 := dpass (lim 1 5) pair2 [[1; -1]; [-1; 1]]%R 0 [0; 1] (mkD [0; 0]%R 0 0 0 0) in
       if Nat.eqb (ds_e s1) 0 || Nat.ltb 5 1 || Nat.ltb 5 (ds_ctot s1) then Ok (Some (s1, 1))
       else dloop (lim 1 5) pair2 [[1; -1]; [-1; 1]]%R (fun _ => true) 5 1 1 s1).
    cbn [dpass]. cbn. destruct (Rle_dec _ 0) as [_|N]; [|lra]. cbn. destruct (Rle_dec _ 0) as [_|N]; [|lra]. cbn [obind ds_e ds_ctot Nat.eqb Nat.ltb Nat.leb orb ds_alpha ds_b ds_norm].
    cbn. destruct (Rle_dec _ 0) as [N|_]; [lra|]. cbn. destruct (Rle_dec _ 0) as [N|_]; [lra|]. cbn. reflexivity. }
  eexists. split.
  - unfold dual_train, dual_fresh. cbn [du_k du_alpha du_steps du_b du_norm du_ctot du_w]. unfold compute. rewrite Kc. cbn [obind].
    change (repeat 0%R (size pair2)) with [0; 0]%R. change (S (max_it (lim 1 5))) with 6. rewrite L. cbn [obind ds_alpha]. cbn. reflexivity.
  - eexists. split; [reflexivity|]. split; [reflexivity|]. cbn [du_k du_alpha du_b]. unfold dual_evaluate, kfun. rewrite Kt. cbn.
    destruct (Rle_dec _ _) as [_|N]; [reflexivity|]. exfalso. apply N. lra.
Qed.
Lemma c118_wrong_refuted_ex : exists k, compute Rpower (kernel_make InnerProduct 0) pair1 None = Ok k /\ k_type k = InnerProduct /\ k_computed k = true /\
  k_K k = gram Rpower InnerProduct 0 pair1.
Proof.
  assert (Ni : InnerProduct <> Custom) by discriminate.
  destruct (compute_gram Rpower (kernel_make InnerProduct 0) pair1 eq_refl Ni (rect_line _)) as (k & C & A & B & _ & D). exists k. auto.
Qed.

(** C118: with an SMO that has not been trained each copy is trained with the kernel matrix of its own set; so it is with a perceptron that was
    constructed without a kernel type, for the inner product. *)
Lemma c118_ovo_smo : forall pw slv t p d0 ds, t <> Custom -> Forall rect ds ->
  exists w, lrun pw slv world0 (New Smo t p d0 :: copies 0 (length ds) ++ trainings 1 ds) = Ok w /\
    looks (w_learners w) = Some (Smo, d0, sol0) :: map (fun d => Some (Smo, d, outcome_of slv Smo (gram pw t p d) d [] sol0 (size d))) ds.
Proof.
  intros pw slv t p d0 ds Nt F. change (New Smo t p d0 :: copies 0 (length ds) ++ trainings 1 ds) with ([New Smo t p d0] ++ (copies 0 (length ds) ++ trainings 1 ds)).
  rewrite lrun_app. cbn [lrun lstep construct obind world0 w_heap w_learners app]. rewrite lrun_app, (copies_run pw slv 0 _ _ [Some (mkLearner Smo t p None d0 [] sol0)] (mkLearner Smo t p None d0 [] sol0) eq_refl). cbn [obind].
  destruct (own_turns pw slv Smo _ t p (smo_turn pw slv t p d0 Nt) ds [] [Some (mkLearner Smo t p None d0 [] sol0)] F) as (w & Ew & Lw).
  exists w. split; [exact Ew|]. rewrite Lw. reflexivity.
Qed.
Lemma c118_ovo_smo_ex : Polynomial <> Custom /\ Forall rect [pair1; triple; pair2].
Proof. split; [discriminate|]. repeat (apply Forall_cons; [apply rect_line|]). constructor. Qed.
Lemma c118_ovo_plain : forall pw slv d0 ds, Forall rect ds ->
  exists w, lrun pw slv world0 (NewPlain d0 :: copies 0 (length ds) ++ trainings 1 ds) = Ok w /\
    looks (w_learners w) = Some (Perc, d0, sol0) :: map (fun d => Some (Perc, d, outcome_of slv Perc (gram pw InnerProduct 0 d) d [] sol0 (size d))) ds.
Proof.
  intros pw slv d0 ds F. change (NewPlain d0 :: copies 0 (length ds) ++ trainings 1 ds) with ([NewPlain d0] ++ (copies 0 (length ds) ++ trainings 1 ds)).
  rewrite lrun_app. cbn [lrun lstep obind]. unfold construct_plain. cbn [world0 w_heap w_learners app]. rewrite lrun_app, (copies_run pw slv 0 _ _ [Some (mkLearner Perc InnerProduct 0 None d0 [] sol0)] (mkLearner Perc InnerProduct 0 None d0 [] sol0) eq_refl). cbn [obind].
  destruct (own_turns pw slv Perc _ InnerProduct 0 (plain_turn pw slv d0) ds [] [Some (mkLearner Perc InnerProduct 0 None d0 [] sol0)] F) as (w & Ew & Lw).
  exists w. split; [exact Ew|]. rewrite Lw. reflexivity.
Qed.
Lemma c118_ovo_plain_ex : Forall rect [triple; pair2].
Proof. repeat (apply Forall_cons; [apply rect_line|]). constructor. Qed.

(** C118 fails for an SMO that was trained before it was given to OneVsOne or OneVsAll: two of its copies cannot both be trained. *)
Lemma c118_trained_refuted : forall pw slv t p d0 ds n, 2 <= length ds -> length ds <= n ->
  forall w, lrun pw slv world0 (New Smo t p d0 :: Train 0 :: copies 0 n ++ trainings 1 ds) <> Ok w.
Proof.
  intros pw slv t p d0 ds n L2 Ln w H.
  change (New Smo t p d0 :: Train 0 :: copies 0 n ++ trainings 1 ds) with ([New Smo t p d0; Train 0] ++ (copies 0 n ++ trainings 1 ds)) in H.
  rewrite lrun_app in H. apply obind_Ok in H. destruct H as (w1 & E & H).
  assert (Hl : exists l a, l_kind l = Smo /\ l_kernel l = Some a /\ w_learners w1 = [Some l]).
  { unfold lrun, lstep, world0, construct, train_op in E. cbn [obind w_learners w_heap app obj nth_error l_kind] in E. unfold train_smo in E.
    cbn [w_heap l_kernel release obind l_type l_param l_samples] in E. destruct (compute _ _ _ _) as [k| |]; cbn in E; try discriminate. injection E as <-.
    eexists _, _. split; [|split; [|reflexivity]]; reflexivity. }
  destruct Hl as (l & a & Kl & Ka & Wl). destruct w1 as [h ls]. cbn [w_learners] in Wl. subst ls.
  rewrite lrun_app, (copies_run pw slv 0 n h [Some l] l eq_refl) in H. cbn [obind] in H.
  destruct ds as [|x [|y r]]; cbn [length] in L2; try lia. cbn [length] in Ln.
  assert (O : forall j, j < n -> obj ([Some l] ++ repeat (Some (copy_of l)) n) (S j) = Ok (copy_of l)).
  { intros j Hj. unfold obj. cbn [nth_error app]. rewrite nth_error_repeat; auto. }
  refine (twins_run pw slv _ _ 1 2 a w _ H _ _).
  - split; [lia|]. cbn [w_learners]. split; exists (copy_of l); (split; [apply O; lia|]); auto.
  - exists (Train 1). split; [cbn; auto|left; reflexivity].
  - exists (Train 2). split; [cbn; auto 6|left; reflexivity].
Qed.
Lemma c118_trained_refuted_ex : 2 <= length [pair1; pair2] /\ exists w, lrun Rpower (ones 0) world0 [New Smo InnerProduct 0 pair1; Train 0] = Ok w.
Proof.
  split; [cbn; lia|]. assert (Ni : InnerProduct <> Custom) by discriminate.
  destruct (compute_gram Rpower (kernel_make InnerProduct 0) pair1 eq_refl Ni (rect_line _)) as (k & C & _).
  eexists. unfold lrun, lstep, world0, construct, train_op. cbn [obind w_learners w_heap app obj nth_error l_kind]. unfold train_smo.
  cbn [w_heap l_kernel release obind l_type l_param l_samples]. rewrite C. reflexivity.
Qed.

(** C118: a copy does not take over the solution: asked before it is trained itself it reads outside its empty alphas. *)
Lemma c118_blank_refuted : forall pw slv w i l k p w2, obj (w_learners w) i = Ok l -> deref (w_heap w) (l_kernel l) = Ok k -> k_type k <> Custom ->
  rect (l_samples l) -> size (l_samples l) <> 0 -> length (p_x p) = dim (l_samples l) ->
  lstep pw slv w (Copy i) = Ok w2 -> answer pw w2 (length (w_learners w)) p = UB.
Proof.
  intros pw slv w i l k p w2 O D Nc Rc Ns Lp E. cbn [lstep] in E. rewrite O in E. cbn [obind] in E. injection E as <-.
  unfold answer. cbn [w_learners w_heap]. rewrite obj_last. cbn [obind copy_of l_samples l_kernel l_sol so_alpha so_bias sol0].
  rewrite Lp, Nat.eqb_refl. cbn [negb]. rewrite (proj2 (Nat.eqb_neq _ _) Ns), D. cbn [obind]. unfold dual_evaluate. rewrite Lp, Nat.eqb_refl. cbn [negb].
  destruct (size (l_samples l)) as [|n] eqn:Sz; [congruence|]. cbn [seq ofold].
  destruct (vget (d_points (l_samples l)) 0) as [q| |] eqn:G; try (unfold vget in G; destruct (nth_error _ _) eqn:X; discriminate).
  - assert (Iq : In q (d_points (l_samples l))).
    { unfold vget in G. destruct (nth_error (d_points (l_samples l)) 0) eqn:X; [|discriminate]. injection G as <-. apply (nth_error_In _ _ X). }
    cbn [obind]. rewrite (kfun_ok pw k p q (dim (l_samples l)) None (fun _ _ _ => 0%R)); [reflexivity|intros X; contradiction|rewrite Lp; auto|rewrite (Rc q Iq); auto].
  - reflexivity.
Qed.
Lemma c118_blank_refuted_ex : exists w l k w2, lrun Rpower (ones 0) world0 [New Perc Gaussian 2 pair1; Train 0] = Ok w /\ obj (w_learners w) 0 = Ok l /\
  deref (w_heap w) (l_kernel l) = Ok k /\ k_type k <> Custom /\ rect (l_samples l) /\ size (l_samples l) <> 0 /\ dim (l_samples l) = 1 /\
  lstep Rpower (ones 0) w (Copy 0) = Ok w2 /\ so_alpha (l_sol l) = [1; 1]%R.
Proof.
  assert (Ni : Gaussian <> Custom) by discriminate.
  destruct (compute_gram Rpower (kernel_make Gaussian 2) pair1 eq_refl Ni (rect_line _)) as (k & C & K & B & _). cbn [kernel_make k_type k_param] in K, B.
  destruct (shared_turn Rpower (ones 0) Perc pair1 (kernel_make Gaussian 2) k pair1 [] []) as (y & Y & E); [discriminate|auto|].
  rewrite K, covers_gram in E. cbn [app length] in E.
  assert (T : lrun Rpower (ones 0) world0 [New Perc Gaussian 2 pair1; Train 0] = Ok (mkWorld [Some k] [Some (mkLearner Perc InnerProduct 0 (Some 0) pair1 [1; 1]%R (mkSol [1; 1]%R 0 1))])).
  { cbn [lrun lstep construct world0 w_heap w_learners app obind length]. unfold train_op. cbn [w_learners obj nth_error obind l_kind]. unfold train_perc.
    cbn [l_kernel l_samples w_heap fst snd obj nth_error obind l_alpha l_sol l_type l_param]. rewrite C. cbn [obind]. rewrite K, covers_gram. reflexivity. }
  eexists _, _, k, _. split; [exact T|]. split; [reflexivity|]. split; [reflexivity|]. split; [rewrite B; discriminate|]. split; [apply rect_line|].
  split; [discriminate|]. split; [reflexivity|]. split; reflexivity.
Qed.

(** C118: setKernelType on one of two perceptrons or IMAs that hold the same kernel changes the answers of the other, which keeps its
    solution. *)
Lemma c118_settype_refuted : forall pw slv w i j l lj a k t w2 p, i <> j -> obj (w_learners w) i = Ok l -> obj (w_learners w) j = Ok lj ->
  l_kernel l = Some a -> l_kernel lj = Some a -> obj (w_heap w) a = Ok k -> t <> Custom ->
  rect (l_samples l) -> size (l_samples l) <> 0 -> length (so_alpha (l_sol l)) = size (l_samples l) -> length (p_x p) = dim (l_samples l) ->
  lstep pw slv w (SetType j t) = Ok w2 ->
  answer pw w2 i p = Ok (if Rle_dec 0 (dual_value (kval pw t (k_param k) (fun _ _ _ => 0%R) (dim (l_samples l))) (l_samples l) (so_alpha (l_sol l)) (so_bias (l_sol l)) p)
                         then 1%Z else (-1)%Z).
Proof.
  intros pw slv w i j l lj a k t w2 p Nij Oi Oj Ki Kj Oa Nt Rc Ns La Lp E. cbn [lstep] in E. unfold on_kernel in E. rewrite Oj in E. cbn [obind] in E.
  rewrite Kj, Oa in E. cbn [obind] in E. apply obind_Ok in E. destruct E as (h & Eh & E). unfold put in E. apply obind_Ok in E. destruct E as (ls & El & E). injection E as <-.
  unfold kput, vupd in Eh. destruct (upd a _ _) as [h0|] eqn:Ua; [|discriminate]. injection Eh as <-.
  unfold vupd in El. destruct (upd j _ _) as [l0|] eqn:Uj; [|discriminate]. injection El as <-.
  unfold answer. cbn [w_learners w_heap]. rewrite (obj_upd_other _ _ _ _ _ Uj) by auto. rewrite Oi. cbn [obind].
  rewrite Lp, Nat.eqb_refl. cbn [negb]. rewrite (proj2 (Nat.eqb_neq _ _) Ns), Ki. cbn [deref]. rewrite (obj_upd_same _ _ _ _ Ua). cbn [obind].
  rewrite (c68_dual pw (setType t k)); auto. rewrite <- Lp. destruct (Nat.eq_dec _ _) as [_|N]; [|congruence]. reflexivity.
Qed.
Lemma c118_settype_refuted_ex : exists w w2, lrun Rpower (ones (-1)) world0 [New Perc InnerProduct 1 (line [(2%R, 1%Z)]); Train 0; Copy 0] = Ok w /\
  lstep Rpower (ones (-1)) w (SetType 1 Gaussian) = Ok w2 /\
  answer Rpower w 0 (mkPoint [5%R] 1%Z 0%Z 0%R) = Ok 1%Z /\ answer Rpower w2 0 (mkPoint [5%R] 1%Z 0%Z 0%R) = Ok (-1)%Z.
Proof.
  set (d := line [(2%R, 1%Z)]). assert (Ni : InnerProduct <> Custom) by discriminate.
  destruct (compute_gram Rpower (kernel_make InnerProduct 1) d eq_refl Ni (rect_line _)) as (k & C & K & B & P & _). cbn [kernel_make k_type k_param] in K, B, P.
  assert (T : lrun Rpower (ones (-1)) world0 [New Perc InnerProduct 1 d; Train 0; Copy 0] = Ok (mkWorld [Some k]
    [Some (mkLearner Perc InnerProduct 0 (Some 0) d [1]%R (mkSol [1]%R (-1) 1)); Some (mkLearner Perc InnerProduct 0 (Some 0) d [1]%R sol0)])).
  { cbn [lrun lstep construct world0 w_heap w_learners app obind length]. unfold train_op. cbn [w_learners obj nth_error obind l_kind]. unfold train_perc.
    cbn [l_kernel l_samples w_heap fst snd obj nth_error obind l_alpha l_sol l_type l_param]. rewrite C. cbn [obind]. rewrite K, covers_gram. reflexivity. }
  eexists _, _. split; [exact T|]. split; [reflexivity|]. split.
  - cbn [answer w_learners w_heap obj nth_error obind]. unfold answer. cbn. unfold dual_evaluate, kfun. cbn. rewrite B. cbn. destruct (Rle_dec _ _) as [_|N]; [reflexivity|]. exfalso. apply N. lra.
  - unfold answer. cbn. unfold dual_evaluate, kfun. cbn. rewrite P. cbn. destruct (Rle_dec _ _) as [N|_]; [|reflexivity]. exfalso.
    assert (exp (-1 * (0 + (5 - 2) * (5 - 2)) * 1) < 1)%R by (apply Rlt_le_trans with (exp 0); [apply exp_increasing; lra|rewrite exp_0; lra]). lra.
Qed.

(** C118: a perceptron constructed without a kernel type has no kernel object, and its training makes one for the inner product: a kernel
    type set in between has no effect. *)
Lemma c118_plain_type_refuted : forall pw slv d t, rect d -> exists w, lrun pw slv world0 [NewPlain d; SetType 0 t; Train 0] = Ok w /\
  looks (w_learners w) = [Some (Perc, d, outcome_of slv Perc (gram pw InnerProduct 0 d) d [] sol0 (size d))].
Proof.
  intros pw slv d t Rc. assert (Ni : InnerProduct <> Custom) by discriminate.
  destruct (compute_gram pw (kernel_make InnerProduct 0) d eq_refl Ni Rc) as (k & C & K & _). cbn [kernel_make k_type k_param] in K.
  eexists. split.
  - unfold lrun, lstep, on_kernel, construct_plain. cbn [obind world0 w_heap w_learners app obj nth_error l_kernel]. unfold put. cbn [vupd upd obind w_learners].
    unfold train_op. cbn [w_learners obj nth_error obind set_type l_kind]. unfold train_perc, set_type. cbn [l_kernel l_samples w_heap fst snd obj nth_error obind l_alpha l_sol l_type l_param app length].
    rewrite C. cbn [obind]. rewrite repeat_length, Nat.leb_refl, K, covers_gram, solved_is. cbn [andb]. unfold put. cbn [vupd upd obind w_learners kput]. reflexivity.
  - reflexivity.
Qed.
Lemma c118_plain_type_refuted_ex : rect triple /\ gram Rpower InnerProduct 0 triple <> gram Rpower Other 0 triple.
Proof.
  split; [apply rect_line|]. cbn. intros X. injection X as X _. unfold inner in X. cbn in X. lra.
Qed.
