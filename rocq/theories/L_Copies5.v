(** Lemmas: the copies a OneVsOne or OneVsAll makes, trained one after the other. *)
From Coq Require Import ZArith Bool List Lia Reals Lra.
From Verif Require Import Base ListLib M_Data M_Point L_Vec Loop M_Kernel S_Kernel L_Kernel T_Kernel M_Perc S_Perc L_Perc T_Perc M_Copies S_Copies L_Copies L_Copies2 L_Copies3 L_Copies4.
Import ListNotations.
Local Open Scope nat_scope.

Lemma upd_mid {A} (f : A -> A) done x rest : upd (length done) f (done ++ x :: rest) = Some (done ++ f x :: rest).
Proof. induction done as [|y done IH]; cbn; auto. now rewrite IH. Qed.
Lemma obj_mid {A} (done : list (option A)) x rest : obj (done ++ Some x :: rest) (length done) = Ok x.
Proof. apply obj_Ok. rewrite nth_error_app2, Nat.sub_diag; auto. Qed.

Section Run.
Variable pw : R -> R -> R.
Variable slv : kind -> list (list R) -> data R -> vec -> sol -> (nat -> R) * R * R.

Lemma lrun_app a b w : lrun pw slv w (a ++ b) = let* w1 := lrun pw slv w a in lrun pw slv w1 b.
Proof. revert w. induction a as [|o r IH]; intros w; cbn; auto. destruct (lstep pw slv w o); cbn; auto. Qed.

Lemma copies_run i n : forall h ls l, obj ls i = Ok l ->
  lrun pw slv (mkWorld h ls) (copies i n) = Ok (mkWorld h (ls ++ repeat (Some (copy_of l)) n)).
Proof.
  induction n as [|n IH]; intros h ls l O; cbn [copies repeat lrun]; [now rewrite app_nil_r|].
  cbn [lstep]. cbn [w_learners w_heap]. rewrite O. cbn [obind]. change (repeat (Copy i) n) with (copies i n). rewrite (IH _ _ l).
  - now rewrite <- app_assoc.
  - now apply obj_app.
Qed.

Lemma put_mid h0 h done x y rest : put (mkWorld h0 (done ++ x :: rest)) h (length done) y = Ok (mkWorld h (done ++ y :: rest)).
Proof. unfold put, vupd. cbn [w_learners]. now rewrite upd_mid. Qed.

Lemma covers_le t p e (d : data R) : covers (gram pw t p e) (size d) = Nat.leb (size d) (size e).
Proof.
  unfold covers, gram, table. destruct (Nat.leb (size d) (size e)) eqn:L.
  - apply Nat.leb_le in L. apply forallb_forall. intros i Hi. apply in_seq in Hi. rewrite nth_error_map.
    destruct (nth_error (seq 0 (size e)) i) as [x|] eqn:E; cbn [option_map].
    + rewrite map_length, seq_length. now apply Nat.leb_le.
    + apply nth_error_None in E. rewrite seq_length in E. lia.
  - apply Nat.leb_gt in L. apply not_true_is_false. intros F. rewrite forallb_forall in F.
    assert (I0 : In 0 (seq 0 (size d))) by (apply in_seq; lia). specialize (F 0 I0). rewrite nth_error_map in F.
    destruct (nth_error (seq 0 (size e)) 0); cbn [option_map] in F; [|discriminate]. rewrite map_length, seq_length in F. apply Nat.leb_le in F. lia.
Qed.

(** A copy that holds the kernel object 0, before its training. *)
Definition waiting (k : kind) (d0 : data R) : learner := mkLearner k InnerProduct 0 (Some 0) d0 [] sol0.

Lemma shared_turn k d0 k0 k1 d done rest : k <> Smo -> compute pw k0 d None = Ok k1 ->
  exists y, looks [Some y] = [Some (k, d, outcome_of slv k (k_K k1) d [] sol0 (size d))] /\
  lrun pw slv (mkWorld [Some k0] (done ++ Some (waiting k d0) :: rest)) [SetSamples (length done) d; Train (length done)] =
    if covers (k_K k1) (size d) then Ok (mkWorld [Some k1] (done ++ Some y :: rest)) else UB.
Proof.
  intros N C.
  assert (E : forall X, lrun pw slv (mkWorld [Some k0] (done ++ Some (waiting k d0) :: rest)) [SetSamples (length done) d; Train (length done)] = X <->
    train_op pw slv (mkWorld [Some k0] (done ++ Some (set_samples d (waiting k d0)) :: rest)) (length done) = X).
  { intros X. cbn [lrun lstep w_learners w_heap]. rewrite obj_mid. cbn [obind]. rewrite put_mid. cbn [obind].
    destruct (train_op _ _ _ _); cbn [obind]; split; auto. }
  destruct k; [congruence| |].
  - set (s := outcome_of slv Perc (k_K k1) d [] sol0 (size d)). exists (mkLearner Perc InnerProduct 0 (Some 0) d (so_alpha s) s). split; [reflexivity|].
    apply E. unfold train_op. cbn [w_learners]. rewrite obj_mid. cbn [obind set_samples waiting l_kind].
    unfold train_perc. cbn [set_samples waiting l_samples l_kernel l_alpha l_sol l_type l_param w_heap fst snd obj nth_error obind].
    rewrite C. cbn [obind kput vupd upd]. rewrite repeat_length, Nat.leb_refl, andb_true_r, solved_is. destruct (covers (k_K k1) (size d)); auto.
    now rewrite put_mid.
  - set (s := outcome_of slv Ima (k_K k1) d [] sol0 (size d)). exists (mkLearner Ima InnerProduct 0 (Some 0) d (repeat 0%R (size d)) s). split; [reflexivity|].
    apply E. unfold train_op. cbn [w_learners]. rewrite obj_mid. cbn [obind set_samples waiting l_kind].
    unfold train_ima. cbn [set_samples waiting l_samples l_kernel l_alpha l_sol l_type l_param w_heap fst snd obj nth_error obind].
    rewrite C. cbn [obind kput vupd upd]. rewrite solved_is. destruct (covers (k_K k1) (size d)); auto.
    now rewrite put_mid.
Qed.

Lemma shared_turns k d0 kk t p e : k <> Smo -> k_computed kk = true -> k_K kk = gram pw t p e -> forall ds done,
  (Forall (fun d => size d <= size e) ds -> exists w,
     lrun pw slv (mkWorld [Some kk] (done ++ repeat (Some (waiting k d0)) (length ds))) (trainings (length done) ds) = Ok w /\
     looks (w_learners w) = looks done ++ map (fun d => Some (k, d, outcome_of slv k (gram pw t p e) d [] sol0 (size d))) ds) /\
  (Exists (fun d => size e < size d) ds ->
     lrun pw slv (mkWorld [Some kk] (done ++ repeat (Some (waiting k d0)) (length ds))) (trainings (length done) ds) = UB).
Proof.
  intros N C K. induction ds as [|d r IH]; intros done.
  - split; [|intros X; inversion X]. intros _. eexists. split; [reflexivity|]. cbn. rewrite !app_nil_r. auto.
  - assert (Cm : compute pw kk d None = Ok kk) by (unfold compute; now rewrite C).
    cbn [trainings length repeat]. change (SetSamples (length done) d :: Train (length done) :: trainings (S (length done)) r) with
      ([SetSamples (length done) d; Train (length done)] ++ trainings (S (length done)) r).
    rewrite lrun_app. destruct (shared_turn k d0 kk kk d done (repeat (Some (waiting k d0)) (length r)) N Cm) as (y & Y & E). rewrite E, K, covers_le.
    rewrite K in Y.
    destruct (IH (done ++ [Some y])) as (A & B). rewrite app_length in A, B. cbn [length] in A, B. rewrite Nat.add_1_r in A, B. rewrite <- app_assoc in A, B. cbn [app] in A, B.
    split.
    + intros F. inversion F; subst. rewrite (proj2 (Nat.leb_le _ _) H1). cbn [obind]. destruct (A H2) as (w & Ew & Lw). exists w. split; auto.
      rewrite Lw. unfold looks at 1. rewrite map_app. fold (looks done). fold (looks [Some y]). rewrite Y, <- app_assoc. reflexivity.
    + intros X. destruct (Nat.leb (size d) (size e)) eqn:Le; cbn [obind]; auto. apply B. inversion X; subst; auto. apply Nat.leb_le in Le. lia.
Qed.

(** Copies without a kernel object of their own. *)
Lemma own_turns k (l0 : learner) (t : ktype) (p : R) :
  (forall h d done rest, rect d -> exists h1 y, looks [Some y] = [Some (k, d, outcome_of slv k (gram pw t p d) d [] sol0 (size d))] /\
     lrun pw slv (mkWorld h (done ++ Some l0 :: rest)) [SetSamples (length done) d; Train (length done)] = Ok (mkWorld h1 (done ++ Some y :: rest))) ->
  forall ds h done, Forall rect ds -> exists w,
     lrun pw slv (mkWorld h (done ++ repeat (Some l0) (length ds))) (trainings (length done) ds) = Ok w /\
     looks (w_learners w) = looks done ++ map (fun d => Some (k, d, outcome_of slv k (gram pw t p d) d [] sol0 (size d))) ds.
Proof.
  intros T. induction ds as [|d r IH]; intros h done F.
  - eexists. split; [reflexivity|]. cbn. rewrite !app_nil_r. auto.
  - inversion F; subst. cbn [trainings length repeat].
    change (SetSamples (length done) d :: Train (length done) :: trainings (S (length done)) r) with
      ([SetSamples (length done) d; Train (length done)] ++ trainings (S (length done)) r).
    rewrite lrun_app. destruct (T h d done (repeat (Some l0) (length r)) H1) as (h1 & y & Y & E). rewrite E. cbn [obind].
    destruct (IH h1 (done ++ [Some y]) H2) as (w & Ew & Lw). rewrite app_length in Ew. cbn [length] in Ew. rewrite Nat.add_1_r, <- app_assoc in Ew. cbn [app] in Ew.
    exists w. split; auto. rewrite Lw. unfold looks at 1. rewrite map_app. fold (looks done). fold (looks [Some y]). rewrite Y, <- app_assoc. reflexivity.
Qed.

Lemma smo_turn t p d0 : t <> Custom -> forall h d done rest, rect d -> exists h1 y, looks [Some y] = [Some (Smo, d, outcome_of slv Smo (gram pw t p d) d [] sol0 (size d))] /\
     lrun pw slv (mkWorld h (done ++ Some (mkLearner Smo t p None d0 [] sol0) :: rest)) [SetSamples (length done) d; Train (length done)] = Ok (mkWorld h1 (done ++ Some y :: rest)).
Proof.
  intros N h d done rest Rc. destruct (compute_gram pw (kernel_make t p) d eq_refl N Rc) as (k & C & K & _). cbn [kernel_make k_type k_param] in K.
  set (s := outcome_of slv Smo (gram pw t p d) d [] sol0 (size d)).
  exists (h ++ [Some k]), (mkLearner Smo t p (Some (length h)) d (repeat 0%R (size d)) s). split; [reflexivity|]. cbn [lrun lstep w_learners w_heap]. rewrite obj_mid. cbn [obind]. rewrite put_mid. cbn [obind].
  unfold train_op. cbn [w_learners]. rewrite obj_mid. cbn [obind set_samples l_kind]. unfold train_smo.
  cbn [set_samples l_samples l_kernel l_type l_param w_heap release obind]. rewrite C. cbn [obind].
  rewrite solved_is, K, put_mid. reflexivity.
Qed.

Lemma plain_turn d0 : forall h d done rest, rect d -> exists h1 y, looks [Some y] = [Some (Perc, d, outcome_of slv Perc (gram pw InnerProduct 0 d) d [] sol0 (size d))] /\
     lrun pw slv (mkWorld h (done ++ Some (mkLearner Perc InnerProduct 0 None d0 [] sol0) :: rest)) [SetSamples (length done) d; Train (length done)] = Ok (mkWorld h1 (done ++ Some y :: rest)).
Proof.
  intros h d done rest Rc.
  assert (Ni : InnerProduct <> Custom) by discriminate.
  destruct (compute_gram pw (kernel_make InnerProduct 0) d eq_refl Ni Rc) as (k & C & K & _). cbn [kernel_make k_type k_param] in K.
  set (s := outcome_of slv Perc (gram pw InnerProduct 0 d) d [] sol0 (size d)).
  exists (h ++ [Some k]), (mkLearner Perc InnerProduct 0 (Some (length h)) d (so_alpha s) s). split; [reflexivity|]. cbn [lrun lstep w_learners w_heap]. rewrite obj_mid. cbn [obind]. rewrite put_mid. cbn [obind].
  unfold train_op. cbn [w_learners]. rewrite obj_mid. cbn [obind set_samples l_kind]. unfold train_perc.
  cbn [set_samples l_samples l_kernel l_type l_param l_alpha l_sol w_heap fst snd]. rewrite obj_last. cbn [obind]. rewrite C. cbn [obind].
  unfold kput, vupd. rewrite upd_last. cbn [obind]. rewrite repeat_length, Nat.leb_refl, K, covers_gram, solved_is. cbn [andb]. rewrite put_mid. reflexivity.
Qed.
End Run.
