(** C120: the files written for a plot. C121: their titles. *)
From Coq Require Import ZArith Ascii Bool String List Arith Permutation Sorted Lia.
From Verif Require Import Base M_Str M_Plot S_Plot L_Plot L_Plot2 L_Plot3.
Import ListNotations.
Local Open Scope nat_scope.

Lemma c120_files (A : Type) (show : A -> str) (path : str) (names : list str) (classes : list Z) (pts : labelled A) (d : folder) :
  plottable names classes pts -> Forall slashfree names ->
  exists d', create_cls show path names classes pts d = Ok (d', map (fun n => path ++ n ++ plt) names) /\
  (forall k n c, nth_error names k = Some n -> nth_error classes k = Some c -> fget d' (n ++ plt) = Some (class_text show pts c)) /\
  (forall m, (forall n, In n names -> m <> n ++ plt) -> fget d' m = fget d m).
Proof.
  intros PL SF. destruct (create_cls_ok show path names classes pts d PL) as (d' & E & F & O & _). exists d'. split; [|split].
  - rewrite E. do 3 f_equal. apply filter_true_all. intros a I. apply okname_iff. rewrite Forall_forall in SF. auto.
  - intros k n c K C. apply (F k); auto. apply okname_iff. rewrite Forall_forall in SF. apply SF. eapply nth_error_In; eauto.
  - intros m M. apply O. auto.
Qed.
Lemma c120_files_ex :
  let show := fun b : bool => if b then ["1"%char] else ["0"%char] in
  let names := map list_ascii_of_string ["no"; "yes"]%string in
  let pts := [([true; false], 5%Z); ([false; false], 3%Z); ([true; true], 5%Z)] in
  let nl := String (ascii_of_nat 10) EmptyString in
  plottable names [3; 5]%Z pts /\ Forall slashfree names /\
  exists d, create_cls show [] names [3; 5]%Z pts [] = Ok (d, map list_ascii_of_string ["no.plt"; "yes.plt"]%string) /\
    fget d (list_ascii_of_string "no.plt") = Some (list_ascii_of_string ("0 0" ++ nl)) /\
    fget d (list_ascii_of_string "yes.plt") = Some (list_ascii_of_string ("1 0" ++ nl ++ "1 1" ++ nl)).
Proof.
  cbv zeta. split; [|split].
  - split; [|split; [|split; [reflexivity|]]].
    + repeat constructor; cbn; intros H; repeat destruct H as [H|H]; try discriminate; auto.
    + repeat constructor; cbn; intros H; repeat destruct H as [H|H]; try discriminate; auto.
    + intros p H; repeat destruct H as [<-|H]; cbn; auto.
  - repeat constructor; unfold slashfree; cbn; intros H; repeat destruct H as [H|H]; try discriminate; auto.
  - eexists. split; [vm_compute; reflexivity|]. split; vm_compute; reflexivity.
Qed.

Lemma c120_slash_refuted (A : Type) (show : A -> str) (path : str) (names : list str) (classes : list Z) (pts : labelled A) (n : str) :
  plottable names classes pts -> In n names -> In "/"%char n ->
  exists d fs, create_cls show path names classes pts [] = Ok (d, fs) /\ fget d (n ++ plt) = None /\ ~ In (path ++ n ++ plt) fs.
Proof.
  intros PL I SL. destruct (create_cls_ok show path names classes pts [] PL) as (d' & E & _ & O & _). eexists d', _. split; [exact E|].
  assert (B : okname n = false). { destruct (okname n) eqn:B; auto. apply okname_iff in B. easy. }
  split.
  - rewrite O; auto. intros a _ OA X. apply plt_inj in X. congruence.
  - intros X. apply in_map_iff in X as (a & X & J). apply app_inv_head, plt_inj in X. subst a. apply filter_In in J as (_ & J). congruence.
Qed.
Lemma c120_slash_refuted_ex :
  let names := map list_ascii_of_string ["w/o"; "with"]%string in
  plottable names [0; 1]%Z [([true], 0%Z)] /\ In "/"%char (list_ascii_of_string "w/o").
Proof.
  cbv zeta. split; [|cbn; auto]. split; [|split; [|split; [reflexivity|]]].
  - repeat constructor; cbn; intros H; repeat destruct H as [H|H]; try discriminate; auto.
  - repeat constructor; cbn; intros H; repeat destruct H as [H|H]; try discriminate; auto.
  - intros p H; repeat destruct H as [<-|H]; cbn; auto.
Qed.

Lemma c120_same_name_refuted (A : Type) (show : A -> str) (path n : str) (c1 c2 : Z) (x1 x2 : A) :
  slashfree n -> c1 <> c2 -> List.length (show x1) = List.length (show x2) ->
  exists d, create_cls show path [n; n] [c1; c2] [([x1], c1); ([x2], c2)] [] = Ok (d, [path ++ n ++ plt; path ++ n ++ plt]) /\
  fget d (n ++ plt) = Some (line [show x2]).
Proof.
  intros SF NE L. apply okname_iff in SF.
  assert (O : forall d, open_out d (n ++ plt) = (fset d (n ++ plt) [], Some (n ++ plt, 0))) by (intros; apply open_out_ok; now rewrite okname_plt).
  unfold create_cls. cbn [open_all]. rewrite !O. cbn [fset]. rewrite !str_eqb_refl. cbn [app].
  cbn [put_points snd find_pos]. rewrite Z.eqb_refl. rewrite (proj2 (Z.eqb_neq c1 c2)) by auto. rewrite Z.eqb_refl.
  cbn [vget nth_error obind put_coords fst List.length Nat.ltb Nat.leb Nat.sub put_at snd put fget]. rewrite str_eqb_refl.
  cbn [overlay firstn app List.length skipn vupd upd obind put_at vget nth_error fst snd put fset fget]. rewrite !str_eqb_refl.
  cbn [overlay firstn app List.length skipn vupd upd obind put_at vget nth_error fst snd put fset fget]. rewrite !str_eqb_refl.
  eexists. split; [reflexivity|]. cbn [fget fst]. rewrite str_eqb_refl. f_equal. unfold overlay. cbn [firstn app line words].
  rewrite skipn_nil, app_nil_r. rewrite skipn_all2; [now rewrite app_nil_r|]. rewrite !app_length. lia.
Qed.
Lemma c120_same_name_refuted_ex : let show := fun z : Z => list_ascii_of_string (string_of_Z z) in
  slashfree (list_ascii_of_string "a") /\ (3 <> 4)%Z /\ List.length (show 1%Z) = List.length (show 2%Z) /\ line [show 1%Z] <> line [show 2%Z].
Proof. cbv zeta. split; [|split; [discriminate|split; [reflexivity|vm_compute; discriminate]]]. unfold slashfree. cbn. intros [H|[]]. discriminate. Qed.

Lemma c120_unknown_refuted (A : Type) (show : A -> str) (path : str) (names : list str) (classes : list Z) (pts : labelled A) (p : list A * Z) (d : folder) :
  NoDup names -> NoDup classes -> List.length names = List.length classes -> In p pts -> ~ In (snd p) classes ->
  create_cls show path names classes pts d = UB.
Proof.
  intros ND NC L I U. assert (SP : exists a b q, pts = a ++ q :: b /\ ~ In (snd q) classes /\ forall r, In r a -> In (snd r) classes).
  { clear - I U. induction pts as [|q r IH]; [destruct I|]. destruct (in_dec Z.eq_dec (snd q) classes) as [J|J].
    - destruct I as [->|I]; [easy|]. destruct (IH I) as (a & b & w & -> & W & H). exists (q :: a), b, w. split; auto. split; auto. intros x [<-|X]; auto.
    - exists [], r, q. split; auto. split; auto. intros x []. }
  destruct SP as (a & b & q & -> & Q & H). unfold create_cls.
  destruct (open_all_ok path names d ND) as (d1 & ss & fs & -> & _ & AE & _).
  destruct (put_points_ok show (fun n => n ++ plt) names classes plt_inj ND NC L a d1 ss _ H AE) as (d2 & ss2 & E & _).
  assert (X : forall st st', put_points show names classes a st = Ok st' -> put_points show names classes (a ++ q :: b) st = UB).
  { clear - Q L. induction a as [|w r IH]; intros st st' E; cbn [app put_points] in *.
    - rewrite find_pos_out by auto. unfold vget. rewrite (proj2 (nth_error_None _ _)) by lia. reflexivity.
    - destruct (vget names _); try discriminate. cbn [obind] in *. destruct (put_coords _ _ _ _ _ _); try discriminate. cbn [obind] in *. eauto. }
  now rewrite (X _ _ E).
Qed.
Lemma c120_unknown_refuted_ex : let pts := [([true], 0%Z); ([false], 7%Z)] in
  NoDup (map list_ascii_of_string ["a"]%string) /\ NoDup [0]%Z /\ In ([false], 7%Z) pts /\ ~ In 7%Z [0%Z].
Proof. cbv zeta. split; [|split; [|split]]; try (repeat constructor; cbn; tauto). cbn. auto. cbn. intros [H|[]]. discriminate. Qed.

Lemma c120_regression (A : Type) (show : A -> str) (path dname : str) (dim : nat) (pts : valued A) (d : folder) :
  (forall p, In p pts -> dim <= List.length (fst p)) ->
  exists d' f, create_reg show path dname dim pts d = Ok (d', [f]) /\ fget d' samples_plt = Some (reg_text show dim pts) /\
  (forall m, m <> samples_plt -> fget d' m = fget d m) /\ (dname = [] -> f = path ++ samples_plt).
Proof.
  intros H. assert (C : forall n x j, j + n <= List.length x -> reg_coords show x j n = Ok (concat (map (fun a => show a ++ sp) (firstn n (skipn j x))))).
  { induction n as [|n IH]; intros x j L; cbn [reg_coords]; auto. destruct (nth_error x j) as [a|] eqn:E; [|apply nth_error_None in E; lia].
    unfold vget. rewrite E. cbn [obind]. rewrite IH by lia. cbn [obind].
    replace (skipn j x) with (a :: skipn (S j) x). cbn [firstn map concat]. now rewrite <- app_assoc.
    clear - E. revert j E. induction x as [|y x IH]; intros [|j] E; cbn in *; try discriminate; [now injection E as ->|auto]. }
  assert (W : forall l t, concat (map (fun a => show a ++ sp) l) ++ t ++ nl = line (map show l ++ [t])).
  { intros l t. unfold line. destruct (map show l ++ [t]) eqn:E; [now destruct l|]. rewrite <- E. clear E. rewrite app_assoc. f_equal.
    induction l as [|a l IH]; auto. cbn [map concat app words]. destruct (map show l ++ [t]) eqn:E; [now destruct l|]. rewrite <- E in *.
    rewrite <- IH. unfold sp. rewrite <- !app_assoc. reflexivity. }
  assert (LN : reg_lines show dim pts = Ok (reg_text show dim pts)).
  { induction pts as [|p r IH]; auto. cbn [reg_lines]. rewrite C by (cbn; apply H; now left). cbn [obind]. rewrite IH by (intros; apply H; now right).
    cbn [obind]. unfold reg_text. cbn [map concat]. rewrite <- W. cbn [skipn]. now rewrite <- !app_assoc. }
  unfold create_reg. rewrite LN. cbn [obind]. eexists _, _. split; [reflexivity|]. split; [apply fget_fset_same|]. split; [apply fget_fset_other|].
  now intros ->.
Qed.
Lemma c120_regression_ex : let show := fun z : Z => list_ascii_of_string (string_of_Z z) in
  exists d f, create_reg show [] [] 1 [([1%Z], 2%Z)] [] = Ok (d, [f]) /\
    fget d samples_plt = Some (list_ascii_of_string (String.append "1 2" (String (ascii_of_nat 10) EmptyString))).
Proof. eexists _, _. split; vm_compute; reflexivity. Qed.

Lemma c120_regression_name_refuted (A : Type) (show : A -> str) (path dname : str) (dim : nat) (pts : valued A) (d : folder) (fs : list str) :
  dname <> [] -> dname <> list_ascii_of_string "samples" -> create_reg show path dname dim pts [] = Ok (d, fs) ->
  fs = [path ++ dname ++ plt] /\ fget d (dname ++ plt) = None.
Proof.
  intros N S1. unfold create_reg. destruct (reg_lines show dim pts); try discriminate. cbn [obind]. intros H. injection H as <- <-.
  split; [now destruct dname|]. cbn [fset fget]. rewrite str_eqb_ne; auto. intros E. symmetry in E. apply S1. change samples_plt with (list_ascii_of_string "samples" ++ plt) in E.
  now apply plt_inj in E.
Qed.
Lemma c120_regression_name_refuted_ex : exists d fs, create_reg (fun b : bool => if b then ["1"%char] else ["0"%char]) [] (list_ascii_of_string "blobs") 1 [([true], false)] [] = Ok (d, fs).
Proof. eexists _, _. vm_compute. reflexivity. Qed.

(** *** C121 *)
Lemma c121_titles (A : Type) (show : A -> str) (path : str) (names : list str) (classes : list Z) (pts : labelled A) (d : folder) (fs ls : list str) :
  plot_path path -> plottable names classes pts -> names <> [] ->
  Forall (fun n => n <> [] /\ ~ In "/"%char n /\ ~ In "."%char n) names ->
  create_cls show path names classes pts [] = Ok (d, fs) -> listing d ls ->
  exists ks, label_order classes ks /\
  let cmd := map (fun k => (path ++ nth k names [] ++ plt, nth k names [])) ks in
  plot2D path names classes ls = Ok cmd /\ plot_by_class path names classes ls = Ok cmd.
Proof.
  intros PP PL NE G E LS. assert (SF : Forall slashfree names). { eapply Forall_impl; [|exact G]. intros a (_ & H & _). exact H. }
  destruct (listing_files show path names classes pts d fs ls PL SF E LS) as (is & P & TF). destruct PL as (ND & NC & L & _). rewrite Forall_forall in G.
  destruct (sort_labels_ok false names classes (fun i => path ++ nth i names [] ++ plt) is ND NC L) as (ks & LO & SL).
  - now rewrite <- L.
  - intros i I. destruct (G (nth i names [])) as (G1 & G2 & G3); [now apply nth_In|].
    pose proof (title_pre false path (nth i names []) (list_ascii_of_string "plt") PP G3 G2) as T. cbn [plt list_ascii_of_string] in T |- *. rewrite T.
    unfold str in *; destruct (nth i names []); [now elim G1|reflexivity].
  - exists ks. split; auto. cbv zeta. pose proof (label_order_length _ _ LO) as LK. unfold plot2D, plot_by_class. rewrite TF. unfold str in *. rewrite SL. cbn [obind fst snd].
    assert (N0 : List.length names <> 0) by (destruct names; [easy|discriminate]).
    rewrite map_length. split; apply entries_ok; lia.
Qed.
Lemma c121_titles_ex :
  let show := fun b : bool => if b then ["1"%char] else ["0"%char] in
  let s := list_ascii_of_string in
  let names := map s ["yes"; "no"]%string in
  let pts := [([true], 5%Z); ([false], 3%Z)] in
  exists d fs, plot_path (s "plottemp0/"%string) /\ plottable names [5; 3]%Z pts /\ create_cls show (s "plottemp0/"%string) names [5; 3]%Z pts [] = Ok (d, fs) /\
    listing d (map s [".."; "yes.plt"; "."; "no.plt"]%string) /\
    plot2D (s "plottemp0/"%string) names [5; 3]%Z (map s [".."; "yes.plt"; "."; "no.plt"]%string) =
      Ok [(s "plottemp0/no.plt"%string, s "no"%string); (s "plottemp0/yes.plt"%string, s "yes"%string)].
Proof.
  cbv zeta. eexists _, _. split; [|split; [|split; [vm_compute; reflexivity|split]]].
  - exists (list_ascii_of_string "plottemp0"). split; [reflexivity|]. split; [discriminate|]. repeat split; cbn; intros H; repeat destruct H as [H|H]; try discriminate; auto.
  - split; [|split; [|split; [reflexivity|]]].
    + repeat constructor; cbn; intros H; repeat destruct H as [H|H]; try discriminate; auto.
    + repeat constructor; cbn; intros H; repeat destruct H as [H|H]; try discriminate; auto.
    + intros p H; repeat destruct H as [<-|H]; cbn; auto.
  - unfold listing. cbn [map app fst]. set (a := list_ascii_of_string "."). set (b := list_ascii_of_string "..").
    eapply perm_trans; [|apply perm_swap]. apply perm_skip. apply perm_swap.
  - vm_compute. reflexivity.
Qed.

(** What stands before the first '.' of the file is not a class name. *)
Lemma c121_dot_refuted (A : Type) (show : A -> str) (path : str) (names : list str) (classes : list Z) (pts : labelled A) (d : folder) (fs ls : list str) (n a r : str) :
  plot_path path -> plottable names classes pts -> Forall slashfree names -> 2 <= List.length names -> In n names ->
  n ++ plt = a ++ "."%char :: r -> ~ In "."%char a -> a = [] \/ ~ In a names ->
  create_cls show path names classes pts [] = Ok (d, fs) -> listing d ls ->
  (forall cmd, plot2D path names classes ls <> Ok cmd) /\ (forall cmd, plot_by_class path names classes ls <> Ok cmd).
Proof.
  intros PP PL SF N2 I EN DF AN E LS.
  destruct (listing_files show path names classes pts d fs ls PL SF E LS) as (is & P & TF). destruct PL as (ND & NC & L & _).
  assert (SA : slashfree a).
  { rewrite Forall_forall in SF. specialize (SF n I). intros X. assert (Y : In "/"%char (n ++ plt)) by (rewrite EN; apply in_app_iff; auto).
    apply in_app_iff in Y as [Y|Y]; [easy|]. cbn in Y. repeat destruct Y as [Y|Y]; try discriminate Y. destruct Y. }
  pose proof (title_pre false path a r PP DF SA) as T.
  assert (F : forall q, sort_labels false names classes (temp_files path ls) <> Ok q).
  { apply (sort_labels_fails false names classes _ (path ++ n ++ plt) a); auto.
    - rewrite TF, map_length. apply Permutation_length in P. rewrite seq_length in P. lia.
    - rewrite TF. apply in_map_iff. destruct (In_nth _ _ [] I) as (k & K & X). exists k. split; [unfold str in *; now rewrite X|].
      eapply Permutation_in; [symmetry; exact P|]. apply in_seq. unfold str in *. lia.
    - rewrite EN, T. destruct a; [discriminate|]. destruct AN as [AN|AN]; [discriminate|auto].
    - rewrite EN, T. destruct a; [right; discriminate|now left]. }
  unfold plot2D, plot_by_class. split; intros cmd H; destruct (sort_labels false names classes (temp_files path ls)) eqn:S; try discriminate; now apply (F a0).
Qed.
Lemma c121_dot_refuted_ex :
  let s := list_ascii_of_string in let names := map s ["v1.5"; "v2"]%string in
  plottable names [0; 1]%Z [([true], 0%Z)] /\ s "v1.5"%string ++ plt = s "v1"%string ++ "."%char :: s "5.plt"%string /\ ~ In (s "v1"%string) names.
Proof.
  cbv zeta. split; [|split; [reflexivity|]]. split; [|split; [|split; [reflexivity|]]].
  - repeat constructor; cbn; intros H; repeat destruct H as [H|H]; try discriminate; auto.
  - repeat constructor; cbn; intros H; repeat destruct H as [H|H]; try discriminate; auto.
  - intros p H; repeat destruct H as [<-|H]; cbn; auto.
  - cbn. intros H; repeat destruct H as [H|H]; try discriminate; auto.
Qed.

(** No class at all: the loops run past the end. *)
Lemma c121_none_refuted (path : str) (classes : list Z) (ls : list str) : filter valid_file ls = [] ->
  plot2D path [] classes ls = UB /\ plot_by_class path [] classes ls = UB.
Proof. intros H. unfold plot2D, plot_by_class, temp_files. rewrite H. split; reflexivity. Qed.
Lemma c121_none_refuted_ex : filter valid_file (map list_ascii_of_string ["."; ".."]%string) = [].
Proof. reflexivity. Qed.

(** plot3D loops over the class names: data without classes. *)
Lemma c121_regression_refuted (A : Type) (show : A -> str) (path dname : str) (dim : nat) (pts : valued A) (d : folder) (fs ls : list str) :
  plot_path path -> create_reg show path dname dim pts [] = Ok (d, fs) -> listing d ls ->
  plot2D path [] [] ls = Ok [(path ++ samples_plt, list_ascii_of_string "samples")] /\ plot_by_class path [] [] ls = UB.
Proof.
  intros PP E LS. unfold create_reg in E. destruct (reg_lines show dim pts); try discriminate. cbn [obind fset] in E. injection E as <- <-.
  unfold listing in LS. apply (perm_filter valid_file) in LS. cbn [map app fst] in LS.
  assert (F : filter valid_file ls = [samples_plt]). { apply Permutation_sym, Permutation_length_1_inv in LS; auto. }
  unfold plot2D, plot_by_class, temp_files. rewrite F. cbn [map].
  assert (D : ~ In "."%char (list_ascii_of_string "samples")) by (cbn; intros H; repeat destruct H as [H|H]; try discriminate; auto).
  assert (S : slashfree (list_ascii_of_string "samples")) by (unfold slashfree; cbn; intros H; repeat destruct H as [H|H]; try discriminate; auto).
  pose proof (title_pre false path (list_ascii_of_string "samples") (list_ascii_of_string "plt") PP D S) as T.
  unfold sort_labels. cbn [omap]. change (path ++ samples_plt) with (path ++ list_ascii_of_string "samples" ++ "."%char :: list_ascii_of_string "plt").
  rewrite T. cbn [obind osort oinsert fst snd]. split; reflexivity.
Qed.
Lemma c121_regression_refuted_ex : exists d fs, create_reg (fun b : bool => if b then ["1"%char] else ["0"%char]) (list_ascii_of_string "plottemp0/") [] 1 [([true], false)] [] = Ok (d, fs) /\
  listing d (map list_ascii_of_string ["."; ".."; "samples.plt"]%string).
Proof. eexists _, _. split; [vm_compute; reflexivity|]. apply Permutation_refl. Qed.

(** The decision surface: its own files, and names without '_'. *)
Lemma c121_decision (A : Type) (show : A -> str) (showy : Z -> str) (path ts : str) (names : list str) (classes : list Z) (pts : labelled A) (d : folder) :
  plot_path path -> slashfree ts -> plottable names classes pts -> Forall (fun n => n <> [] /\ ~ In "/"%char n /\ ~ In "_"%char n) names ->
  (forall p, In p pts -> 2 <= List.length (fst p)) ->
  exists d' ks, label_order classes ks /\
  plot_decision show showy path ts names classes pts d = Ok (d', Some (map (fun k => (path ++ dec_file ts (nth k names []), nth k names [])) ks)) /\
  (forall k n c, nth_error names k = Some n -> nth_error classes k = Some c -> fget d' (dec_file ts n) = Some (dec_text show showy pts c)) /\
  (forall m, (forall n, In n names -> m <> dec_file ts n) -> fget d' m = fget d m).
Proof.
  intros PP TS (ND & NC & L & HP) G TWO. rewrite Forall_forall in G.
  assert (OK : forall a, In a names -> okname (dec_file ts a) = true). { intros a I. rewrite okname_dec by auto. apply okname_iff. now apply G. }
  destruct (open_dec_at_end path ts names d ND OK) as (d1 & ss & E & AE & F1).
  destruct (put_dec_ok show showy ts names classes ND NC L pts d1 ss _ (fun p I => conj (HP p I) (TWO p I)) AE) as (d2 & ss2 & E2 & (_ & H2) & F2).
  destruct (sort_labels_ok true names classes (fun i => path ++ dec_file ts (nth i names [])) (seq 0 (List.length names)) ND NC L) as (ks & LO & SL).
  - now rewrite L.
  - intros i I. destruct (G (nth i names [])) as (G1 & G2 & G3); [now apply nth_In|].
    pose proof (title_pre true path (nth i names []) (list_ascii_of_string "data" ++ ts ++ list_ascii_of_string ".dat") PP G3 G2) as T.
    unfold dec_file. cbn [list_ascii_of_string app] in T |- *. rewrite T. unfold str in *; destruct (nth i names []); [now elim G1|reflexivity].
  - exists d2, ks. split; auto. split; [|split].
    + unfold plot_decision. rewrite <- L, E. cbn [obind]. rewrite E2. cbn [obind].
      rewrite <- (map_map (fun i => nth i names []) (fun a => path ++ dec_file ts a)) in SL. rewrite <- names_seq in SL. rewrite SL. cbn [obind fst snd].
      pose proof (label_order_length _ _ LO) as LK. destruct (Nat.eq_dec (List.length ks) 0) as [Z0|Z0].
      * destruct ks; [reflexivity|discriminate].
      * pose proof (entries_ok (fun i => path ++ dec_file ts (nth i names [])) (fun k => nth k names []) ks _ eq_refl Z0) as EN.
        unfold entries in EN. rewrite map_length. destruct (List.length ks); [easy|]. unfold str in *. rewrite EN. reflexivity.
    + intros k n c K C. pose proof (H2 _ _ K) as X. rewrite OK in X by (eapply nth_error_In; eauto). destruct X as (_ & X). rewrite X. f_equal. cbn [app].
      now rewrite (nth_error_nth _ _ 0%Z C).
    + intros m M. rewrite F2, F1; auto.
Qed.
Lemma c121_decision_ex :
  let show := fun b : bool => if b then ["1"%char] else ["0"%char] in
  let s := list_ascii_of_string in
  let nl := String (ascii_of_nat 10) EmptyString in
  exists d, plot_decision show (fun z => s (string_of_Z z)) (s "plottemp0/"%string) (s "12"%string) (map s ["yes"; "no"]%string) [5; 3]%Z [([true; false], 5%Z); ([true; true], 3%Z)] [] =
    Ok (d, Some [(s "plottemp0/no_data12.dat"%string, s "no"%string); (s "plottemp0/yes_data12.dat"%string, s "yes"%string)]) /\
    fget d (s "yes_data12.dat"%string) = Some (s (String.append "1 0 5" nl)).
Proof. cbv zeta. eexists. split; vm_compute; reflexivity. Qed.

Lemma c121_underscore_refuted (A : Type) (show : A -> str) (showy : Z -> str) (path ts : str) (names : list str) (classes : list Z) (pts : labelled A) (d : folder) (n a r : str) :
  plot_path path -> slashfree ts -> plottable names classes pts -> Forall slashfree names -> 2 <= List.length names -> In n names ->
  n ++ ["_"%char] = a ++ "_"%char :: r -> ~ In "_"%char a -> a = [] \/ ~ In a names ->
  forall q, plot_decision show showy path ts names classes pts d <> Ok q.
Proof.
  intros PP TS (ND & NC & L & HP) SF N2 I EN DF AN. rewrite Forall_forall in SF.
  assert (OK : forall b, In b names -> okname (dec_file ts b) = true). { intros b J. rewrite okname_dec by auto. apply okname_iff. now apply SF. }
  destruct (open_dec_at_end path ts names d ND OK) as (d1 & ss & E & AE & F1).
  assert (SA : slashfree a).
  { intros X. assert (Y : In "/"%char (n ++ ["_"%char])) by (rewrite EN; apply in_app_iff; auto).
    apply in_app_iff in Y as [Y|[Y|[]]]; [|discriminate]. now apply (SF n). }
  assert (EN2 : dec_file ts n = a ++ "_"%char :: (r ++ list_ascii_of_string "data" ++ ts ++ list_ascii_of_string ".dat")).
  { unfold dec_file. change (list_ascii_of_string "_data") with (["_"%char] ++ list_ascii_of_string "data"). rewrite <- app_assoc. rewrite app_assoc, EN.
    rewrite <- app_assoc. reflexivity. }
  pose proof (title_pre true path a (r ++ list_ascii_of_string "data" ++ ts ++ list_ascii_of_string ".dat") PP DF SA) as T. cbv iota zeta in T. rewrite <- EN2 in T.
  assert (F : forall q, sort_labels true names classes (map (fun b => path ++ dec_file ts b) names) <> Ok q).
  { apply (sort_labels_fails true names classes _ (path ++ dec_file ts n) a); auto.
    - rewrite map_length. lia.
    - apply in_map_iff. eauto.
    - rewrite T. destruct a; [discriminate|]. destruct AN as [AN|AN]; [discriminate|auto].
    - rewrite T. destruct a; [right; discriminate|now left]. }
  intros q. unfold plot_decision. rewrite <- L, E. cbn [obind]. destruct (put_dec show showy classes pts (d1, ss)) as [st| |]; try discriminate. cbn [obind].
  destruct (sort_labels true names classes (map (fun b => path ++ dec_file ts b) names)) eqn:S; try discriminate. now destruct (F a0).
Qed.
Lemma c121_underscore_refuted_ex :
  let s := list_ascii_of_string in
  s "iris_setosa"%string ++ ["_"%char] = s "iris"%string ++ "_"%char :: s "setosa_"%string /\
  plot_decision (fun b : bool => if b then ["1"%char] else ["0"%char]) (fun z => s (string_of_Z z)) (s "plottemp0/"%string) (s "12"%string)
    (map s ["iris_setosa"; "other"]%string) [0; 1]%Z [([true; false], 0%Z)] [] = Abort.
Proof. cbv zeta. split; vm_compute; reflexivity. Qed.

Lemma c121_decision_slash_refuted (A : Type) (show : A -> str) (showy : Z -> str) (path ts : str) (names : list str) (classes : list Z) (pts : labelled A) (d : folder) (n : str) :
  slashfree ts -> List.length names = List.length classes -> In n names -> In "/"%char n ->
  exists d', plot_decision show showy path ts names classes pts d = Ok (d', None).
Proof.
  intros TS L I SL. assert (B : okname n = false). { destruct (okname n) eqn:B; auto. apply okname_iff in B. easy. }
  destruct (In_nth _ _ [] I) as (k & K & X).
  destruct (open_dec_fails path ts names n TS (List.length classes) 0 d) as (d' & E); auto; [lia|exists k; split; [unfold str in *; lia|exact X]|].
  exists d'. unfold plot_decision. now rewrite E.
Qed.
Lemma c121_decision_slash_refuted_ex : In "/"%char (list_ascii_of_string "w/o") /\ slashfree (list_ascii_of_string "12").
Proof. split; [cbn; auto|]. unfold slashfree. cbn. intros H; repeat destruct H as [H|H]; try discriminate; auto. Qed.
