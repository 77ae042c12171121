(** Lemmas about the titles of the plots. *)
From Coq Require Import ZArith Ascii Bool String List Arith Permutation Sorted Lia.
From Verif Require Import Base M_Str S_Str L_Str3 T_Str M_Plot S_Plot L_Plot.
Import ListNotations.
Local Open Scope nat_scope.

Lemma token_runs s c l i : runs c s l -> token s c i = vget l i.
Proof. intros H. unfold token. destruct (c20_tokenize s c) as (l' & -> & _ & U). now rewrite (U _ H). Qed.
Lemma token_first t c s : t <> [] -> ~ In c t -> token (t ++ c :: s) c 0 = Ok t.
Proof.
  intros N I. destruct (c20_tokenize (c :: s) c) as (l & _ & R & _). exact (token_runs _ _ (t :: l) 0 (runs_cons c 0 t s l N I R)).
Qed.
Lemma token_empty c s : forall u, token (c :: s) c 0 = Ok u -> ~ In c u.
Proof.
  intros u. unfold token. destruct (c20_tokenize (c :: s) c) as (l & -> & R & _). intros E. unfold vget in E.
  destruct l as [|t l]; [discriminate|]. injection E as <-. inversion R; subst; auto.
Qed.
Lemma token_second b c n : b <> [] -> ~ In c b -> n <> [] -> ~ In c n -> token (b ++ c :: n) c 1 = Ok n.
Proof.
  intros N I N2 I2. exact (token_runs _ _ [b; n] 1 (runs_cons c 0 b n [n] N I (runs_last c 1 n N2 I2))).
Qed.
Lemma token_second_none b c : b <> [] -> ~ In c b -> token (b ++ [c]) c 1 = UB.
Proof. intros N I. exact (token_runs _ _ [b] 1 (runs_cons c 0 b [] [] N I (runs_end c 1))). Qed.

(** The text from the path to the separator is the title. *)
Lemma title_pre (dec : bool) path n r : let c := (if dec then "_" else ".")%char in plot_path path -> ~ In c n -> slashfree n ->
  title_of dec (path ++ n ++ c :: r) = match n with [] => UB | _ => Ok n end.
Proof.
  intros c (b & -> & NB & S1 & D1 & U1) NC NS. unfold title_of. fold c.
  assert (CS : ~ In c ["/"%char]) by (unfold c; destruct dec; cbn [In]; intros [E|[]]; discriminate).
  assert (CB : ~ In c b) by (unfold c; destruct dec; auto).
  rewrite <- app_assoc. replace (b ++ ["/"%char] ++ n ++ c :: r) with ((b ++ "/"%char :: n) ++ c :: r) by now rewrite <- !app_assoc.
  rewrite token_first.
  - cbn [obind]. destruct n as [|x n]. now apply token_second_none. now apply token_second.
  - destruct b; discriminate.
  - rewrite in_app_iff. cbn [In]. intros [H|[H|H]]; auto. apply CS. left. auto.
Qed.

Lemma omap_ok {A B} (f : A -> outcome B) (g : A -> B) l : (forall x, In x l -> f x = Ok (g x)) -> omap f l = Ok (map g l).
Proof. induction l as [|x r IH]; intros H; auto. cbn [omap map]. rewrite H by now left. cbn [obind]. rewrite IH; auto. intros; apply H; now right. Qed.
Lemma omap_inv {A B} (f : A -> outcome B) l l' : omap f l = Ok l' -> List.length l' = List.length l /\ forall x, In x l -> exists y, f x = Ok y /\ In y l'.
Proof.
  revert l'. induction l as [|x r IH]; intros l' H; cbn [omap] in H.
  - injection H as <-. split; auto. intros x [].
  - destruct (f x) as [y| |] eqn:E; try discriminate. cbn [obind] in H. destruct (omap f r) as [t| |] eqn:E2; try discriminate. injection H as <-.
    destruct (IH _ eq_refl) as (L & I). split; [cbn [List.length]; lia|]. intros z [<-|Z]; [exists y; split; [auto|now left]|].
    destruct (I _ Z) as (w & W1 & W2). exists w. split; auto. now right.
Qed.

(** Sorting with a comparison of keys. *)
Definition kleb (key : nat -> Z) (i j : nat) : bool := negb (Z.ltb (key j) (key i)).
Lemma oinsert_map {A} (lt : A -> A -> outcome bool) (f : nat -> A) key i l :
  (forall a b, In a (i :: l) -> In b (i :: l) -> lt (f a) (f b) = Ok (Z.ltb (key a) (key b))) ->
  oinsert lt (f i) (map f l) = Ok (map f (insert_sorted (kleb key) i l)).
Proof.
  induction l as [|j r IH]; intros H; auto. cbn [oinsert map insert_sorted]. rewrite H; [|right; now left|now left]. cbn [obind]. unfold kleb at 1.
  destruct (Z.ltb (key j) (key i)); cbn [negb]; auto. rewrite IH; [reflexivity|]. intros a b X Y. apply H; cbn [In] in *; tauto.
Qed.
Lemma insert_perm {A} (leb : A -> A -> bool) x l : Permutation (insert_sorted leb x l) (x :: l).
Proof. induction l as [|y r IH]; cbn [insert_sorted]; auto. destruct (leb x y); auto. rewrite IH. constructor. Qed.
Lemma isort_permut {A} (leb : A -> A -> bool) l : Permutation (isort leb l) l.
Proof. induction l as [|x r IH]; cbn [isort]; auto. now rewrite insert_perm, IH. Qed.
Lemma osort_map {A} (lt : A -> A -> outcome bool) (f : nat -> A) key l :
  (forall a b, In a l -> In b l -> lt (f a) (f b) = Ok (Z.ltb (key a) (key b))) ->
  osort lt (map f l) = Ok (map f (isort (kleb key) l)).
Proof.
  induction l as [|i r IH]; intros H; auto. cbn [osort map isort]. rewrite IH; [|intros; apply H; now right]. cbn [obind].
  apply oinsert_map. assert (P : forall a, In a (i :: isort (kleb key) r) -> In a (i :: r)).
  { intros a [X|X]; [now left|]. right. eapply Permutation_in; [apply isort_permut|exact X]. }
  auto.
Qed.
Lemma insert_key_sorted (key : nat -> Z) i l : StronglySorted (fun a b => (key a <= key b)%Z) l -> StronglySorted (fun a b => (key a <= key b)%Z) (insert_sorted (kleb key) i l).
Proof.
  induction l as [|j r IH]; intros H; cbn [insert_sorted]. constructor; auto. inversion H as [|? ? S1 F]; subst. unfold kleb at 1.
  destruct (Z.ltb_spec (key j) (key i)); cbn [negb].
  - constructor; auto. rewrite Forall_forall in *. intros x X. eapply Permutation_in in X; [|apply insert_perm]. destruct X as [<-|X]; [lia|auto].
  - constructor; auto. constructor; auto. rewrite Forall_forall in *. intros x X. specialize (F x X). lia.
Qed.
Lemma isort_key_sorted (key : nat -> Z) l : StronglySorted (fun a b => (key a <= key b)%Z) (isort (kleb key) l).
Proof. induction l; cbn [isort]. constructor. now apply insert_key_sorted. Qed.
Lemma sorted_strict (key : nat -> Z) l : NoDup l -> (forall a b, In a l -> In b l -> key a = key b -> a = b) ->
  StronglySorted (fun a b => (key a <= key b)%Z) l -> StronglySorted (fun a b => (key a < key b)%Z) l.
Proof.
  intros ND INJ H. induction H as [|x l S1 IH F]; constructor.
  - inversion ND; subst. apply IH; auto. intros. apply INJ; auto; now right.
  - inversion ND; subst. rewrite Forall_forall in *. intros y Y. specialize (F y Y). assert (key x <> key y); [|lia].
    intros E. apply INJ in E; [subst; auto|now left|now right].
Qed.

Lemma label_order_sort classes is : NoDup classes -> Permutation is (seq 0 (List.length classes)) ->
  label_order classes (isort (kleb (fun k => nth k classes 0%Z)) is).
Proof.
  intros ND P. split; [now rewrite isort_permut|]. apply sorted_strict; [| |apply isort_key_sorted].
  - eapply Permutation_NoDup; [symmetry; rewrite isort_permut; exact P|apply seq_NoDup].
  - intros a b X Y E. assert (R : forall a, In a (isort (kleb (fun k => nth k classes 0%Z)) is) -> a < List.length classes).
    { intros c C. eapply Permutation_in in C; [|rewrite isort_permut; exact P]. apply in_seq in C. lia. }
    eapply NoDup_nth; eauto.
Qed.

Lemma name_pos_in n l : In n l -> nth_error l (name_pos n l) = Some n.
Proof. induction l as [|x r IH]; cbn [In name_pos]; [easy|]. intros H. destruct (str_eqb x n) eqn:E. apply str_eqb_eq in E. now subst.
  destruct H as [->|H]; [rewrite str_eqb_refl in E; discriminate|]. cbn [nth_error]. auto. Qed.
Lemma name_pos_out n l : ~ In n l -> name_pos n l = List.length l.
Proof. induction l as [|x r IH]; cbn [In name_pos List.length]; auto. intros H. rewrite str_eqb_ne by tauto. f_equal. tauto. Qed.
Lemma name_pos_nth l k : NoDup l -> k < List.length l -> name_pos (nth k l []) l = k.
Proof.
  intros ND H. assert (I : In (nth k l []) l) by now apply nth_In. pose proof (name_pos_in _ _ I) as P.
  apply (proj1 (NoDup_nth_error l) ND); [|unfold str in *; rewrite P; symmetry; now apply nth_error_nth'].
  apply (nth_error_Some l). intros X. unfold str in *. rewrite X in P. discriminate.
Qed.

Lemma name_lt_ok names classes i j : NoDup names -> List.length names = List.length classes -> i < List.length names -> j < List.length names ->
  name_lt names classes (nth i names []) (nth j names []) = Ok (Z.ltb (nth i classes 0%Z) (nth j classes 0%Z)).
Proof.
  intros ND L I J. unfold name_lt. rewrite !name_pos_nth by auto. unfold class_at.
  rewrite (nth_error_nth' classes 0%Z (n := i)) by lia. rewrite (nth_error_nth' classes 0%Z (n := j)) by lia. reflexivity.
Qed.

(** sortLabels on files whose titles are the class names. *)
Lemma sort_labels_ok dec names classes (file : nat -> str) is : NoDup names -> NoDup classes -> List.length names = List.length classes ->
  Permutation is (seq 0 (List.length classes)) -> (forall i, i < List.length names -> title_of dec (file i) = Ok (nth i names [])) ->
  exists ks, label_order classes ks /\ sort_labels dec names classes (map file is) = Ok (map file ks, map (fun k => nth k names []) ks).
Proof.
  intros ND NC L P T. exists (isort (kleb (fun k => nth k classes 0%Z)) is). split; [now apply label_order_sort|].
  assert (R : forall i, In i is -> i < List.length names). { intros i I. eapply Permutation_in in I; [|exact P]. apply in_seq in I. lia. }
  unfold sort_labels. rewrite (omap_ok (title_of dec) (fun f => match title_of dec f with Ok t => t | _ => [] end)).
  2:{ intros x X. apply in_map_iff in X as (i & <- & I). now rewrite T by auto. }
  cbn [obind]. rewrite map_map. rewrite (map_ext_in _ (fun i => nth i names [])).
  2:{ intros i I. now rewrite T by auto. }
  rewrite (osort_map _ _ (fun k => nth k classes 0%Z)). 2:{ intros. apply name_lt_ok; auto. }
  cbn [obind]. rewrite (osort_map _ _ (fun k => nth k classes 0%Z)).
  2:{ intros a b A B. unfold file_lt. rewrite !T by auto. cbn [obind]. apply name_lt_ok; auto. }
  reflexivity.
Qed.

Lemma entries_ok (file title : nat -> str) ks n : List.length ks = n -> n <> 0 -> entries n (map file ks) (map title ks) = Ok (map (fun k => (file k, title k)) ks).
Proof.
  intros L N. unfold entries. destruct n; [easy|]. rewrite (omap_ok _ (fun i => (file (nth i ks 0), title (nth i ks 0)))).
  - f_equal. rewrite <- (map_map (fun i => nth i ks 0) (fun k => (file k, title k))). f_equal. rewrite <- L. clear.
    induction ks as [|k r IH]; auto. cbn [List.length seq map nth]. f_equal. rewrite <- seq_shift, map_map. exact IH.
  - intros i I. apply in_seq in I. unfold vget. rewrite !nth_error_map, (nth_error_nth' ks 0) by lia. reflexivity.
Qed.
Lemma label_order_length classes ks : label_order classes ks -> List.length ks = List.length classes.
Proof. intros (P & _). apply Permutation_length in P. now rewrite seq_length in P. Qed.

(** The listing of the folder. *)
Lemma valid_plt n : valid_file (n ++ plt) = true.
Proof.
  unfold valid_file. rewrite app_length. rewrite (proj2 (Nat.ltb_ge _ _)) by (cbn [plt List.length list_ascii_of_string]; lia).
  rewrite rev_app_distr. reflexivity.
Qed.
Lemma perm_filter {A} (f : A -> bool) l l' : Permutation l l' -> Permutation (filter f l) (filter f l').
Proof.
  induction 1 as [|x l l' P IH|x y l|l1 l2 l3 P1 IH1 P2 IH2]; cbn [filter]; auto.
  - destruct (f x); auto.
  - destruct (f x), (f y); auto. constructor.
  - now transitivity (filter f l2).
Qed.
Lemma names_seq (names : list str) : names = map (fun i => nth i names []) (seq 0 (List.length names)).
Proof. induction names as [|n r IH]; auto. cbn [List.length seq map nth]. f_equal. rewrite <- seq_shift, map_map. exact IH. Qed.
Lemma filter_true_all {A} (f : A -> bool) l : (forall x, In x l -> f x = true) -> filter f l = l.
Proof. induction l as [|x r IH]; intros H; auto. cbn [filter]. rewrite H by now left. f_equal. apply IH. intros; apply H; now right. Qed.

Lemma listing_files {A} (show : A -> str) path names classes (pts : list (list A * Z)) d fs ls : plottable names classes pts -> Forall slashfree names ->
  create_cls show path names classes pts [] = Ok (d, fs) -> listing d ls ->
  exists is, Permutation is (seq 0 (List.length names)) /\ temp_files path ls = map (fun i => path ++ nth i names [] ++ plt) is.
Proof.
  intros PL SF E LS. destruct (create_cls_ok show path names classes pts [] PL) as (d' & E' & _ & _ & K & N). rewrite E' in E. injection E as -> _.
  assert (OK : forall a, In a names -> okname a = true). { intros a I. apply okname_iff. rewrite Forall_forall in SF. auto. }
  assert (P : Permutation (map fst d) (map (fun n => n ++ plt) names)).
  { apply NoDup_Permutation.
    - apply N. constructor.
    - apply FinFun.Injective_map_NoDup; [intros a b; apply plt_inj|apply PL].
    - intros m. rewrite K. cbn [map In]. split.
      + intros [[]|(a & I & _ & ->)]. apply in_map_iff. exists a. auto.
      + intros X. apply in_map_iff in X as (a & <- & I). right. exists a. auto. }
  unfold listing in LS. apply (perm_filter valid_file) in LS. rewrite filter_app in LS. cbn [map filter] in LS.
  replace (valid_file (list_ascii_of_string ".")) with false in LS by reflexivity.
  replace (valid_file (list_ascii_of_string "..")) with false in LS by reflexivity. cbn [app] in LS.
  rewrite (perm_filter valid_file _ _ P) in LS. rewrite (filter_true_all valid_file (map (fun n => n ++ plt) names)) in LS.
  2:{ intros x X. apply in_map_iff in X as (n & <- & _). apply valid_plt. }
  rewrite (names_seq names) in LS at 1. rewrite map_map in LS. apply Permutation_map_inv in LS as (is & E & Q).
  exists is. split; [now symmetry|]. unfold temp_files. rewrite E, map_map. reflexivity.
Qed.

(** A sort that succeeds has compared every element. *)
Lemma oinsert_inv {A} (lt : A -> A -> outcome bool) x l l' : oinsert lt x l = Ok l' -> Permutation l' (x :: l).
Proof.
  revert l'. induction l as [|y r IH]; intros l' H; cbn [oinsert] in H. now injection H as <-.
  destruct (lt y x) as [[|]| |]; try discriminate; cbn [obind] in H.
  - destruct (oinsert lt x r) as [t| |] eqn:E; try discriminate. injection H as <-. rewrite (IH _ eq_refl). constructor.
  - now injection H as <-.
Qed.
Lemma osort_inv {A} (lt : A -> A -> outcome bool) l l' : osort lt l = Ok l' -> Permutation l' l.
Proof.
  revert l'. induction l as [|x r IH]; intros l' H; cbn [osort] in H. now injection H as <-.
  destruct (osort lt r) as [t| |] eqn:E; try discriminate. cbn [obind] in H. apply oinsert_inv in H. now rewrite H, (IH _ eq_refl).
Qed.
Lemma osort_compared {A} (lt : A -> A -> outcome bool) l : forall l', osort lt l = Ok l' -> 2 <= List.length l ->
  forall x, In x l -> exists y b, lt x y = Ok b \/ lt y x = Ok b.
Proof.
  induction l as [|x r IH]; intros l' H L; cbn [osort] in H; [cbn in L; lia|].
  destruct (osort lt r) as [t| |] eqn:E; try discriminate. cbn [obind] in H. pose proof (osort_inv _ _ _ E) as P.
  destruct r as [|y [|z r]]; [cbn in L; lia| |].
  - apply Permutation_sym, Permutation_length_1_inv in P. subst t. cbn [oinsert] in H. destruct (lt y x) as [b| |] eqn:B; try discriminate.
    intros w [<-|[<-|[]]]; eauto.
  - intros w [<-|W]; [|apply (IH _ eq_refl); auto; cbn; lia].
    destruct t as [|u t]. { apply Permutation_length in P. discriminate. }
    cbn [oinsert] in H. destruct (lt u x) as [b| |] eqn:B; try discriminate. eauto.
Qed.

Lemma sort_labels_fails dec names classes files f t : List.length names = List.length classes -> 2 <= List.length files -> In f files ->
  (title_of dec f = Ok t -> ~ In t names) -> (title_of dec f = Ok t \/ forall u, title_of dec f <> Ok u) ->
  forall r, sort_labels dec names classes files <> Ok r.
Proof.
  intros L N I T D r H. unfold sort_labels in H. destruct (omap (title_of dec) files) as [ts| |] eqn:E; try discriminate. cbn [obind] in H.
  destruct (omap_inv _ _ _ E) as (L2 & J). destruct (J f I) as (u & U & IU). destruct D as [D|D]; [|now apply (D u)].
  assert (u = t) by congruence. subst u. specialize (T D).
  destruct (osort (name_lt names classes) ts) as [ts'| |] eqn:E2; try discriminate.
  destruct (osort_compared _ _ _ E2 ltac:(lia) t IU) as (y & b & B). unfold name_lt in B. rewrite (name_pos_out t names T) in B.
  assert (CA : class_at classes (List.length names) = Abort). { unfold class_at. now rewrite (proj2 (nth_error_None _ _)) by lia. }
  destruct B as [B|B].
  - now rewrite CA in B.
  - destruct (class_at classes (name_pos y names)); cbn [obind] in B; [rewrite CA in B|..]; discriminate.
Qed.
