(** Lemmas about the plot files. *)
From Coq Require Import ZArith Ascii Bool String List Arith Permutation Sorted Lia.
From Verif Require Import Base M_Str M_Plot S_Plot.
Import ListNotations.
Local Open Scope nat_scope.

Lemma str_eqb_eq a b : str_eqb a b = true <-> a = b.
Proof. unfold str_eqb. destruct list_eq_dec; split; congruence. Qed.
Lemma str_eqb_refl a : str_eqb a a = true.
Proof. now apply str_eqb_eq. Qed.
Lemma str_eqb_ne a b : a <> b -> str_eqb a b = false.
Proof. unfold str_eqb. destruct list_eq_dec; congruence. Qed.

Lemma fget_fset_same d n c : fget (fset d n c) n = Some c.
Proof. induction d as [|[m x] r IH]; cbn [fset fget]. now rewrite str_eqb_refl.
  destruct (str_eqb m n) eqn:E; cbn [fget]; rewrite E; auto. Qed.
Lemma fget_fset_other d n c m : m <> n -> fget (fset d n c) m = fget d m.
Proof. intros H. induction d as [|[k x] r IH]; cbn [fset fget]. rewrite str_eqb_ne; auto.
  destruct (str_eqb k n) eqn:E; cbn [fget]; destruct (str_eqb k m) eqn:E2; auto.
  apply str_eqb_eq in E, E2. congruence. Qed.
Lemma fset_keys_in d n c : In n (map fst d) -> map fst (fset d n c) = map fst d.
Proof. induction d as [|[m x] r IH]; cbn [fset map fst In]; [easy|]. intros H. destruct (str_eqb m n) eqn:E; cbn [map fst]; auto.
  f_equal. apply IH. destruct H as [H|H]; auto. subst. rewrite str_eqb_refl in E. easy. Qed.
Lemma fset_keys_new d n c : ~ In n (map fst d) -> map fst (fset d n c) = map fst d ++ [n].
Proof. induction d as [|[m x] r IH]; cbn [fset map fst In app]; auto. intros H. rewrite str_eqb_ne; [|intros ->; apply H; auto].
  cbn [map fst]. f_equal. apply IH. auto. Qed.
Lemma fget_in d n c : fget d n = Some c -> In n (map fst d).
Proof. induction d as [|[m x] r IH]; cbn [fget map fst In]; [easy|]. destruct (str_eqb m n) eqn:E; auto. apply str_eqb_eq in E. auto. Qed.
Lemma fget_none d n : ~ In n (map fst d) -> fget d n = None.
Proof. intros H. destruct (fget d n) eqn:E; auto. apply fget_in in E. easy. Qed.

Definition okname (n : str) : bool := negb (existsb (Ascii.eqb "/") n).
Lemma okname_iff n : okname n = true <-> slashfree n.
Proof. unfold okname, slashfree. rewrite negb_true_iff. split; intros H.
  - intros I. assert (E : existsb (Ascii.eqb "/") n = true); [|congruence]. apply existsb_exists. exists "/"%char. split; auto.
  - destruct (existsb (Ascii.eqb "/") n) eqn:E; auto. apply existsb_exists in E as (x & I & X). apply Ascii.eqb_eq in X. subst. easy. Qed.
Lemma okname_plt n : okname (n ++ plt) = okname n.
Proof. unfold okname. rewrite existsb_app. now rewrite orb_false_r. Qed.
Lemma open_out_ok d n : okname n = true -> open_out d n = (fset d n [], Some (n, 0)).
Proof. unfold okname, open_out. rewrite negb_true_iff. now intros ->. Qed.
Lemma open_out_bad d n : okname n = false -> open_out d n = (d, None).
Proof. unfold okname, open_out. rewrite negb_false_iff. now intros ->. Qed.
Lemma plt_inj a b : a ++ plt = b ++ plt -> a = b.
Proof. apply app_inv_tail. Qed.

(** The streams: the [k]-th one is at the end of the file of name [k]. *)
Definition at_end (fn : str -> str) (d : folder) (ss : list stream) (names : list str) (txt : nat -> str) : Prop :=
  List.length ss = List.length names /\
  forall k n, nth_error names k = Some n ->
    if okname (fn n) then nth_error ss k = Some (Some (fn n, List.length (txt k))) /\ fget d (fn n) = Some (txt k)
    else nth_error ss k = Some None.

Lemma upd_some {A} i (f : A -> A) l x : nth_error l i = Some x -> exists l', upd i f l = Some l' /\ List.length l' = List.length l /\
  nth_error l' i = Some (f x) /\ forall j, j <> i -> nth_error l' j = nth_error l j.
Proof.
  revert i. induction l as [|y l IH]; intros [|i] H; cbn [nth_error upd] in *; try discriminate.
  - injection H as ->. exists (f x :: l). split; auto. split; auto. split; auto. intros [|j] J; cbn; congruence.
  - destruct (IH _ H) as (l' & -> & L & N & O). exists (y :: l'). cbn [List.length nth_error]. split; auto. split; [lia|]. split; auto.
    intros [|j] J; cbn [nth_error]; auto.
Qed.

Lemma overlay_end c t : overlay c (List.length c) t = c ++ t.
Proof. unfold overlay. rewrite firstn_all, skipn_all2 by lia. now rewrite app_nil_r. Qed.

Definition addtxt (txt : nat -> str) (k : nat) (t : str) : nat -> str := fun j => if Nat.eqb j k then txt j ++ t else txt j.

Lemma put_at_ok fn d ss names txt k n t : (forall a b, fn a = fn b -> a = b) -> NoDup names -> at_end fn d ss names txt -> nth_error names k = Some n ->
  exists d' ss', put_at (d, ss) k t = Ok (d', ss') /\ at_end fn d' ss' names (addtxt txt k t) /\ map fst d' = map fst d /\
    (forall m, (forall a, In a names -> okname (fn a) = true -> m <> fn a) -> fget d' m = fget d m).
Proof.
  intros INJ ND (L & H) K. pose proof (H _ _ K) as HK. unfold put_at. cbn [fst snd].
  destruct (okname (fn n)) eqn:O.
  - destruct HK as (S1 & F). unfold vget. rewrite S1. cbn [obind]. unfold put. rewrite F, overlay_end.
    destruct (@upd_some stream k (fun _ => Some (fn n, List.length (txt k) + List.length t)) ss _ S1) as (ss' & U & L' & NK & NO).
    unfold vupd. rewrite U. cbn [obind]. eexists _, ss'. split; [reflexivity|]. split; [|split].
    + split; [congruence|]. intros j m J. pose proof (H _ _ J) as HJ. unfold addtxt.
      destruct (Nat.eq_dec j k) as [->|NE].
      * rewrite Nat.eqb_refl. assert (m = n) by congruence. subst m. rewrite O. rewrite NK, fget_fset_same. rewrite app_length. auto.
      * rewrite (proj2 (Nat.eqb_neq j k)) by auto. rewrite (NO _ NE). destruct (okname (fn m)); auto. destruct HJ as (A1 & A2). split; auto.
        rewrite fget_fset_other; auto. intros E. apply INJ in E. subst m.
        apply NE. apply (proj1 (NoDup_nth_error names) ND); [apply nth_error_Some; congruence|congruence].
    + apply fset_keys_in. eapply fget_in; eauto.
    + intros m M. apply fget_fset_other. apply M; auto. eapply nth_error_In; eauto.
  - unfold vget. rewrite HK. cbn [obind put].
    destruct (@upd_some stream k (fun _ => None) ss _ HK) as (ss' & U & L' & NK & NO). unfold vupd. rewrite U. cbn [obind].
    eexists _, ss'. split; [reflexivity|]. split; auto. split; [congruence|]. intros j m J. pose proof (H _ _ J) as HJ. unfold addtxt.
    destruct (Nat.eq_dec j k) as [->|NE].
    + assert (m = n) by congruence. subst m. rewrite O. auto.
    + rewrite (proj2 (Nat.eqb_neq j k)) by auto. rewrite (NO _ NE). auto.
Qed.

Lemma at_end_ext fn d ss names t1 t2 : (forall k, k < List.length names -> t1 k = t2 k) -> at_end fn d ss names t1 -> at_end fn d ss names t2.
Proof. intros E (L & H). split; auto. intros k n K. rewrite <- (E k); [now apply H|]. apply nth_error_Some. congruence. Qed.

(** The text written for the coordinates from [idx] on. *)
Fixpoint ctext {A} (show : A -> str) (n : nat) (xs : list A) (idx : nat) : str :=
  match xs with [] => [] | x :: r => (show x ++ (if Nat.ltb idx (n - 1) then sp else nl)) ++ ctext show n r (S idx) end.
Lemma ctext_line {A} (show : A -> str) xs : forall idx, ctext show (idx + List.length xs) xs idx = line (map show xs).
Proof.
  induction xs as [|x r IH]; intros idx; auto. cbn [ctext List.length map].
  replace (idx + S (List.length r)) with (S idx + List.length r) by lia. rewrite IH. destruct r as [|y r].
  - cbn [List.length map line words]. rewrite (proj2 (Nat.ltb_ge _ _)) by lia. now rewrite app_nil_r.
  - cbn [List.length map line words]. rewrite (proj2 (Nat.ltb_lt _ _)) by lia. unfold sp. rewrite <- !app_assoc. reflexivity.
Qed.

Lemma put_coords_ok {A} (show : A -> str) fn names k nm n : (forall a b, fn a = fn b -> a = b) -> NoDup names -> nth_error names k = Some nm ->
  forall xs idx d ss txt, at_end fn d ss names txt ->
  exists d' ss', put_coords show n k xs idx (d, ss) = Ok (d', ss') /\ at_end fn d' ss' names (addtxt txt k (ctext show n xs idx)) /\ map fst d' = map fst d /\
    (forall m, (forall a, In a names -> okname (fn a) = true -> m <> fn a) -> fget d' m = fget d m).
Proof.
  intros INJ ND K. induction xs as [|x r IH]; intros idx d ss txt H; cbn [put_coords ctext].
  - exists d, ss. split; auto. split; [|auto]. apply (at_end_ext fn d ss names txt); [|exact H]. intros j _. unfold addtxt. destruct Nat.eqb; auto. now rewrite app_nil_r.
  - destruct (put_at_ok fn d ss names txt k nm (show x ++ (if Nat.ltb idx (n - 1) then sp else nl)) INJ ND H K) as (d1 & ss1 & -> & H1 & M1 & F1).
    cbn [obind]. destruct (IH (S idx) d1 ss1 _ H1) as (d2 & ss2 & -> & H2 & M2 & F2). exists d2, ss2. split; auto. split; [|split].
    + eapply at_end_ext; [|eassumption]. intros j _. unfold addtxt. destruct Nat.eqb; auto. now rewrite <- app_assoc.
    + congruence.
    + intros m M. rewrite F2, F1; auto.
Qed.

Lemma find_pos_in c l : In c l -> nth_error l (find_pos c l) = Some c.
Proof. induction l as [|x r IH]; cbn [In find_pos]; [easy|]. intros H. destruct (Z.eqb_spec x c). now subst. destruct H; [easy|]. cbn [nth_error]. auto. Qed.
Lemma find_pos_out c l : ~ In c l -> find_pos c l = List.length l.
Proof. induction l as [|x r IH]; cbn [In find_pos List.length]; auto. intros H. destruct (Z.eqb_spec x c). exfalso; auto. f_equal. auto. Qed.
Lemma find_pos_nth l k c : NoDup l -> nth_error l k = Some c -> find_pos c l = k.
Proof.
  intros ND H. assert (I : In c l) by (eapply nth_error_In; eauto). pose proof (find_pos_in _ _ I) as P.
  apply (proj1 (NoDup_nth_error l) ND); [apply nth_error_Some; congruence|congruence].
Qed.
Lemma nth_same_len {A B} (a : list A) (b : list B) k x : List.length a = List.length b -> nth_error b k = Some x -> exists y, nth_error a k = Some y.
Proof. intros L H. destruct (nth_error a k) as [y|] eqn:E; eauto. apply nth_error_None in E. assert (k < List.length b) by (apply nth_error_Some; congruence). lia. Qed.

Definition ttext {A} (f : list A * Z -> str) (pts : list (list A * Z)) (c : Z) : str :=
  concat (map f (filter (fun p => Z.eqb (snd p) c) pts)).

Lemma put_points_ok {A} (show : A -> str) fn names classes : (forall a b, fn a = fn b -> a = b) -> NoDup names -> NoDup classes ->
  List.length names = List.length classes -> forall pts d ss txt, (forall p, In p pts -> In (snd p) classes) -> at_end fn d ss names txt ->
  exists d' ss', put_points show names classes pts (d, ss) = Ok (d', ss') /\
    at_end fn d' ss' names (fun k => txt k ++ class_text show pts (nth k classes 0%Z)) /\ map fst d' = map fst d /\
    (forall m, (forall a, In a names -> okname (fn a) = true -> m <> fn a) -> fget d' m = fget d m).
Proof.
  intros INJ ND NC L. induction pts as [|p r IH]; intros d ss txt HP H; cbn [put_points].
  - exists d, ss. split; auto. split; [|auto]. apply (at_end_ext fn d ss names txt); [|exact H]. intros j _. cbn. now rewrite app_nil_r.
  - assert (I : In (snd p) classes) by (apply HP; now left). pose proof (find_pos_in _ _ I) as P.
    destruct (nth_same_len names classes _ _ L P) as (nm & N). unfold vget at 1. rewrite N. cbn [obind].
    destruct (put_coords_ok show fn names _ nm (List.length (fst p)) INJ ND N (fst p) 0 d ss txt H) as (d1 & ss1 & -> & H1 & M1 & F1).
    cbn [obind]. destruct (IH d1 ss1 _ (fun q Q => HP q (or_intror Q)) H1) as (d2 & ss2 & -> & H2 & M2 & F2). exists d2, ss2. split; auto. split; [|split].
    + eapply at_end_ext; [|eassumption]. intros j J. cbv beta. unfold addtxt. pose proof (ctext_line show (fst p) 0) as CT. cbn [Nat.add] in CT. rewrite CT.
      unfold class_text. cbn [filter].
      assert (J' : j < List.length classes) by lia. pose proof (nth_error_nth' classes 0%Z J') as E.
      destruct (Nat.eqb_spec j (find_pos (snd p) classes)) as [->|NE].
      * rewrite (nth_error_nth _ _ 0%Z P). rewrite Z.eqb_refl. cbn [map concat]. now rewrite <- app_assoc.
      * destruct (Z.eqb_spec (snd p) (nth j classes 0%Z)) as [Q|Q]; auto. exfalso. apply NE. symmetry. apply find_pos_nth; auto. congruence.
    + congruence.
    + intros m M. rewrite F2, F1; auto.
Qed.

Lemma open_all_ok path names : forall d, NoDup names -> exists d' ss fs, open_all path d names = (d', ss, fs) /\
  fs = map (fun n => path ++ n ++ plt) (filter okname names) /\ at_end (fun n => n ++ plt) d' ss names (fun _ => []) /\
  (forall m, (forall a, In a names -> okname a = true -> m <> a ++ plt) -> fget d' m = fget d m) /\
  (d = [] \/ True -> forall m, In m (map fst d') <-> In m (map fst d) \/ exists a, In a names /\ okname a = true /\ m = a ++ plt) /\
  (NoDup (map fst d) -> NoDup (map fst d')).
Proof.
  induction names as [|n r IH]; intros d ND.
  - exists d, [], []. split; auto. split; auto. split; [|split; [|split]]; auto.
    + split; auto. intros [|k] ? K; discriminate.
    + intros _ m. split; auto. intros [H|(a & [] & _)]; auto.
  - inversion ND as [|? ? NI ND']; subst. cbn [open_all]. destruct (okname n) eqn:O.
    + rewrite open_out_ok by now rewrite okname_plt. destruct (IH (fset d (n ++ plt) []) ND') as (d' & ss & fs & E & FS & (L & H) & F & K & N). rewrite E.
      exists d', (Some (n ++ plt, 0) :: ss), ([path ++ n ++ plt] ++ fs). split; auto. split; [cbn [filter]; rewrite O; cbn [map app]; now rewrite FS|].
      split; [|split; [|split]].
      * split; [cbn [List.length]; lia|]. intros [|k] m M; cbn [nth_error] in *.
        -- injection M as <-. rewrite okname_plt, O. split; auto. rewrite F; [apply fget_fset_same|]. intros a A _ X. apply plt_inj in X. now subst.
        -- now apply H.
      * intros m M. rewrite F; [|intros; apply M; auto; now right]. apply fget_fset_other. apply M; auto. now left.
      * intros _ m. rewrite (K (or_intror Logic.I)). destruct (in_dec (list_eq_dec ascii_dec) (n ++ plt) (map fst d)) as [J|J].
        -- rewrite (fset_keys_in _ _ _ J). split.
           ++ intros [X|(a & X & Y & W)]; auto. right. exists a. split; [now right|auto].
           ++ intros [X|(a & [X|X] & Y & W)]; auto. left. now subst. right. eauto.
        -- rewrite (fset_keys_new _ _ _ J). rewrite in_app_iff. cbn [In]. split.
           ++ intros [[X|[X|[]]]|(a & X & Y & W)]; auto. right. exists n. auto. right. exists a. auto.
           ++ intros [X|(a & [X|X] & Y & W)]; auto. left. right. left. now subst. right. eauto.
      * intros X. apply N. destruct (in_dec (list_eq_dec ascii_dec) (n ++ plt) (map fst d)) as [J|J].
        -- now rewrite (fset_keys_in _ _ _ J).
        -- rewrite (fset_keys_new _ _ _ J). rewrite <- rev_involutive. apply NoDup_rev. rewrite rev_app_distr. cbn [rev app]. constructor; [|now apply NoDup_rev].
           now rewrite <- in_rev.
    + rewrite open_out_bad by now rewrite okname_plt. destruct (IH d ND') as (d' & ss & fs & E & FS & (L & H) & F & K & N). rewrite E.
      exists d', (None :: ss), fs. split; auto. split; [cbn [filter]; now rewrite O|]. split; [|split; [|split]]; auto.
      * split; [cbn [List.length]; lia|]. intros [|k] m M; cbn [nth_error] in *.
        -- injection M as <-. now rewrite okname_plt, O.
        -- now apply H.
      * intros m M. apply F. intros; apply M; auto; now right.
      * intros _ m. rewrite (K (or_intror Logic.I)). split.
        -- intros [X|(a & X & Y & W)]; auto. right. exists a. split; [now right|auto].
        -- intros [X|(a & [X|X] & Y & W)]; auto. subst. congruence. right. eauto.
Qed.

Lemma create_cls_ok {A} (show : A -> str) path names classes (pts : list (list A * Z)) d : plottable names classes pts ->
  exists d', create_cls show path names classes pts d = Ok (d', map (fun n => path ++ n ++ plt) (filter okname names)) /\
  (forall k n c, nth_error names k = Some n -> nth_error classes k = Some c -> okname n = true -> fget d' (n ++ plt) = Some (class_text show pts c)) /\
  (forall m, (forall a, In a names -> okname a = true -> m <> a ++ plt) -> fget d' m = fget d m) /\
  (forall m, In m (map fst d') <-> In m (map fst d) \/ exists a, In a names /\ okname a = true /\ m = a ++ plt) /\
  (NoDup (map fst d) -> NoDup (map fst d')).
Proof.
  intros (ND & NC & L & HP). unfold create_cls. destruct (open_all_ok path names d ND) as (d1 & ss & fs & -> & -> & H & F & K & N).
  destruct (put_points_ok show (fun n => n ++ plt) names classes plt_inj ND NC L pts d1 ss _ HP H) as (d2 & ss2 & -> & (L2 & H2) & M2 & F2).
  cbn [obind fst]. exists d2. split; auto. split; [|split; [|split]].
  - intros k n c X Y O. pose proof (H2 _ _ X) as G. rewrite okname_plt, O in G. destruct G as (_ & G). rewrite G. f_equal. cbn [app].
    now rewrite (nth_error_nth _ _ 0%Z Y).
  - intros m M. rewrite F2, F; auto. intros a I O. apply M; auto. now rewrite okname_plt in O.
  - intros m. rewrite M2. apply K. auto.
  - rewrite M2. auto.
Qed.
