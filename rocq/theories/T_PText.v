(** C132: texts, selections and comparisons of points. *)
From Coq Require Import Ascii String ZArith List Bool Arith Lia Sorting.Sorted Permutation.
From Verif Require Import Base ListLib Loop M_Str M_Data M_PText S_PText.
Import ListNotations.
Local Open Scope nat_scope.

Lemma ofold_body {T : Type} (sx : T -> str) (x : list T) : forall k i out, i + k <= List.length x ->
  ofold (fun (out : str) i => let* v := vget x i in Ok (out ++ sx v ++ list_ascii_of_string ", ")) (seq i k) out =
  Ok (out ++ concat (map (fun v => sx v ++ list_ascii_of_string ", ") (firstn k (skipn i x)))).
Proof.
  induction k as [|k IH]; intros i out H; cbn [seq ofold]; [rewrite app_nil_r; reflexivity|].
  unfold vget at 1. destruct (nth_error x i) as [v|] eqn:E; [|apply nth_error_None in E; lia]. cbn [obind]. rewrite IH by lia.
  assert (skipn i x = v :: skipn (S i) x) as ->.
  { clear -E. revert x E. induction i as [|i IH]; intros [|a x] E; try discriminate; cbn in *; [injection E as ->; reflexivity|apply IH; exact E]. }
  cbn [firstn map concat]. rewrite <- !app_assoc. reflexivity.
Qed.
Lemma listed_snoc (fs : list str) f : listed (fs ++ [f]) = concat (map (fun t => t ++ list_ascii_of_string ", ") fs) ++ f.
Proof.
  induction fs as [|a fs IH]; [reflexivity|]. cbn [app map concat]. destruct (fs ++ [f]) as [|b r] eqn:E; [destruct fs; discriminate|]. cbn [listed]. rewrite <- E in *.
  change (match r with [] => b | _ :: _ => b ++ "," % char :: " " % char :: listed r end) with (listed (b :: r)). rewrite E in IH. rewrite IH, <- !app_assoc. reflexivity.
Qed.
Lemma last_split {A : Type} (x : list A) : x <> [] -> exists y v, x = y ++ [v].
Proof. intro H. destruct (exists_last H) as (y & v & E). exists y, v. exact E. Qed.

(** C132: the text of a point with at least one coordinate: the id if positive, then the coordinates and the label in brackets, separated by commas. *)
Lemma c132_text : forall (T : Type) (low : Z) (sx : T -> str) (sy sid : Z -> str) (p : point T), p_x p <> [] ->
  print_point low sx sy sid p = Ok (id_part sid p ++ "[" % char :: listed (shown low sx sy p) ++ ["]" % char]).
Proof.
  intros T low sx sy sid p H. destruct (last_split (p_x p) H) as (y & v & E). unfold print_point. rewrite E, app_length. cbn [List.length]. replace (List.length y + 1 - 1) with (List.length y) by lia.
  rewrite ofold_body by (rewrite app_length; cbn; lia). cbn [obind skipn]. rewrite firstn_app, firstn_all, Nat.sub_diag. cbn [firstn]. rewrite app_nil_r.
  unfold vget. rewrite nth_error_app2 by lia. rewrite Nat.sub_diag. cbn [nth_error obind]. unfold shown. rewrite E, map_app. cbn [map].
  assert ((if Z.ltb 0 (p_id p) then sid (p_id p) ++ list_ascii_of_string ":[" else list_ascii_of_string "[") = id_part sid p ++ ["[" % char]) as ->.
  { unfold id_part. destruct (Z.ltb 0 (p_id p)); [rewrite <- app_assoc; reflexivity|reflexivity]. }
  assert (concat (map (fun v0 : T => sx v0 ++ list_ascii_of_string ", ") y) = concat (map (fun t : str => t ++ list_ascii_of_string ", ") (map sx y))) as -> by (rewrite map_map; reflexivity).
  destruct (Z.ltb low (p_y p)); f_equal.
  - rewrite listed_snoc. rewrite (map_app _ (map sx y)), concat_app. cbn [map concat]. rewrite <- !app_assoc. cbn [app]. rewrite <- ?app_assoc. reflexivity.
  - rewrite app_nil_r, listed_snoc, <- !app_assoc. reflexivity.
Qed.
(** C132: a point without coordinates cannot be printed: its coordinate 0 is read. *)
Lemma c132_empty_refuted : forall (T : Type) (low : Z) (sx : T -> str) (sy sid : Z -> str) (p : point T), p_x p = [] -> print_point low sx sy sid p = UB.
Proof. intros T low sx sy sid p H. unfold print_point. rewrite H. reflexivity. Qed.

Lemma split_first (c : ascii) (a b a' b' : list ascii) : ~ In c a -> ~ In c a' -> a ++ c :: b = a' ++ c :: b' -> a = a' /\ b = b'.
Proof.
  revert a'. induction a as [|x a IH]; intros [|y a'] H H' E; cbn in E.
  - injection E as ->. auto.
  - injection E as -> _. exfalso. apply H'. left. reflexivity.
  - injection E as <- _. exfalso. apply H. left. reflexivity.
  - injection E as <- E. destruct (IH a') as [-> ->]; auto; [intro K; apply H; right; exact K|intro K; apply H'; right; exact K].
Qed.
Lemma listed_no (c : ascii) fs : c <> "," % char -> c <> " " % char -> Forall (without c) fs -> ~ In c (listed fs).
Proof.
  intros N1 N2 F. induction F as [|f fs Hf F IH]; [intros []|]. cbn [listed]. destruct fs as [|g r]; [exact Hf|].
  intro K. apply in_app_or in K. destruct K as [K|[K|[K|K]]]; [exact (Hf K)|congruence|congruence|exact (IH K)].
Qed.
Lemma listed_inj : forall (fs gs : list str), fs <> [] -> gs <> [] -> Forall (without ("," % char)) fs -> Forall (without ("," % char)) gs -> listed fs = listed gs -> fs = gs.
Proof.
  induction fs as [|f fs IH]; intros [|g gs] NF NG F G E; try congruence. inversion F as [|? ? Ff F']; subst. inversion G as [|? ? Gg G']; subst. cbn [listed] in E.
  destruct fs as [|f2 fs], gs as [|g2 gs].
  - f_equal. exact E.
  - exfalso. apply Ff. rewrite E. apply in_or_app. right. left. reflexivity.
  - exfalso. apply Gg. rewrite <- E. apply in_or_app. right. left. reflexivity.
  - destruct (split_first ("," % char) f (" " % char :: listed (f2 :: fs)) g (" " % char :: listed (g2 :: gs)) Ff Gg E) as (-> & E2). injection E2 as E2. f_equal. apply IH; auto; discriminate.
Qed.

(** C132: if no coordinate and no label is written with a comma, and no id with a bracket, two points with the same text have the same printed id and the same
    printed coordinates and label, in this order. *)
Lemma c132_injective : forall (T : Type) (low : Z) (sx : T -> str) (sy sid : Z -> str) (p q : point T) (t : str),
  (forall x, without ("," % char) (sx x)) -> (forall y, without ("," % char) (sy y)) -> (forall i, without ("[" % char) (sid i)) ->
  print_point low sx sy sid p = Ok t -> print_point low sx sy sid q = Ok t ->
  id_part sid p = id_part sid q /\ shown low sx sy p = shown low sx sy q.
Proof.
  intros T low sx sy sid p q t Hx Hy Hi Ep Eq.
  assert (forall r, print_point low sx sy sid r = Ok t -> p_x r <> [] /\ t = id_part sid r ++ "[" % char :: listed (shown low sx sy r) ++ ["]" % char]) as D.
  { intros r Er. assert (p_x r <> []) as N by (intro K; rewrite (c132_empty_refuted T low sx sy sid r K) in Er; discriminate). split; [exact N|]. rewrite (c132_text T low sx sy sid r N) in Er. injection Er as <-. reflexivity. }
  destruct (D p Ep) as (Np & Tp). destruct (D q Eq) as (Nq & Tq). rewrite Tp in Tq.
  assert (forall r : point T, ~ In ("[" % char) (id_part sid r)) as NI.
  { intros r K. unfold id_part in K. destruct (Z.ltb 0 (p_id r)); [|destruct K]. apply in_app_or in K. destruct K as [K|[K|[]]]; [exact (Hi _ K)|discriminate]. }
  destruct (split_first _ _ _ _ _ (NI p) (NI q) Tq) as (E1 & E2). split; [exact E1|]. apply app_inv_tail in E2.
  assert (forall r : point T, p_x r <> [] -> shown low sx sy r <> []) as NS by (intros r N K; unfold shown in K; destruct (p_x r); [congruence|discriminate]).
  assert (forall r : point T, Forall (without ("," % char)) (shown low sx sy r)) as FS.
  { intro r. unfold shown. apply Forall_app. split; [apply Forall_forall; intros s K; apply in_map_iff in K; destruct K as (x & <- & _); apply Hx|destruct (Z.ltb low (p_y r)); auto]. }
  apply listed_inj; auto.
Qed.

(** C132: but a hidden label makes the last coordinate look like a label: the text does not tell the number of coordinates. *)
Lemma c132_hidden_refuted : forall (T : Type) (low : Z) (sx : T -> str) (sy sid : Z -> str) (x : list T) (v : T) (y id : Z) (alpha alpha' : T), x <> [] -> (low < y)%Z -> sx v = sy y ->
  print_point low sx sy sid (mkPoint (x ++ [v]) low id alpha) = print_point low sx sy sid (mkPoint x y id alpha').
Proof.
  intros T low sx sy sid x v y id alpha alpha' H L E. rewrite !c132_text by (cbn; auto; destruct x; discriminate). unfold id_part, shown. cbn [p_x p_y p_id].
  rewrite Z.ltb_irrefl. replace (Z.ltb low y) with true by (symmetry; apply Z.ltb_lt; exact L). rewrite map_app, app_nil_r. cbn [map]. rewrite E. reflexivity.
Qed.

(** C132: a dataset is printed as the texts of its points, each on a line. *)
Lemma c132_data : forall (T : Type) (low : Z) (sx : T -> str) (sy sid : Z -> str) (d : data T), (forall p, In p (d_points d) -> p_x p <> []) ->
  print_data low sx sy sid d = Ok (concat (map (fun p => id_part sid p ++ "[" % char :: listed (shown low sx sy p) ++ ["]" % char; ascii_of_nat 10]) (d_points d))).
Proof.
  intros T low sx sy sid d. unfold print_data. generalize (d_points d). intros l H.
  enough (forall out, ofold (fun (out : str) p => let* t := print_point low sx sy sid p in Ok (out ++ t ++ [ascii_of_nat 10])) l out =
    Ok (out ++ concat (map (fun p => id_part sid p ++ "[" % char :: listed (shown low sx sy p) ++ ["]" % char; ascii_of_nat 10]) l))) as G by apply (G []).
  induction l as [|p l IH]; intro out; cbn [ofold map concat]; [rewrite app_nil_r; reflexivity|].
  rewrite c132_text by (apply H; left; reflexivity). cbn [obind]. rewrite IH by (intros q Hq; apply H; right; exact Hq). rewrite <- !app_assoc. cbn [app]. rewrite <- !app_assoc. reflexivity.
Qed.
(** C132: and one point without coordinates makes printing the dataset undefined behaviour. *)
Lemma c132_data_refuted : forall (T : Type) (low : Z) (sx : T -> str) (sy sid : Z -> str) (d : data T) (p : point T), In p (d_points d) -> p_x p = [] -> print_data low sx sy sid d = UB.
Proof.
  intros T low sx sy sid d p. unfold print_data. generalize (d_points d). intros l H E. enough (forall out : str, ofold (fun (out : str) p => let* t := print_point low sx sy sid p in Ok (out ++ t ++ [ascii_of_nat 10])) l out = UB) as G by apply G.
  induction l as [|q l IH]; [destruct H|]. intro out. cbn [ofold].
  destruct (p_x q) as [|a x] eqn:Q; [rewrite (c132_empty_refuted T low sx sy sid q Q); reflexivity|].
  rewrite (c132_text T low sx sy sid q) by (rewrite Q; discriminate). cbn [obind]. destruct H as [->|H]; [congruence|]. apply IH. exact H.
Qed.

Lemma leb_le_sorted fs : StronglySorted (fun a b => Nat.leb a b = true) fs -> StronglySorted le fs.
Proof. induction 1; constructor; auto. eapply Forall_impl; [|eassumption]. intros b Hb. apply Nat.leb_le. exact Hb. Qed.
(** C132: selectFeatures of positions inside the point gives the coordinates at these positions in ascending order (with repetitions), and keeps label, id and
    alpha; a position outside stops the program. *)
Lemma c132_select : forall (T : Type) (p : point T) (feats : list nat), (forall f, In f feats -> f < List.length (p_x p)) ->
  exists fs xs, ascending feats fs /\ Forall2 (fun f v => nth_error (p_x p) f = Some v) fs xs /\ pt_select p feats = Ok (mkPoint xs (p_y p) (p_id p) (p_alpha p)).
Proof.
  intros T p feats H. exists (isort Nat.leb feats).
  assert (forall fs, (forall f, In f fs -> f < List.length (p_x p)) -> exists xs, Forall2 (fun f v => nth_error (p_x p) f = Some v) fs xs /\
    map_outcome (fun f => if Nat.ltb f (List.length (p_x p)) then vget (p_x p) f else Abort) fs = Ok xs) as G.
  { induction fs as [|f fs IH]; intro B; [exists []; auto|]. destruct IH as (xs & F & E); [intros g Hg; apply B; right; exact Hg|].
    pose proof (B f (or_introl eq_refl)) as Bf. destruct (nth_error (p_x p) f) as [v|] eqn:V; [|apply nth_error_None in V; lia]. exists (v :: xs). split; [constructor; auto|].
    cbn [map_outcome]. replace (Nat.ltb f (List.length (p_x p))) with true by (symmetry; apply Nat.ltb_lt; exact Bf). unfold vget. rewrite V. cbn [obind]. unfold vget in E. rewrite E. reflexivity. }
  destruct (G (isort Nat.leb feats)) as (xs & F & E). { intros f Hf. apply H. apply isort_In in Hf. exact Hf. }
  exists xs. split; [|split; [exact F|]].
  - split; [symmetry; apply isort_perm|]. apply leb_le_sorted. apply isort_sorted; [intros a b A; apply Nat.leb_gt in A; apply Nat.leb_le; lia|intros a b c A B; apply Nat.leb_le in A, B; apply Nat.leb_le; lia].
  - unfold pt_select. rewrite E. reflexivity.
Qed.
Lemma c132_select_stops : forall (T : Type) (p : point T) (feats : list nat) (f : nat), In f feats -> List.length (p_x p) <= f -> pt_select p feats = Abort.
Proof.
  intros T p feats f H L. unfold pt_select. apply (isort_In Nat.leb) in H. revert H. generalize (isort Nat.leb feats). intros fs H.
  enough (map_outcome (fun f => if Nat.ltb f (List.length (p_x p)) then vget (p_x p) f else Abort) fs = Abort) as -> by reflexivity.
  induction fs as [|g fs IH]; [destruct H|]. cbn [map_outcome]. destruct (Nat.ltb_spec g (List.length (p_x p))) as [Lg|Lg]; [|reflexivity].
  unfold vget at 1. destruct (nth_error (p_x p) g) as [v|] eqn:V; [|apply nth_error_None in V; lia]. cbn [obind]. destruct H as [->|H]; [lia|]. rewrite IH by exact H. reflexivity.
Qed.
Lemma sorted_unique (a b : list nat) : StronglySorted le a -> StronglySorted le b -> Permutation a b -> a = b.
Proof.
  revert b. induction a as [|x a IH]; intros b Sa Sb P; [apply Permutation_nil in P; auto|]. destruct b as [|y b]; [apply Permutation_sym, Permutation_nil in P; discriminate|].
  inversion Sa as [|? ? Sa' Fa]; subst. inversion Sb as [|? ? Sb' Fb]; subst.
  assert (x = y) as ->.
  { assert (In x (y :: b)) as I1 by (apply (Permutation_in _ P); left; reflexivity). assert (In y (x :: a)) as I2 by (apply (Permutation_in _ (Permutation_sym P)); left; reflexivity).
    rewrite Forall_forall in Fa, Fb. destruct I1 as [->|I1]; [reflexivity|]. destruct I2 as [->|I2]; [reflexivity|]. specialize (Fa y I2). specialize (Fb x I1). lia. }
  f_equal. apply IH; auto. apply (Permutation_cons_inv P).
Qed.
(** C132: the order in which the positions are named does not matter, so a projection cannot reorder the coordinates. *)
Lemma c132_order_refuted : forall (T : Type) (p : point T) (feats feats' : list nat), Permutation feats feats' -> pt_select p feats = pt_select p feats'.
Proof.
  intros T p feats feats' P. unfold pt_select. replace (isort Nat.leb feats) with (isort Nat.leb feats'); [reflexivity|].
  assert (forall l, StronglySorted le (isort Nat.leb l)) as S.
  { intro l. apply leb_le_sorted. apply isort_sorted; [intros a b A; apply Nat.leb_gt in A; apply Nat.leb_le; lia|intros a b c A B; apply Nat.leb_le in A, B; apply Nat.leb_le; lia]. }
  apply sorted_unique; auto. rewrite (isort_perm Nat.leb feats'), (isort_perm Nat.leb feats). symmetry. exact P.
Qed.

(** C132: == compares the coordinates only, and != is its negation (also for coordinates that are not equal to themselves, when comparing is symmetric). *)
Lemma c132_equal : forall (T : Type) (eqT : T -> T -> bool) (p q : point T), (forall a b, eqT a b = true <-> a = b) ->
  (pt_eq eqT p q = true <-> p_x p = p_x q) /\ (pt_ne eqT p q = true <-> p_x p <> p_x q).
Proof.
  intros T eqT p q H. assert (forall a b, eq_list eqT a b = true <-> a = b) as G.
  { induction a as [|x a IH]; intros [|y b]; cbn [eq_list]; try (split; congruence). rewrite andb_true_iff, H, IH. split; [intros [-> ->]; reflexivity|intro E; injection E; auto]. }
  unfold pt_ne, pt_eq. split; [apply G|]. rewrite negb_true_iff. rewrite <- not_true_iff_false, G. split; intros K E; apply K; auto.
Qed.
(** C132: so points with other labels, ids and alphas are equal. *)
Lemma c132_label_refuted : forall (T : Type) (eqT : T -> T -> bool) (x : list T) (y y' id id' : Z) (a a' : T), (forall v, eqT v v = true) -> pt_eq eqT (mkPoint x y id a) (mkPoint x y' id' a') = true.
Proof. intros T eqT x y y' id id' a a' H. unfold pt_eq. cbn [p_x]. induction x as [|v x IH]; [reflexivity|]. cbn [eq_list]. rewrite H, IH. reflexivity. Qed.

(** C132: erase(b, e) removes the coordinates from b up to e, without e. *)
Lemma c132_erase : forall (T : Type) (p : point T) (b e : nat), b <= e -> e <= List.length (p_x p) ->
  exists q, pt_erase p b e = Ok q /\ List.length (p_x q) = List.length (p_x p) - (e - b) /\ p_y q = p_y p /\ p_id q = p_id p /\ p_alpha q = p_alpha p /\
    (forall i, i < b -> nth_error (p_x q) i = nth_error (p_x p) i) /\ (forall i, b <= i -> nth_error (p_x q) i = nth_error (p_x p) (i + (e - b))).
Proof.
  intros T p b e H1 H2. unfold pt_erase. replace (Nat.leb b e) with true by (symmetry; apply Nat.leb_le; exact H1). replace (Nat.leb e (List.length (p_x p))) with true by (symmetry; apply Nat.leb_le; exact H2). cbn [andb].
  eexists. split; [reflexivity|]. cbn [p_x p_y p_id p_alpha]. split; [rewrite app_length, firstn_length, skipn_length; lia|]. split; [reflexivity|]. split; [reflexivity|]. split; [reflexivity|].
  assert (forall (l : list T) n i, nth_error (skipn n l) i = nth_error l (n + i)) as NS.
  { intros l. induction l as [|a l IH]; intros [|n] i; try reflexivity; [destruct i; reflexivity|]. cbn [skipn]. rewrite IH. reflexivity. }
  assert (forall (l : list T) n i, i < n -> nth_error (firstn n l) i = nth_error l i) as NF.
  { intros l. induction l as [|a l IH]; intros n i L; [rewrite firstn_nil; reflexivity|]. destruct n; [lia|]. destruct i; [reflexivity|]. cbn. apply IH. lia. }
  split; intros i Hi.
  - rewrite nth_error_app1 by (rewrite firstn_length; lia). apply NF. exact Hi.
  - rewrite nth_error_app2 by (rewrite firstn_length; lia). rewrite NS, firstn_length. f_equal. lia.
Qed.

(** Coordinates printed as their digits. *)
Definition tx (z : Z) : str := list_ascii_of_string (string_of_Z z).
Lemma c132_text_ex : print_point (-1000) tx tx tx (mkPoint [5; 12]%Z 1 7 0%Z) = Ok (list_ascii_of_string "7:[5, 12, 1]").
Proof. reflexivity. Qed.
Lemma c132_empty_refuted_ex : p_x (mkPoint (@nil Z) 1 7 0%Z) = [].
Proof. reflexivity. Qed.
Lemma c132_injective_ex : print_point (-1000) tx tx tx (mkPoint [5]%Z 1 7 0%Z) = Ok (list_ascii_of_string "7:[5, 1]") /\ without ("," % char) (tx 5) /\ without ("[" % char) (tx 7).
Proof. split; [reflexivity|]. split; intros [K|[]]; discriminate. Qed.
Lemma c132_hidden_refuted_ex : print_point (-1000) tx tx tx (mkPoint [5; 1]%Z (-1000) 7 0%Z) = print_point (-1000) tx tx tx (mkPoint [5]%Z 1 7 0%Z).
Proof. reflexivity. Qed.
Lemma c132_data_ex : forall p, In p [mkPoint [5; 12]%Z 1 1 0%Z; mkPoint [6; 2]%Z 2 2 0%Z] -> p_x p <> [].
Proof. intros p [<-|[<-|[]]]; discriminate. Qed.
Lemma c132_data_refuted_ex : In (mkPoint (@nil Z) 1 1 0%Z) [mkPoint [5]%Z 1 1 0%Z; mkPoint (@nil Z) 1 1 0%Z].
Proof. right. left. reflexivity. Qed.
Lemma c132_select_ex : pt_select (mkPoint [5; 12; 8]%Z 1 7 0%Z) [2; 0] = Ok (mkPoint [5; 8]%Z 1 7 0%Z).
Proof. reflexivity. Qed.
Lemma c132_select_stops_ex : pt_select (mkPoint [5; 12; 8]%Z 1 7 0%Z) [1; 3] = Abort.
Proof. reflexivity. Qed.
Lemma c132_order_refuted_ex : Permutation [2; 0] [0; 2] /\ pt_select (mkPoint [5; 12; 8]%Z 1 7 0%Z) [2; 0] <> Ok (mkPoint [8; 5]%Z 1 7 0%Z).
Proof. split; [constructor|]. rewrite c132_select_ex. discriminate. Qed.
Lemma c132_equal_ex : pt_eq Z.eqb (mkPoint [5; 12]%Z 1 7 0%Z) (mkPoint [5; 12]%Z 2 8 1%Z) = true /\ pt_ne Z.eqb (mkPoint [5; 12]%Z 1 7 0%Z) (mkPoint [5]%Z 1 7 0%Z) = true /\ (forall a b, Z.eqb a b = true <-> a = b).
Proof. split; [reflexivity|]. split; [reflexivity|]. exact Z.eqb_eq. Qed.
Lemma c132_label_refuted_ex : forall v : Z, Z.eqb v v = true.
Proof. exact Z.eqb_refl. Qed.
Lemma c132_erase_ex : pt_erase (mkPoint [5; 12; 8; 9]%Z 1 7 0%Z) 1 3 = Ok (mkPoint [5; 9]%Z 1 7 0%Z).
Proof. reflexivity. Qed.
