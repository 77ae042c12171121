(** Lemmas about word classes and arbitrary files. *)
From Coq Require Import ZArith QArith Ascii Bool String List Lia Sorting.Sorted.
From Verif Require Import Base ListLib M_Data S_Data L_Join L_Valid M_Str S_Str L_Str2 L_Str3 M_Load S_Load L_Load L_Load2 L_Load3.
Import ListNotations.
Local Open Scope nat_scope.

(** *** word classes *)
Definition winv (s : cstate) : Prop :=
  NoDup (cs_names s) /\ (forall n, In n (cs_names s) -> exists t, n = string_of_list_ascii t /\ word t) /\ cs_classes s = iota 1 (List.length (cs_names s)).
Lemma word_not_number t : word t -> is_number t = false.
Proof. intros (_ & _ & N). apply not_true_iff_false. rewrite is_number_ok. tauto. Qed.
Lemma iota_snoc a n : iota a (S n) = iota a n ++ [(a + Z.of_nat n)%Z].
Proof. unfold iota. rewrite seq_S, map_app. reflexivity. Qed.
Lemma iota_in a n z : In z (iota a n) <-> (a <= z < a + Z.of_nat n)%Z.
Proof.
  unfold iota. rewrite in_map_iff. split.
  - intros (i & <- & H). apply in_seq in H. lia.
  - intro H. exists (Z.to_nat (z - a)). rewrite in_seq. split; lia.
Qed.
Lemma m1_not_word t : string_of_list_ascii t = "-1"%string -> ~ word t.
Proof.
  intros E (_ & _ & W). assert (t = ["-"; "1"]%char) as -> by (apply str_inj; exact E). apply W. repeat constructor; cbn; tauto.
Qed.
Lemma process_word s ls t : cinv s ls -> (Z.of_nat (List.length ls) < 2 ^ 63)%Z -> winv s -> word t ->
  exists s', process_class s t = Ok ((Z.of_nat (find_name (string_of_list_ascii t) (cs_names s)) + 1)%Z, s') /\ cinv s' (ls ++ [(Z.of_nat (find_name (string_of_list_ascii t) (cs_names s)) + 1)%Z]) /\
    winv s' /\ (exists more, cs_names s' = cs_names s ++ more) /\ In (string_of_list_ascii t) (cs_names s') /\
    find_name (string_of_list_ascii t) (cs_names s') = find_name (string_of_list_ascii t) (cs_names s).
Proof.
  intros I B (ND & Wn & Ec) W. destruct W as (Ne & Fw & Nn). assert (word t) as W by (split; auto).
  rewrite process_class_eq by (rewrite filter_nospace; auto). set (nm := string_of_list_ascii t) in *.
  assert (~ In "-1"%string (cs_names s)) as M1.
  { intro H. destruct (Wn _ H) as (u & E & Wu). now apply (m1_not_word u). }
  assert (nm <> "-1"%string) as M2 by (intro E; now apply (m1_not_word t)).
  assert (choose s t = Ok ((Z.of_nat (find_name nm (cs_names s)) + 1)%Z, if in_dec string_dec nm (cs_names s) then cs_names s else cs_names s ++ [nm])) as C.
  { unfold choose. cbv zeta. rewrite (filter_nospace t Fw). fold nm. rewrite (word_not_number t W).
    destruct (in_dec string_dec nm (cs_names s)) as [H|H].
    - destruct (Nat.eqb_spec (find_name nm (cs_names s)) (List.length (cs_names s))) as [E|E]; [apply find_name_in in H; lia|reflexivity].
    - rewrite (find_name_absent nm) by auto. rewrite Nat.eqb_refl. rewrite find_name_absent.
      2:{ intro X. apply in_app_or in X as [X|[X|[]]]; congruence. }
      rewrite Nat.eqb_refl, find_name_new by auto. cbn [obind]. destruct (String.eqb_spec nm "-1"); [congruence|reflexivity]. }
  rewrite C. cbn [obind].
  match goal with |- context [count_label s ?names ?c] => destruct (count_label_ok s ls names c I B) as (s' & -> & I' & En & Ecs) end.
  cbn [obind]. exists s'. split; [reflexivity|]. split; [exact I'|].
  destruct (in_dec string_dec nm (cs_names s)) as [H|H].
  - rewrite En. split; [|split; [exists []; now rewrite app_nil_r|split; auto]]. split; [now rewrite En|]. split; [now rewrite En|]. rewrite Ecs, En.
    destruct (in_dec Z.eq_dec _ (cs_classes s)) as [_|Q]; [auto|]. elim Q. rewrite Ec. apply iota_in. apply find_name_in in H. lia.
  - rewrite En. split; [|split; [exists [nm]; auto|split; [apply in_or_app; right; now left|rewrite find_name_new, find_name_absent by auto; reflexivity]]].
    rewrite find_name_absent in Ecs by auto. split; [|split].
    + rewrite En. apply NoDup_app_intro; auto; [repeat constructor; auto|]. intros x [<-|[]]. exact H.
    + rewrite En. intros n Hn. apply in_app_or in Hn as [Hn|[<-|[]]]; [auto|]. exists t. auto.
    + rewrite Ecs, En. destruct (in_dec Z.eq_dec _ (cs_classes s)) as [Q|_].
      * rewrite Ec in Q. apply iota_in in Q. lia.
      * rewrite app_length, Nat.add_1_r. rewrite iota_snoc, Ec. f_equal. f_equal. lia.
Qed.
Lemma run_words items : forall s ls, cinv s ls -> (Z.of_nat (List.length ls + List.length items) < 2 ^ 63)%Z -> winv s -> Forall word items ->
  exists s', run_classes s items = Ok (map (fun t => (Z.of_nat (find_name (string_of_list_ascii t) (cs_names s')) + 1)%Z) items, s') /\
    winv s' /\ (exists more, cs_names s' = cs_names s ++ more) /\ forall t, In t items -> In (string_of_list_ascii t) (cs_names s').
Proof.
  induction items as [|t items IH]; intros s ls I B W F; cbn [run_classes map].
  - exists s. split; [auto|split; [auto|split; [exists []; now rewrite app_nil_r|intros ? []]]].
  - inversion F as [|? ? Wt F']; subst. cbn [List.length] in B.
    destruct (process_word s ls t I ltac:(lia) W Wt) as (s1 & -> & I1 & W1 & (m1 & E1) & In1 & Fn). cbn [obind].
    destruct (IH s1 _ I1) as (s2 & -> & W2 & (m2 & E2) & In2); auto; [rewrite app_length; cbn; lia|]. cbn [obind].
    exists s2. split; [|split; [auto|split]].
    + do 3 f_equal. rewrite E2, find_name_app by auto. now rewrite Fn.
    + exists (m1 ++ m2). rewrite E2, E1. now rewrite app_assoc.
    + intros u [<-|Hu]; [|auto]. rewrite E2. apply in_or_app. now left.
Qed.

(** *** any file *)
Definition even_len (s : cstate) : Prop := List.length (cs_dist s) = List.length (cs_classes s).
Lemma process_class_safe s it : even_len s -> process_class s it <> UB /\ forall c s', process_class s it = Ok (c, s') -> even_len s'.
Proof.
  intro L. destruct (filter (fun c => negb (isspace c)) it) as [|a l] eqn:Q.
  - unfold process_class. rewrite Q. split; [discriminate|]. intros c s' E. injection E as _ <-. exact L.
  - rewrite process_class_eq by congruence. pose proof (choose_not_UB s it) as NU. destruct (choose s it) as [[c names]| |]; [|congruence|split; discriminate]. cbn [obind].
    unfold count_label. cbv zeta. unfold even_len in *. destruct (Nat.ltb_spec (find_pos c (cs_classes s)) (List.length (cs_classes s))) as [H|H].
    + destruct (nth_error (cs_dist s) (find_pos c (cs_classes s))) as [v|] eqn:Nv; [|apply nth_error_None in Nv; lia].
      destruct (vupd_at _ _ _ (fun k => wrap64 (k + 1)) _ Nv) as (d' & -> & Ld & _). cbn [obind]. split; [discriminate|]. intros c' s' E. injection E as _ <-. cbn. congruence.
    + assert (~ In c (cs_classes s)) as Ni by (intro X; apply find_pos_nth in X; lia). rewrite find_pos_new by auto.
      destruct (nth_error (cs_dist s ++ [0%Z]) (List.length (cs_classes s))) as [v|] eqn:Nv; [|apply nth_error_None in Nv; rewrite app_length in Nv; cbn in Nv; lia].
      destruct (vupd_at _ _ _ (fun k => wrap64 (k + 1)) _ Nv) as (d' & -> & Ld & _). cbn [obind]. split; [discriminate|]. intros c' s' E. injection E as _ <-. cbn.
      rewrite Ld, !app_length. cbn. congruence.
Qed.
Lemma vupd_len A i f (l : list A) : i < List.length l -> exists l', vupd i f l = Ok l' /\ List.length l' = List.length l.
Proof.
  intro H. destruct (nth_error l i) as [v|] eqn:E; [|apply nth_error_None in E; lia]. destruct (vupd_at _ _ _ f _ E) as (l' & A1 & A2 & _). eauto.
Qed.
Lemma zset_len A (l : list A) k a : (0 <= k < Z.of_nat (List.length l))%Z -> exists l', zset l k a = Ok l' /\ List.length l' = List.length l.
Proof. intro H. unfold zset. destruct (Z.ltb_spec k 0); [lia|]. apply vupd_len. lia. Qed.

Lemma check_dims_all counts : forall l m, check_dims counts l = Some m -> (l <> 0%Z -> m = l) /\ Forall (fun c => c = 0 \/ c = m)%Z counts.
Proof.
  induction counts as [|c r IH]; intros l m H; cbn [check_dims] in H.
  - injection H as <-. auto.
  - destruct (negb (Z.eqb l c) && negb (Z.eqb l 0)) eqn:E; [discriminate|]. destruct (IH c m H) as [A B]. apply andb_false_iff in E. rewrite !negb_false_iff, !Z.eqb_eq in E.
    split; [|constructor; [|exact B]].
    + intro N. destruct E as [->|E]; [auto|congruence].
    + destruct (Z.eq_dec c 0) as [|N]; [now left|]. right. symmetry. auto.
Qed.

(** values after the label *)
Lemma csv_rest_safe items : forall k x y s, (0 <= k)%Z -> (k + Z.of_nat (List.length items) <= Z.of_nat (List.length x))%Z ->
  exists x', csv_row false items k x y s = Ok (x', y, s) /\ List.length x' = List.length x.
Proof.
  induction items as [|[t e] items IH]; intros k x y s K L; cbn [csv_row]; [eauto|]. cbn [List.length] in L.
  destruct (Z.eqb_spec k (-1)); [lia|]. cbn [negb]. destruct (is_number t); cbn [obind].
  - destruct (zset_len _ x k (atod t)) as (x1 & -> & L1); [lia|]. cbn [obind]. destruct (IH (k + 1)%Z x1 y s) as (x2 & E & L2); [lia|lia|]. exists x2. split; [auto|congruence].
  - apply IH; lia.
Qed.
Lemma csv_row_safe items x s : (Z.of_nat (List.length items) - 1 <= Z.of_nat (List.length x))%Z -> even_len s ->
  csv_row false items (-1) x y_default s <> UB /\
  forall x' y s', csv_row false items (-1) x y_default s = Ok (x', y, s') -> List.length x' = List.length x /\ even_len s'.
Proof.
  intros L S. destruct items as [|[t e] items]; cbn [csv_row].
  - split; [discriminate|]. intros x' y s' E. injection E as <- _ <-. auto.
  - replace (negb (Z.eqb (-1) (-1))) with false by reflexivity. cbv iota. destruct (process_class_safe s t S) as [N A].
    destruct (process_class s t) as [[c s1]| |]; [|congruence|split; discriminate]. cbn [obind]. cbn [List.length] in L.
    destruct (csv_rest_safe items (-1 + 1) x c s1) as (x1 & -> & L1); [lia|lia|]. split; [discriminate|]. intros x' y s' E. injection E as <- _ <-. eauto.
Qed.
Definition shaped (dm : nat) (pts : list (point Q)) : Prop := Forall (fun p => List.length (p_x p) = dm) pts.
Lemma rows_safe atEnd deli dm (P : str -> Prop) :
  (forall l s, P l -> even_len s -> csv_row atEnd (pieces deli [] l) (-1) (repeat 0%Q dm) y_default s <> UB /\
  forall x' y s', csv_row atEnd (pieces deli [] l) (-1) (repeat 0%Q dm) y_default s = Ok (x', y, s') -> List.length x' = dm /\ even_len s') ->
  forall ls id s, Forall P ls -> even_len s -> csv_rows atEnd deli dm ls id s <> UB /\
  forall qs s', csv_rows atEnd deli dm ls id s = Ok (qs, s') -> shaped dm qs /\ List.length qs = List.length ls /\ map p_id qs = iota id (List.length ls).
Proof.
  intros H ls. induction ls as [|l ls IH]; intros id s F S; cbn [csv_rows].
  - split; [discriminate|]. intros qs s' E. injection E as <- _. split; [constructor|split; reflexivity].
  - inversion F as [|? ? Pl F']; subst. destruct (H l s Pl S) as [N A]. destruct (csv_row _ _ _ _ _ s) as [[[x y] s1]| |]; [|congruence|split; discriminate]. cbn [obind].
    destruct (A _ _ _ eq_refl) as [Lx S1]. destruct (IH (id + 1)%Z s1 F' S1) as [N2 A2].
    destruct (csv_rows atEnd deli dm ls (id + 1) s1) as [[qs s2]| |]; [|congruence|split; discriminate]. cbn [obind fst snd].
    destruct (A2 _ _ eq_refl) as (Q1 & Q2 & Q3). split; [discriminate|]. intros qs' s' E. injection E as <- _. split; [constructor; auto|]. split; [cbn; lia|].
    cbn [map p_id List.length]. rewrite Q3. unfold iota. cbn [seq map]. f_equal; [lia|]. rewrite <- seq_shift, map_map. apply map_ext. intro i. lia.
Qed.

Lemma load_csv_safe d file : List.length (d_dist d) = List.length (d_classes d) -> load_csv false d file <> UB /\
  forall d', load_csv false d file = Ok (d', true) -> d_size d' = List.length (d_points d') /\ List.length (d_points d') = List.length (lines file) /\ shaped (d_dim d') (d_points d') /\ d_fnames d' = iota 1 (d_dim d') /\ map p_id (d_points d') = iota 1 (d_size d').
Proof.
  intro L. unfold load_csv. cbv zeta. set (deli := match lines file with [] => ","%char | l :: _ => delimiter l end).
  destruct (check_dims _ 0) as [m|] eqn:C; [|split; discriminate]. destruct (Z.ltb_spec m 0) as [|Hm]; [split; discriminate|].
  apply check_dims_all in C as [_ C]. rewrite Forall_map in C.
  destruct (rows_safe false deli (Z.to_nat m) (fun l => (Z.of_nat (List.length (pieces deli [] l)) - 1 <= m)%Z)) with (ls := lines file) (id := 1%Z) (s := cstate_of d) as [N A].
  - intros l s Hl S. pose proof (csv_row_safe (pieces deli [] l) (repeat 0%Q (Z.to_nat m)) s) as X. rewrite repeat_length in X. apply X; [lia|auto].
  - eapply Forall_impl; [|exact C]. cbv beta. lia.
  - exact L.
  - destruct (csv_rows _ _ _ _ _ _) as [[qs s']| |]; [|congruence|split; discriminate]. cbn [obind fst snd]. destruct (A _ _ eq_refl) as (A1 & A2 & A3).
    split; [discriminate|]. intros d' E. injection E as <-. cbn [loaded d_size d_points d_dim d_fnames]. rewrite A2. auto.
Qed.

(** the label last *)
Lemma split_char (c : ascii) s : ~ In c s \/ exists t u, s = t ++ c :: u /\ ~ In c t.
Proof.
  induction s as [|x s [H|(t & u & -> & H)]]; [left; tauto| |].
  - destruct (ascii_dec x c) as [->|N]; [right; exists [], s; split; [auto|tauto]|]. left. intros [|]; auto.
  - destruct (ascii_dec x c) as [->|N]; [right; exists [], (t ++ c :: u); split; [auto|tauto]|]. right. exists (x :: t), u. split; [auto|]. intros [|]; auto.
Qed.
Lemma pieces_eof c : forall n s, List.length s <= n -> s <> [] -> (forall u, s <> u ++ [c]) -> exists init t, pieces c [] s = map (fun x => (x, false)) init ++ [(t, true)].
Proof.
  induction n as [|n IH]; intros s L N E; [destruct s; [congruence|cbn in L; lia]|].
  destruct (split_char c s) as [H|(t & u & -> & H)].
  - rewrite pieces_last by auto. exists [], s. reflexivity.
  - rewrite pieces_step by auto. rewrite app_length in L. cbn in L. destruct u as [|a u]; [now elim (E t)|].
    destruct (IH (a :: u)) as (init & w & Q); [cbn in *; lia|discriminate| |].
    + intros v Ev. apply (E (t ++ c :: v)). rewrite <- app_assoc. cbn. now rewrite Ev.
    + rewrite Q. exists (t :: init), w. reflexivity.
Qed.
Lemma csv_end_safe init : forall t k x y s, (-1 <= k)%Z -> (k + 1 + Z.of_nat (List.length init) <= Z.of_nat (List.length x))%Z -> even_len s ->
  csv_row true (map (fun u => (u, false)) init ++ [(t, true)]) k x y s <> UB /\
  forall x' y' s', csv_row true (map (fun u => (u, false)) init ++ [(t, true)]) k x y s = Ok (x', y', s') -> List.length x' = List.length x /\ even_len s'.
Proof.
  induction init as [|u init IH]; intros t k x y s K L S; cbn [map app csv_row negb].
  - destruct (process_class_safe s t S) as [N A]. destruct (process_class s t) as [[c s1]| |]; [|congruence|split; discriminate]. cbn [obind].
    split; [discriminate|]. intros x' y' s' E. injection E as <- _ <-. eauto.
  - cbn [List.length] in L. destruct (is_number u); cbn [obind].
    + destruct (zset_len _ x (k + 1) (atod u)) as (x1 & -> & L1); [lia|]. cbn [obind]. destruct (IH t (k + 1)%Z x1 y s) as [N A]; [lia|lia|auto|].
      split; [auto|]. intros x' y' s' E. apply A in E. rewrite L1 in E. exact E.
    + apply IH; auto; lia.
Qed.
Lemma load_csv_end_safe d file : List.length (d_dist d) = List.length (d_classes d) ->
  (forall l, In l (lines file) -> l <> [] /\ forall u, l <> u ++ [","%char] /\ l <> u ++ [";"%char]) -> load_csv true d file <> UB /\
  forall d', load_csv true d file = Ok (d', true) -> d_size d' = List.length (d_points d') /\ List.length (d_points d') = List.length (lines file) /\ shaped (d_dim d') (d_points d') /\ d_fnames d' = iota 1 (d_dim d') /\ map p_id (d_points d') = iota 1 (d_size d').
Proof.
  intros L G. unfold load_csv. cbv zeta. set (deli := match lines file with [] => ","%char | l :: _ => delimiter l end).
  assert (deli = ","%char \/ deli = ";"%char) as Dl.
  { unfold deli. clear. destruct (lines file) as [|l ll]; [now left|]. clear ll. induction l as [|c l IH]; cbn [delimiter]; [now left|]. destruct (Ascii.eqb c ","); [now left|]. destruct (Ascii.eqb c ";"); [now right|auto]. }
  destruct (check_dims _ 0) as [m|] eqn:C; [|split; discriminate]. destruct (Z.ltb_spec m 0) as [|Hm]; [split; discriminate|].
  apply check_dims_all in C as [_ C]. rewrite Forall_map, Forall_forall in C.
  destruct (rows_safe true deli (Z.to_nat m) (fun l => In l (lines file))) with (ls := lines file) (id := 1%Z) (s := cstate_of d) as [N A].
  - intros l s Hl S. destruct (G l Hl) as [Ne Nd].
    destruct (pieces_eof deli (List.length l) l (le_n _) Ne) as (init & t & Q). { intro u. destruct (Nd u). destruct Dl as [-> | ->]; auto. }
    pose proof (csv_end_safe init t (-1) (repeat 0%Q (Z.to_nat m)) y_default s) as X. specialize (C l Hl). rewrite Q in C |- *. rewrite app_length, map_length in C. cbn [List.length] in C.
    rewrite repeat_length in X. apply X; [lia|lia|auto].
  - apply Forall_forall. auto.
  - exact L.
  - destruct (csv_rows _ _ _ _ _ _) as [[qs s']| |]; [|congruence|split; discriminate]. cbn [obind fst snd]. destruct (A _ _ eq_refl) as (A1 & A2 & A3).
    split; [discriminate|]. intros d' E. injection E as <-. cbn [loaded d_size d_points d_dim d_fnames]. rewrite A2. auto.
Qed.

(** labels of any file whose lines do not start with a delimiter *)
Lemma csv_rows_classes deli dm ls0 : forall id s labs, cinv s labs -> (Z.of_nat (List.length labs + List.length ls0) < 2 ^ 63)%Z ->
  Forall (fun l => exists t e r, pieces deli [] l = (t, e) :: r /\ nonblank t /\ (Z.of_nat (List.length r) <= Z.of_nat dm)%Z) ls0 ->
  forall qs s', csv_rows false deli dm ls0 id s = Ok (qs, s') -> cinv s' (labs ++ map p_y qs).
Proof.
  induction ls0 as [|l ls0 IH]; intros id s labs I B F qs s' E; cbn [csv_rows] in E.
  - injection E as <- <-. cbn. now rewrite app_nil_r.
  - inversion F as [|? ? (t & e & r & Pl & Nb & Lr) F']; subst. cbn [List.length] in B. rewrite Pl in E. cbn [csv_row] in E.
    replace (negb (Z.eqb (-1) (-1))) with false in E by reflexivity. cbv iota in E.
    destruct (process_class_step s labs t I ltac:(lia) Nb) as [Q | (c & s1 & Q & I1)]; rewrite Q in E; cbn [obind] in E; [discriminate|].
    destruct (csv_rest_safe r (-1 + 1) (repeat 0%Q dm) c s1) as (x1 & Q1 & _); [lia|rewrite repeat_length; lia|]. rewrite Q1 in E. cbn [obind] in E.
    destruct (csv_rows false deli dm ls0 (id + 1) s1) as [[qs1 s2]| |] eqn:Q2; cbn [obind fst snd] in E; [|discriminate|discriminate]. injection E as <- <-.
    apply IH with (labs := labs ++ [c]) in Q2; auto; [|rewrite app_length; cbn; lia]. rewrite <- app_assoc in Q2. exact Q2.
Qed.
Lemma trim_first s c r : trim s = c :: r -> ~ white c.
Proof. intro E. destruct (trim_spec s) as (a & b & _ & _ & _ & N & _). rewrite E in N. exact N. Qed.
Lemma lines_first file l : In l (lines file) -> match l with [] => True | c :: _ => ~ white c end.
Proof. intro H. unfold lines in H. apply in_map_iff in H as (p & <- & _). destruct (trim (fst p)) eqn:E; [exact I|]. now apply trim_first in E. Qed.
Lemma load_csv_classes file d' : (Z.of_nat (List.length (lines file)) < 2 ^ 63)%Z -> (forall l c r, In l (lines file) -> l = c :: r -> c <> ","%char /\ c <> ";"%char) ->
  load_csv false fresh file = Ok (d', true) -> class_ok d'.
Proof.
  intros B G. unfold load_csv. cbv zeta. set (deli := match lines file with [] => ","%char | l :: _ => delimiter l end).
  assert (deli = ","%char \/ deli = ";"%char) as Dl.
  { unfold deli. clear. destruct (lines file) as [|l ll]; [now left|]. clear ll. induction l as [|c l IH]; cbn [delimiter]; [now left|]. destruct (Ascii.eqb c ","); [now left|]. destruct (Ascii.eqb c ";"); [now right|auto]. }
  destruct (check_dims _ 0) as [m|] eqn:C; [|discriminate]. destruct (Z.ltb_spec m 0) as [|Hm]; [discriminate|].
  apply check_dims_all in C as [_ C]. rewrite Forall_map, Forall_forall in C. intro E.
  destruct (csv_rows false deli (Z.to_nat m) (lines file) 1 (cstate_of fresh)) as [[qs s']| |] eqn:Q; [|discriminate|discriminate]. cbn [obind fst snd] in E. injection E as <-.
  pose proof (csv_rows_classes deli (Z.to_nat m) (lines file) 1 no_classes [] cinv_empty ltac:(cbn; lia)) as X. 
  destruct (fun H => X H qs s' Q) as [ND L I Ct].
  { apply Forall_forall. intros l Hl. pose proof (lines_first file l Hl) as W. specialize (C l Hl). destruct l as [|c r]; [cbn in C; lia|].
    destruct (G _ c r Hl eq_refl) as [G1 G2]. assert (c <> deli) as Nc by (destruct Dl as [-> | ->]; auto).
    destruct (split_char deli (c :: r)) as [H|(t & u & Et & H)].
    - rewrite pieces_last by (auto; discriminate). exists (c :: r), true, []. split; [reflexivity|split; [exists c; split; [now left|auto]|cbn; lia]].
    - rewrite Et in *. rewrite pieces_step in * by auto. exists t, false, (pieces deli [] u). split; [reflexivity|]. split; [|cbn [List.length] in C; lia].
      destruct t as [|c' t]; [cbn in Et; congruence|]. cbn in Et. injection Et as <- _. exists c. split; [now left|auto]. }
  cbn [app] in *. constructor; cbn [loaded d_class d_classes d_points d_dist]; auto.
  intros p Hp. apply I. now apply in_map.
Qed.
