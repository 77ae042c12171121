(** Reading and writing datasets. *)
From Coq Require Import ZArith QArith Ascii Bool String List Lia Sorting.Sorted.
From Verif Require Import Base ListLib M_Data S_Data M_Str S_Str L_Str2 L_Str3 T_Str M_Load S_Load L_Load L_Load2 L_Load3 L_Load4 L_Load5.
Import ListNotations.
Local Open Scope nat_scope.
Notation txt := list_ascii_of_string.

(** Concrete datasets used by the examples. *)
Definition dec1 (m : Z) (k : nat) : decimal := mkDec m k.
Definition exw : data decimal :=
  mkData [mkPoint [dec1 15 1; dec1 (-25) 2] 1%Z 1%Z (dec1 0 0); mkPoint [dec1 0 0; dec1 1200 0] (-1)%Z 2%Z (dec1 0 0); mkPoint [dec1 3 4; dec1 999999 5] 1%Z 3%Z (dec1 0 0)]
         [2; 5]%Z [0; 1; 2]%Z ["1"; "-1"]%string [1; -1]%Z [2; 1]%Z 3 2 false false true true.
Lemma exw_ok : data_ok exw.
Proof.
  constructor.
  - reflexivity.
  - constructor.
    + reflexivity.
    + cbn. repeat constructor; cbn; intuition discriminate.
    + cbn. intros p [<-|[<-|[<-|[]]]]; cbn; auto.
    + reflexivity.
    + intros [|[|i]] c H; cbn in H; [injection H as <-; reflexivity|injection H as <-; reflexivity|destruct i; discriminate].
  - reflexivity.
  - cbn. lia.
  - cbn. intros p [<-|[<-|[<-|[]]]]; reflexivity.
  - reflexivity.
  - cbn. repeat constructor.
  - cbn. intros f [<-|[<-|[]]]; lia.
  - discriminate.
  - cbn. lia.
Qed.
Lemma exw_short : forall p, In p (d_points exw) -> p_x p <> [] /\ Forall short (p_x p) /\ (Z.abs (p_y p) < 10 ^ 6)%Z.
Proof.
  cbn [exw d_points In]. intros p [<-|[<-|[<-|[]]]]; (split; [discriminate|split; [|cbn; lia]]); cbn [p_x];
  repeat (constructor; [split; cbn; [lia|first [left; reflexivity|right; lia]]|]); constructor.
Qed.
Lemma exw_minus : minus_one_ok (labels (d_points exw)).
Proof.
  cbn. intros pre y post E M N. destruct pre as [|a [|b [|c [|e pre]]]]; injection E as <- E; try (injection E as <- E); try (injection E as <- E); cbn in M, N; subst; try tauto; intuition try discriminate.
Qed.

(** C17, for values that six significant digits show and labels for which C18 keeps the value: points, values, labels, counts come back,
    and the dataset read is well formed. *)
Lemma c17_csv_round_trip d : data_ok d -> (forall p, In p (d_points d) -> p_x p <> [] /\ Forall short (p_x p) /\ (Z.abs (p_y p) < 10 ^ 6)%Z) ->
  minus_one_ok (labels (d_points d)) ->
  exists text d', write_csv d = Ok text /\ load_csv false fresh text = Ok (d', true) /\ data_ok d' /\ Forall2 same_content (d_points d) (d_points d') /\
    d_dim d' = d_dim d /\ d_fnames d' = iota 1 (d_dim d) /\ map p_id (d_points d') = iota 1 (d_size d).
Proof. exact (csv_round_trip d). Qed.
Lemma c17_csv_round_trip_ex : data_ok exw /\ (forall p, In p (d_points exw) -> p_x p <> [] /\ Forall short (p_x p) /\ (Z.abs (p_y p) < 10 ^ 6)%Z) /\
  minus_one_ok (labels (d_points exw)) /\
  write_csv exw = Ok (txt "1,1.5,-0.25" ++ newline :: txt "-1,0,1200" ++ newline :: txt "1,0.0003,9.99999" ++ [newline]).
Proof. split; [exact exw_ok|split; [exact exw_short|split; [exact exw_minus|vm_compute; reflexivity]]]. Qed.
Definition one_value (v : decimal) (y : Z) : data decimal := mkData [mkPoint [v] y 1%Z (dec1 0 0)] [1]%Z [0]%Z ["a"]%string [y] [1]%Z 1 1 false false true true.
Lemma one_value_ok v y : data_ok (one_value v y).
Proof.
  constructor; cbn.
  - reflexivity.
  - constructor; cbn.
    + reflexivity.
    + repeat constructor. intros [].
    + intros p [<-|[]]. now left.
    + reflexivity.
    + intros [|i] c H; cbn in H; [|destruct i; discriminate]. injection H as <-. unfold label_count. cbn. destruct (Z.eq_dec y y); [reflexivity|congruence].
  - reflexivity.
  - lia.
  - intros p [<-|[]]. reflexivity.
  - reflexivity.
  - repeat constructor.
  - intros f [<-|[]]. lia.
  - discriminate.
  - lia.
Qed.
(** C17 fails: seven digits are rounded to six, a value shown with an exponent is read without it, a label of eight digits as well,
    and a second class after -1 becomes 1. *)
Definition read_back (d : data decimal) (y : Z) (x : Q) : Prop :=
  exists text d' p, write_csv d = Ok text /\ load_csv false fresh text = Ok (d', true) /\ d_points d' = [p] /\ p_y p = y /\ Forall2 Qeq (p_x p) [x].
Lemma c17_csv_digits_refuted : data_ok (one_value (mkDec 1234567 3) 1) /\ read_back (one_value (mkDec 1234567 3) 1) 1 (123457 # 100) /\
  ~ (dec_Q (mkDec 1234567 3) == 123457 # 100)%Q.
Proof.
  split; [apply one_value_ok|split; [|vm_compute; discriminate]]. do 3 eexists. split; [vm_compute; reflexivity|]. split; [vm_compute; reflexivity|].
  split; [reflexivity|split; [reflexivity|repeat constructor]].
Qed.
Lemma c17_csv_exponent_refuted : data_ok (one_value (mkDec 1 5) 1) /\ read_back (one_value (mkDec 1 5) 1) 1 1 /\ ~ (dec_Q (mkDec 1 5) == 1)%Q /\
  read_back (one_value (mkDec 1000000 0) 12345678) 1 1 /\ ~ (dec_Q (mkDec 1000000 0) == 1)%Q.
Proof.
  split; [apply one_value_ok|]. split; [|split; [vm_compute; discriminate|split; [|vm_compute; discriminate]]].
  - do 3 eexists. split; [vm_compute; reflexivity|]. split; [vm_compute; reflexivity|]. split; [reflexivity|split; [reflexivity|repeat constructor]].
  - do 3 eexists. split; [vm_compute; reflexivity|]. split; [vm_compute; reflexivity|]. split; [reflexivity|split; [reflexivity|repeat constructor]].
Qed.
Lemma c17_csv_label_refuted : exists d text d', data_ok d /\ labels (d_points d) = [-1; 2]%Z /\ write_csv d = Ok text /\ load_csv false fresh text = Ok (d', true) /\
  labels (d_points d') = [-1; 1]%Z.
Proof.
  exists (mkData [mkPoint [dec1 1 0] (-1)%Z 1%Z (dec1 0 0); mkPoint [dec1 2 0] 2%Z 2%Z (dec1 0 0)] [1]%Z [0; 1]%Z ["a"; "b"]%string [-1; 2]%Z [1; 1]%Z 2 1 false false true true).
  do 2 eexists. split; [|split; [reflexivity|split; [vm_compute; reflexivity|split; [vm_compute; reflexivity|reflexivity]]]].
  constructor; cbn.
  - reflexivity.
  - constructor; cbn.
    + reflexivity.
    + repeat constructor; cbn; intuition discriminate.
    + intros p [<-|[<-|[]]]; cbn; auto.
    + reflexivity.
    + intros [|[|i]] c H; cbn in H; [injection H as <-; reflexivity|injection H as <-; reflexivity|destruct i; discriminate].
  - reflexivity.
  - lia.
  - intros p [<-|[<-|[]]]; reflexivity.
  - reflexivity.
  - repeat constructor.
  - intros f [<-|[]]. lia.
  - discriminate.
  - lia.
Qed.

(** C18: for every sequence of class strings, whatever their form: no undefined behaviour, and the classes and counts are those of the labels given. *)
Lemma c18_counts items : Forall (fun it => exists c, In c it /\ ~ white c) items -> (Z.of_nat (List.length items) < 2 ^ 63)%Z ->
  run_classes no_classes items = Abort \/
  exists ls s, run_classes no_classes items = Ok (ls, s) /\ List.length ls = List.length items /\ NoDup (cs_classes s) /\ (forall c, In c (cs_classes s) <-> In c ls) /\
    List.length (cs_dist s) = List.length (cs_classes s) /\
    forall i c, nth_error (cs_classes s) i = Some c -> nth_error (cs_dist s) i = Some (Z.of_nat (count_occ Z.eq_dec ls c)).
Proof.
  intros F B. destruct (run_classes_ok items no_classes [] cinv_empty B F) as [H|(l & s & E & [ND L I C] & Ll)]; [now left|]. right. exists l, s. cbn [app] in *. auto 10.
Qed.
Lemma c18_counts_ex : exists s, run_classes no_classes [txt "a"; txt "2"; txt "a"; txt "1.5"] = Ok ([1; 2; 1; 1]%Z, s) /\ cs_classes s = [1; 2]%Z /\ cs_dist s = [3; 1]%Z.
Proof. eexists. split; [vm_compute; reflexivity|split; reflexivity]. Qed.
(** C18 for words: the same label exactly for the same word, labels 1, 2, ... by first appearance. *)
Lemma c18_words items : Forall word items -> (Z.of_nat (List.length items) < 2 ^ 63)%Z ->
  exists ls s, run_classes no_classes items = Ok (ls, s) /\ List.length ls = List.length items /\
    (forall i j a b la lb, nth_error items i = Some a -> nth_error items j = Some b -> nth_error ls i = Some la -> nth_error ls j = Some lb -> (la = lb <-> a = b)) /\
    cs_classes s = iota 1 (List.length (cs_names s)) /\ (forall i l, nth_error ls i = Some l -> (1 <= l <= Z.of_nat (List.length (cs_names s)))%Z).
Proof.
  intros F B. destruct (run_words items no_classes [] cinv_empty B) as (s & E & (ND & W & C) & _ & I); auto.
  { split; [constructor|split; [intros ? []|reflexivity]]. }
  do 2 eexists. split; [exact E|]. split; [apply map_length|]. split; [|split; [exact C|]].
  - intros i j a b la lb Ha Hb Hla Hlb. rewrite nth_error_map, Ha in Hla. rewrite nth_error_map, Hb in Hlb. cbn in Hla, Hlb. injection Hla as <-. injection Hlb as <-.
    split; [|intros ->; reflexivity]. intro Q. apply str_inj. pose proof (I a (nth_error_In _ _ Ha)) as Ia. pose proof (I b (nth_error_In _ _ Hb)) as Ib.
    apply find_name_nth in Ia, Ib. replace (find_name (string_of_list_ascii b) (cs_names s)) with (find_name (string_of_list_ascii a) (cs_names s)) in Ib by lia. congruence.
  - intros i l H. rewrite nth_error_map in H. destruct (nth_error items i) eqn:Q; [|discriminate]. cbn in H. injection H as <-. apply nth_error_In, I, find_name_in in Q. lia.
Qed.
Lemma c18_words_ex : Forall word [txt "Iris-setosa"; txt "b"; txt "Iris-setosa"] /\
  exists s, run_classes no_classes [txt "Iris-setosa"; txt "b"; txt "Iris-setosa"] = Ok ([1; 2; 1]%Z, s).
Proof.
  split; [|eexists; vm_compute; reflexivity].
  assert (forall s, s <> [] -> forallb (fun c => negb (isspace c)) s = true -> is_number s = false -> word s) as X.
  { intros s N A B. split; [auto|split].
    - apply Forall_forall. intros c Hc. rewrite forallb_forall in A. specialize (A c Hc). apply isspace_false. now destruct (isspace c).
    - intro Q. assert (is_number s = true) by (apply is_number_ok; auto). congruence. }
  repeat (constructor; [apply X; (discriminate || reflexivity)|]). constructor.
Qed.
(** C18 for integers: the label is the integer, as long as no label but 1 is first seen after -1. *)
Lemma c18_integers items ys : Forall2 numeral items ys -> Forall (fun y => int_min <= y <= int_max)%Z ys -> minus_one_ok ys -> (Z.of_nat (List.length items) < 2 ^ 63)%Z ->
  exists s, run_classes no_classes items = Ok (ys, s).
Proof.
  intros F J M B.
  assert (forall items ys, Forall2 numeral items ys -> forall s ls, cinv s ls -> Forall2 named (cs_names s) (cs_classes s) -> Forall (fun y => int_min <= y <= int_max)%Z ys ->
    minus_one_ok (ls ++ ys) -> (Z.of_nat (List.length ls + List.length items) < 2 ^ 63)%Z -> exists s', run_classes s items = Ok (ys, s')) as X.
  { clear. induction 1 as [|t y items ys N F IH]; intros s ls I Nm J M B; cbn [run_classes]; [eauto|]. inversion J as [|? ? Jy J']; subst. cbn [List.length] in B.
    destruct (process_number s ls t y I ltac:(lia) Nm N) as (s1 & -> & I1 & N1).
    { unfold int_ok. apply andb_true_iff. split; apply Z.leb_le; lia. }
    { intros H1 H2. apply (M ls y ys); auto. }
    cbn [obind]. destruct (IH s1 (ls ++ [y]) I1 N1 J') as (s2 & ->); [now rewrite <- app_assoc|rewrite app_length; cbn; lia|]. cbn [obind]. eauto. }
  destruct (X items ys F no_classes [] cinv_empty (Forall2_nil _) J M B) as (s & E). eauto.
Qed.
Lemma c18_integers_ex : Forall2 numeral [txt "1"; txt "-1"; txt "1"] [1; -1; 1]%Z /\ Forall (fun y => int_min <= y <= int_max)%Z [1; -1; 1]%Z /\ minus_one_ok [1; -1; 1]%Z.
Proof.
  assert (numeral (txt "1") 1) as N1. { apply (num_pos ["1"%char]); [apply digs; reflexivity|]. exists "1"%char, []. split; [reflexivity|discriminate]. }
  split; [constructor; [exact N1|constructor; [exact numeral_m1|constructor; [exact N1|constructor]]]|]. split; [repeat constructor; vm_compute; discriminate|exact exw_minus].
Qed.
(** C18 fails: after -1 two words get the same label and the same word two labels; an integer and a word, a fraction and an integer collide; a string of numeral characters with no
    digit makes the load throw. *)
Lemma c18_function_refuted : exists s, run_classes no_classes [txt "-1"; txt "x"; txt "y"; txt "x"] = Ok ([-1; 1; 1; 2]%Z, s).
Proof. eexists. vm_compute. reflexivity. Qed.
Lemma c18_injective_refuted : (exists s, run_classes no_classes [txt "2"; txt "a"] = Ok ([2; 2]%Z, s)) /\ (exists s, run_classes no_classes [txt "1.5"; txt "1"] = Ok ([1; 1]%Z, s)).
Proof. split; eexists; vm_compute; reflexivity. Qed.
Lemma c18_throws_refuted : run_classes no_classes [txt "a"; txt "e"] = Abort.
Proof. reflexivity. Qed.

(** C76: reading any text as CSV with the label first never reads or writes out of bounds; what is read is rectangular, with ids and feature names 1, 2, .... *)
Lemma c76_csv_safe d file : List.length (d_dist d) = List.length (d_classes d) -> load_csv false d file <> UB /\
  forall d', load_csv false d file = Ok (d', true) -> d_size d' = List.length (d_points d') /\ List.length (d_points d') = List.length (lines file) /\
    Forall (fun p => List.length (p_x p) = d_dim d') (d_points d') /\ d_fnames d' = iota 1 (d_dim d') /\ map p_id (d_points d') = iota 1 (d_size d').
Proof. exact (load_csv_safe d file). Qed.
Lemma c76_csv_safe_ex : exists d', load_csv false fresh (txt "a,1,x" ++ newline :: txt "  b,2,3 " ++ [newline]) = Ok (d', true) /\ map p_x (d_points d') = [[1; 0]; [2; 3]]%Q /\
  labels (d_points d') = [1; 2]%Z.
Proof. eexists. split; [vm_compute; reflexivity|split; reflexivity]. Qed.
(** With the label last, when no line is empty or ends with a delimiter; otherwise the write is out of bounds. *)
Lemma c76_csv_end d file : List.length (d_dist d) = List.length (d_classes d) ->
  (forall l, In l (lines file) -> l <> [] /\ forall u, l <> u ++ [","%char] /\ l <> u ++ [";"%char]) -> load_csv true d file <> UB /\
  forall d', load_csv true d file = Ok (d', true) -> d_size d' = List.length (d_points d') /\ List.length (d_points d') = List.length (lines file) /\
    Forall (fun p => List.length (p_x p) = d_dim d') (d_points d') /\ d_fnames d' = iota 1 (d_dim d') /\ map p_id (d_points d') = iota 1 (d_size d').
Proof. exact (load_csv_end_safe d file). Qed.
Lemma c76_csv_end_ex : (forall l, In l (lines (txt "1,2,a")) -> l <> [] /\ forall u, l <> u ++ [","%char] /\ l <> u ++ [";"%char]) /\
  exists d', load_csv true fresh (txt "1,2,a") = Ok (d', true) /\ map p_x (d_points d') = [[1; 2]]%Q.
Proof.
  split; [|eexists; split; [vm_compute; reflexivity|reflexivity]]. change (lines (txt "1,2,a")) with [txt "1,2,a"]. intros l [<-|[]]. split; [discriminate|].
  intro u. split; intro E; apply (f_equal (@rev ascii)) in E; rewrite rev_app_distr in E; discriminate.
Qed.
Lemma c76_csv_end_refuted : load_csv true fresh (txt "1,2," ++ [newline]) = UB.
Proof. reflexivity. Qed.
(** The class bookkeeping of any file whose lines do not start with a delimiter. *)
Lemma c76_csv_classes file d' : (Z.of_nat (List.length (lines file)) < 2 ^ 63)%Z -> (forall l c r, In l (lines file) -> l = c :: r -> c <> ","%char /\ c <> ";"%char) ->
  load_csv false fresh file = Ok (d', true) -> class_ok d'.
Proof. exact (load_csv_classes file d'). Qed.
Lemma c76_csv_classes_ex : (forall l c r, In l (lines (txt "b;1" ++ newline :: txt "a;2")) -> l = c :: r -> c <> ","%char /\ c <> ";"%char) /\
  exists d', load_csv false fresh (txt "b;1" ++ newline :: txt "a;2") = Ok (d', true) /\ d_classes d' = [1; 2]%Z.
Proof.
  split; [|eexists; split; [vm_compute; reflexivity|reflexivity]]. change (lines (txt "b;1" ++ newline :: txt "a;2")) with [txt "b;1"; txt "a;2"].
  intros l c r [<-|[<-|[]]] E; injection E as <- _; split; discriminate.
Qed.
(** A line that starts with a delimiter gives a point whose label 0 is in no class. *)
Lemma c76_csv_classes_refuted : exists d', load_csv false fresh (txt ",1") = Ok (d', true) /\ labels (d_points d') = [0]%Z /\ d_classes d' = [].
Proof. eexists. split; [vm_compute; reflexivity|split; reflexivity]. Qed.

(** C77: a line of a .data file without a class writes past the feature names; two blanks in a row set the label to 0. *)
Lemma c77_data_safe_refuted : load_data fresh (txt "1:2 2:3" ++ [newline]) = UB.
Proof. reflexivity. Qed.
Lemma c77_data_blank_refuted : exists d', load_data fresh (txt "1 1:2  2:3") = Ok (d', true) /\ labels (d_points d') = [0]%Z /\ d_classes d' = [1]%Z.
Proof. eexists. split; [vm_compute; reflexivity|split; reflexivity]. Qed.

(** C78: a .data file keeps the feature names as well. *)
Lemma c78_data_round_trip d : data_ok d -> (forall p, In p (d_points d) -> p_x p <> [] /\ Forall short (p_x p) /\ (Z.abs (p_y p) < 10 ^ 6)%Z) ->
  (forall f, In f (d_fnames d) -> (f <= int_max)%Z) -> minus_one_ok (labels (d_points d)) ->
  exists text d', write_data d = Ok text /\ load_data fresh text = Ok (d', true) /\ data_ok d' /\ Forall2 same_content (d_points d) (d_points d') /\
    d_dim d' = d_dim d /\ d_fnames d' = d_fnames d /\ map p_id (d_points d') = iota 1 (d_size d).
Proof. exact (data_round_trip d). Qed.
Lemma c78_data_round_trip_ex : data_ok exw /\ (forall p, In p (d_points exw) -> p_x p <> [] /\ Forall short (p_x p) /\ (Z.abs (p_y p) < 10 ^ 6)%Z) /\
  (forall f, In f (d_fnames exw) -> (f <= int_max)%Z) /\ minus_one_ok (labels (d_points exw)) /\
  write_data exw = Ok (txt "1 2:1.5 5:-0.25" ++ newline :: txt "-1 2:0 5:1200" ++ newline :: txt "1 2:0.0003 5:9.99999" ++ [newline]).
Proof.
  split; [exact exw_ok|split; [exact exw_short|split; [|split; [exact exw_minus|vm_compute; reflexivity]]]].
  cbn [exw d_fnames In]. intros f [<-|[<-|[]]]; vm_compute; discriminate.
Qed.
(** Writing a dataset whose points have no features reads out of bounds. *)
Lemma c17_write_empty_refuted d p : d_points d = [p] -> d_size d = 1 -> p_x p = [] -> (Z.abs (p_y p) < 10 ^ 6)%Z -> write_csv d = UB /\ write_data d = UB.
Proof.
  intros E Sz X Y. destruct (fmt_label_ok _ Y) as (t & Et & _). unfold write_csv, write_data, dim. rewrite Sz, E, X. cbn [seq map_outcome List.length]. unfold vget. cbn [nth_error obind].
  unfold csv_line, data_line. rewrite Et. split; reflexivity.
Qed.
Lemma c17_write_empty_ex : exists (d : data decimal) p, d_points d = [p] /\ d_size d = 1 /\ p_x p = [] /\ (Z.abs (p_y p) < 10 ^ 6)%Z.
Proof. exists (mkData [mkPoint [] 1%Z 1%Z (dec1 0 0)] [] [0]%Z ["a"]%string [1]%Z [1]%Z 1 0 false false true true), (mkPoint [] 1%Z 1%Z (dec1 0 0)). repeat split; reflexivity. Qed.
