(** Property theorems: Reading and writing datasets.
    Each is closed by the lemma of the same (lower-case) name in T_Load.v. *)
From Coq Require Import ZArith QArith Ascii Bool String List Lia Sorting.Sorted.
From Verif Require Import Base ListLib M_Data S_Data M_Str S_Str L_Str2 L_Str3 T_Str M_Load S_Load L_Load L_Load2 L_Load3 L_Load4 L_Load5.
From Verif Require Import T_Load.
Import ListNotations.
Local Open Scope nat_scope.

(** C17, for values that six significant digits show and labels for which C18 keeps the value: points, values, labels, counts come back,
    and the dataset read is well formed. *)
Theorem C17_csv_round_trip d : data_ok d -> (forall p, In p (d_points d) -> p_x p <> [] /\ Forall short (p_x p) /\ (Z.abs (p_y p) < 10 ^ 6)%Z) ->
  minus_one_ok (labels (d_points d)) ->
  exists text d', write_csv d = Ok text /\ load_csv false fresh text = Ok (d', true) /\ data_ok d' /\ Forall2 same_content (d_points d) (d_points d') /\
    d_dim d' = d_dim d /\ d_fnames d' = iota 1 (d_dim d) /\ map p_id (d_points d') = iota 1 (d_size d).
Proof. exact (@c17_csv_round_trip d). Qed.
Print Assumptions C17_csv_round_trip.

Example C17_csv_round_trip_ex : data_ok exw /\ (forall p, In p (d_points exw) -> p_x p <> [] /\ Forall short (p_x p) /\ (Z.abs (p_y p) < 10 ^ 6)%Z) /\
  minus_one_ok (labels (d_points exw)) /\
  write_csv exw = Ok (txt "1,1.5,-0.25" ++ newline :: txt "-1,0,1200" ++ newline :: txt "1,0.0003,9.99999" ++ [newline]).
Proof. exact c17_csv_round_trip_ex. Qed.

Theorem C17_csv_digits_refuted : data_ok (one_value (mkDec 1234567 3) 1) /\ read_back (one_value (mkDec 1234567 3) 1) 1 (123457 # 100) /\
  ~ (dec_Q (mkDec 1234567 3) == 123457 # 100)%Q.
Proof. exact c17_csv_digits_refuted. Qed.
Print Assumptions C17_csv_digits_refuted.

Theorem C17_csv_exponent_refuted : data_ok (one_value (mkDec 1 5) 1) /\ read_back (one_value (mkDec 1 5) 1) 1 1 /\ ~ (dec_Q (mkDec 1 5) == 1)%Q /\
  read_back (one_value (mkDec 1000000 0) 12345678) 1 1 /\ ~ (dec_Q (mkDec 1000000 0) == 1)%Q.
Proof. exact c17_csv_exponent_refuted. Qed.
Print Assumptions C17_csv_exponent_refuted.

Theorem C17_csv_label_refuted : exists d text d', data_ok d /\ labels (d_points d) = [-1; 2]%Z /\ write_csv d = Ok text /\ load_csv false fresh text = Ok (d', true) /\
  labels (d_points d') = [-1; 1]%Z.
Proof. exact c17_csv_label_refuted. Qed.
Print Assumptions C17_csv_label_refuted.

(** C18: for every sequence of class strings, whatever their form: no undefined behaviour, and the classes and counts are those of the labels given. *)
Theorem C18_counts items : Forall (fun it => exists c, In c it /\ ~ white c) items -> (Z.of_nat (List.length items) < 2 ^ 63)%Z ->
  run_classes no_classes items = Abort \/
  exists ls s, run_classes no_classes items = Ok (ls, s) /\ List.length ls = List.length items /\ NoDup (cs_classes s) /\ (forall c, In c (cs_classes s) <-> In c ls) /\
    List.length (cs_dist s) = List.length (cs_classes s) /\
    forall i c, nth_error (cs_classes s) i = Some c -> nth_error (cs_dist s) i = Some (Z.of_nat (count_occ Z.eq_dec ls c)).
Proof. exact (@c18_counts items). Qed.
Print Assumptions C18_counts.

Example C18_counts_ex : exists s, run_classes no_classes [txt "a"; txt "2"; txt "a"; txt "1.5"] = Ok ([1; 2; 1; 1]%Z, s) /\ cs_classes s = [1; 2]%Z /\ cs_dist s = [3; 1]%Z.
Proof. exact c18_counts_ex. Qed.

(** C18 for words: the same label exactly for the same word, labels 1, 2, ... by first appearance. *)
Theorem C18_words items : Forall word items -> (Z.of_nat (List.length items) < 2 ^ 63)%Z ->
  exists ls s, run_classes no_classes items = Ok (ls, s) /\ List.length ls = List.length items /\
    (forall i j a b la lb, nth_error items i = Some a -> nth_error items j = Some b -> nth_error ls i = Some la -> nth_error ls j = Some lb -> (la = lb <-> a = b)) /\
    cs_classes s = iota 1 (List.length (cs_names s)) /\ (forall i l, nth_error ls i = Some l -> (1 <= l <= Z.of_nat (List.length (cs_names s)))%Z).
Proof. exact (@c18_words items). Qed.
Print Assumptions C18_words.

Example C18_words_ex : Forall word [txt "Iris-setosa"; txt "b"; txt "Iris-setosa"] /\
  exists s, run_classes no_classes [txt "Iris-setosa"; txt "b"; txt "Iris-setosa"] = Ok ([1; 2; 1]%Z, s).
Proof. exact c18_words_ex. Qed.

(** C18 for integers: the label is the integer, as long as no label but 1 is first seen after -1. *)
Theorem C18_integers items ys : Forall2 numeral items ys -> Forall (fun y => int_min <= y <= int_max)%Z ys -> minus_one_ok ys -> (Z.of_nat (List.length items) < 2 ^ 63)%Z ->
  exists s, run_classes no_classes items = Ok (ys, s).
Proof. exact (@c18_integers items ys). Qed.
Print Assumptions C18_integers.

Example C18_integers_ex : Forall2 numeral [txt "1"; txt "-1"; txt "1"] [1; -1; 1]%Z /\ Forall (fun y => int_min <= y <= int_max)%Z [1; -1; 1]%Z /\ minus_one_ok [1; -1; 1]%Z.
Proof. exact c18_integers_ex. Qed.

(** C18 fails: after -1 two words get the same label and the same word two labels; an integer and a word, a fraction and an integer collide; a string of numeral characters with no
    digit makes the load throw. *)
Theorem C18_function_refuted : exists s, run_classes no_classes [txt "-1"; txt "x"; txt "y"; txt "x"] = Ok ([-1; 1; 1; 2]%Z, s).
Proof. exact c18_function_refuted. Qed.
Print Assumptions C18_function_refuted.

Theorem C18_injective_refuted : (exists s, run_classes no_classes [txt "2"; txt "a"] = Ok ([2; 2]%Z, s)) /\ (exists s, run_classes no_classes [txt "1.5"; txt "1"] = Ok ([1; 1]%Z, s)).
Proof. exact c18_injective_refuted. Qed.
Print Assumptions C18_injective_refuted.

Theorem C18_throws_refuted : run_classes no_classes [txt "a"; txt "e"] = Abort.
Proof. exact c18_throws_refuted. Qed.
Print Assumptions C18_throws_refuted.

(** C76: reading any text as CSV with the label first never reads or writes out of bounds; what is read is rectangular, with ids and feature names 1, 2, .... *)
Theorem C76_csv_safe d file : List.length (d_dist d) = List.length (d_classes d) -> load_csv false d file <> UB /\
  forall d', load_csv false d file = Ok (d', true) -> d_size d' = List.length (d_points d') /\ List.length (d_points d') = List.length (lines file) /\
    Forall (fun p => List.length (p_x p) = d_dim d') (d_points d') /\ d_fnames d' = iota 1 (d_dim d') /\ map p_id (d_points d') = iota 1 (d_size d').
Proof. exact (@c76_csv_safe d file). Qed.
Print Assumptions C76_csv_safe.

Example C76_csv_safe_ex : exists d', load_csv false fresh (txt "a,1,x" ++ newline :: txt "  b,2,3 " ++ [newline]) = Ok (d', true) /\ map p_x (d_points d') = [[1; 0]; [2; 3]]%Q /\
  labels (d_points d') = [1; 2]%Z.
Proof. exact c76_csv_safe_ex. Qed.

(** With the label last, when no line is empty or ends with a delimiter; otherwise the write is out of bounds. *)
Theorem C76_csv_end d file : List.length (d_dist d) = List.length (d_classes d) ->
  (forall l, In l (lines file) -> l <> [] /\ forall u, l <> u ++ [","%char] /\ l <> u ++ [";"%char]) -> load_csv true d file <> UB /\
  forall d', load_csv true d file = Ok (d', true) -> d_size d' = List.length (d_points d') /\ List.length (d_points d') = List.length (lines file) /\
    Forall (fun p => List.length (p_x p) = d_dim d') (d_points d') /\ d_fnames d' = iota 1 (d_dim d') /\ map p_id (d_points d') = iota 1 (d_size d').
Proof. exact (@c76_csv_end d file). Qed.
Print Assumptions C76_csv_end.

Example C76_csv_end_ex : (forall l, In l (lines (txt "1,2,a")) -> l <> [] /\ forall u, l <> u ++ [","%char] /\ l <> u ++ [";"%char]) /\
  exists d', load_csv true fresh (txt "1,2,a") = Ok (d', true) /\ map p_x (d_points d') = [[1; 2]]%Q.
Proof. exact c76_csv_end_ex. Qed.

Theorem C76_csv_end_refuted : load_csv true fresh (txt "1,2," ++ [newline]) = UB.
Proof. exact c76_csv_end_refuted. Qed.
Print Assumptions C76_csv_end_refuted.

(** The class bookkeeping of any file whose lines do not start with a delimiter. *)
Theorem C76_csv_classes file d' : (Z.of_nat (List.length (lines file)) < 2 ^ 63)%Z -> (forall l c r, In l (lines file) -> l = c :: r -> c <> ","%char /\ c <> ";"%char) ->
  load_csv false fresh file = Ok (d', true) -> class_ok d'.
Proof. exact (@c76_csv_classes file d'). Qed.
Print Assumptions C76_csv_classes.

Example C76_csv_classes_ex : (forall l c r, In l (lines (txt "b;1" ++ newline :: txt "a;2")) -> l = c :: r -> c <> ","%char /\ c <> ";"%char) /\
  exists d', load_csv false fresh (txt "b;1" ++ newline :: txt "a;2") = Ok (d', true) /\ d_classes d' = [1; 2]%Z.
Proof. exact c76_csv_classes_ex. Qed.

(** A line that starts with a delimiter gives a point whose label 0 is in no class. *)
Theorem C76_csv_classes_refuted : exists d', load_csv false fresh (txt ",1") = Ok (d', true) /\ labels (d_points d') = [0]%Z /\ d_classes d' = [].
Proof. exact c76_csv_classes_refuted. Qed.
Print Assumptions C76_csv_classes_refuted.

(** C77: a line of a .data file without a class writes past the feature names; two blanks in a row set the label to 0. *)
Theorem C77_data_safe_refuted : load_data fresh (txt "1:2 2:3" ++ [newline]) = UB.
Proof. exact c77_data_safe_refuted. Qed.
Print Assumptions C77_data_safe_refuted.

Theorem C77_data_blank_refuted : exists d', load_data fresh (txt "1 1:2  2:3") = Ok (d', true) /\ labels (d_points d') = [0]%Z /\ d_classes d' = [1]%Z.
Proof. exact c77_data_blank_refuted. Qed.
Print Assumptions C77_data_blank_refuted.

(** C78: a .data file keeps the feature names as well. *)
Theorem C78_data_round_trip d : data_ok d -> (forall p, In p (d_points d) -> p_x p <> [] /\ Forall short (p_x p) /\ (Z.abs (p_y p) < 10 ^ 6)%Z) ->
  (forall f, In f (d_fnames d) -> (f <= int_max)%Z) -> minus_one_ok (labels (d_points d)) ->
  exists text d', write_data d = Ok text /\ load_data fresh text = Ok (d', true) /\ data_ok d' /\ Forall2 same_content (d_points d) (d_points d') /\
    d_dim d' = d_dim d /\ d_fnames d' = d_fnames d /\ map p_id (d_points d') = iota 1 (d_size d).
Proof. exact (@c78_data_round_trip d). Qed.
Print Assumptions C78_data_round_trip.

Example C78_data_round_trip_ex : data_ok exw /\ (forall p, In p (d_points exw) -> p_x p <> [] /\ Forall short (p_x p) /\ (Z.abs (p_y p) < 10 ^ 6)%Z) /\
  (forall f, In f (d_fnames exw) -> (f <= int_max)%Z) /\ minus_one_ok (labels (d_points exw)) /\
  write_data exw = Ok (txt "1 2:1.5 5:-0.25" ++ newline :: txt "-1 2:0 5:1200" ++ newline :: txt "1 2:0.0003 5:9.99999" ++ [newline]).
Proof. exact c78_data_round_trip_ex. Qed.

(** Writing a dataset whose points have no features reads out of bounds. *)
Theorem C17_write_empty_refuted d p : d_points d = [p] -> d_size d = 1 -> p_x p = [] -> (Z.abs (p_y p) < 10 ^ 6)%Z -> write_csv d = UB /\ write_data d = UB.
Proof. exact (@c17_write_empty_refuted d p). Qed.
Print Assumptions C17_write_empty_refuted.

Example C17_write_empty_ex : exists (d : data decimal) p, d_points d = [p] /\ d_size d = 1 /\ p_x p = [] /\ (Z.abs (p_y p) < 10 ^ 6)%Z.
Proof. exact c17_write_empty_ex. Qed.

