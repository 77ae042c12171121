(** Property theorems: Proofs for P_Load3.v: C102 .arff files, C103 .txt files, C104 load and write.
    Each is closed by the lemma of the same (lower-case) name in T_Load3.v. *)
From Coq Require Import ZArith QArith Ascii Bool String List Lia.
From Verif Require Import Base ListLib M_Data S_Data M_Str S_Str L_Str2 L_Str3 T_Str M_Load S_Load L_Load L_Load2 L_Load3 L_Load4 L_Load5 T_Load T_Load2.
From Verif Require Import L_Join M_Eq S_Eq T_Eq M_Load2 S_Load2.
From Verif Require Import T_Load3.
Import ListNotations.
Local Open Scope nat_scope.

Theorem C102_table n (ts : list line_of_data) ys s : ts <> [] ->
  Forall (fun r => List.length (fst r) = n /\ Forall (cell_ok ",") (fst r) /\ cell_ok "," (snd r)) ts ->
  run_classes no_classes (map snd ts) = Ok (ys, s) ->
  exists d, load_arff true fresh (text_of "," (map (fun r => fst r ++ [snd r]) ts)) = Ok (d, true) /\
    map p_x (d_points d) = map (fun r => map cell (fst r)) ts /\ labels (d_points d) = ys /\ map p_id (d_points d) = iota 1 (List.length ts) /\
    d_dim d = n /\ d_fnames d = iota 1 n /\ d_size d = List.length ts /\ d_classes d = cs_classes s /\ d_dist d = cs_dist s /\ d_cnames d = cs_names s.
Proof. exact (@c102_table n ts ys s). Qed.
Print Assumptions C102_table.

Theorem C102_safe d file : List.length (d_dist d) = List.length (d_classes d) -> d_cnames d = [] ->
  (forall l, In l (lines file) -> l <> [] /\ forall u, l <> u ++ [","%char]) -> load_arff true d file <> UB /\
  forall d', load_arff true d file = Ok (d', true) -> d_size d' = List.length (d_points d') /\ List.length (d_points d') = List.length (lines file) /\
    Forall (fun p => List.length (p_x p) = d_dim d') (d_points d') /\ d_fnames d' = iota 1 (d_dim d') /\ map p_id (d_points d') = iota 1 (d_size d').
Proof. exact (@c102_safe d file). Qed.
Print Assumptions C102_safe.

Theorem C102_comma_refuted : load_arff true fresh (txt "1,2," ++ [newline]) = UB.
Proof. exact c102_comma_refuted. Qed.
Print Assumptions C102_comma_refuted.

(** A line without a comma, as every line of the header of an ARFF file, among lines with one: nothing is read. *)
Theorem C102_header_refuted atEnd file l1 l2 : In l1 (lines file) -> In l2 (lines file) -> l1 <> [] -> ~ In ","%char l1 ->
  (exists a b, l2 = a ++ ","%char :: b /\ b <> []) -> load_arff atEnd fresh file = Ok (fresh, false).
Proof. exact (@c102_header_refuted atEnd file l1 l2). Qed.
Print Assumptions C102_header_refuted.

Example C102_header_ex : In (txt "@data") (lines header) /\ In (txt "5.1,a") (lines header) /\ load_arff true fresh header = Ok (fresh, false).
Proof. exact c102_header_ex. Qed.

Example C102_table_ex : exists s, run_classes no_classes [txt "a"; txt "b"; txt "a"] = Ok ([1; 2; 1]%Z, s) /\
  exists d, load_arff true fresh (text_of "," [[txt "1.5"; txt "?"; txt "a"]; [txt "-2"; txt "3"; txt "b"]; [txt "0"; txt "1"; txt "a"]]) = Ok (d, true) /\
    map p_x (d_points d) = [[15 # 10; 0]; [-2; 3]; [0; 1]]%Q /\ d_dist d = [2; 1]%Z.
Proof. exact c102_table_ex. Qed.

Theorem C102_begin_refuted n f w mid z rows : Forall (cell_ok ",") (f :: w :: mid ++ [z]) -> List.length mid = n -> table "," (n + 3) rows -> is_number z = true ->
  (exists r, run_classes no_classes [w] = Ok r) -> load_arff false fresh (text_of "," ((f :: w :: mid ++ [z]) :: rows)) = UB.
Proof. exact (@c102_begin_refuted n f w mid z rows). Qed.
Print Assumptions C102_begin_refuted.

Example C102_begin_ex : Forall (cell_ok ",") [txt "1"; txt "a"; txt "2"] /\ (exists r, run_classes no_classes [txt "a"] = Ok r) /\
  load_arff false fresh (txt "1,a,2" ++ [newline]) = UB.
Proof. exact c102_begin_ex. Qed.

Theorem C102_reload_refuted d n (ts : list line_of_data) : ts <> [] -> n <> 0 ->
  Forall (fun r => List.length (fst r) = n /\ Forall (fun t => cell_ok "," t /\ is_number t = true) (fst r) /\ cell_ok "," (snd r)) ts ->
  Forall (fun r => is_number (snd r) = false /\ In (string_of_list_ascii (snd r)) (d_cnames d)) ts ->
  load_arff true d (text_of "," (map (fun r => fst r ++ [snd r]) ts)) = UB.
Proof. exact (@c102_reload_refuted d n ts). Qed.
Print Assumptions C102_reload_refuted.

Example C102_reload_ex : exists d, load_arff true fresh (txt "1,2,a" ++ newline :: txt "3,4,b" ++ [newline]) = Ok (d, true) /\ d_cnames d = ["a"; "b"]%string /\
  load_arff true d (txt "1,2,a" ++ newline :: txt "3,4,b" ++ [newline]) = UB.
Proof. exact c102_reload_ex. Qed.

Theorem C103_safe d file : exists d' b, load_txt d file = Ok (d', b) /\ (b = false -> d' = d) /\
  (b = true -> d_size d' = List.length (lines file) /\ List.length (d_points d') = d_size d' /\ Forall (fun p => List.length (p_x p) = d_dim d') (d_points d') /\
    d_fnames d' = iota 1 (d_dim d') /\ map p_id (d_points d') = iota 1 (d_size d') /\ d_classes d' = d_classes d /\ d_dist d' = d_dist d).
Proof. exact (@c103_safe d file). Qed.
Print Assumptions C103_safe.

Theorem C103_table d n rows : rows <> [] -> n <> 0 -> table " " (n + 2) rows ->
  exists d', load_txt d (text_of " " rows) = Ok (d', true) /\ map p_x (d_points d') = map (fun r => map cell (skipn 2 r)) rows /\
    Forall (fun p => p_y p = 0%Z) (d_points d') /\ d_dim d' = n /\ d_size d' = List.length rows /\ map p_id (d_points d') = iota 1 (List.length rows).
Proof. exact (@c103_table d n rows). Qed.
Print Assumptions C103_table.

Example C103_table_ex : table " " 4 [[txt "7"; txt "x"; txt "1.5"; txt "y"]; [txt "8"; txt "x"; txt "2"; txt "3"]] /\
  exists d, load_txt fresh (text_of " " [[txt "7"; txt "x"; txt "1.5"; txt "y"]; [txt "8"; txt "x"; txt "2"; txt "3"]]) = Ok (d, true) /\
    map p_x (d_points d) = [[15 # 10; 0]; [2; 3]]%Q.
Proof. exact c103_table_ex. Qed.

(** Two lines that differ in the number of features: nothing is read. *)
Theorem C103_ragged d r1 r2 rows : Forall (Forall (cell_ok " ")) rows -> In r1 rows -> In r2 rows -> List.length r1 - 2 <> List.length r2 - 2 ->
  load_txt d (text_of " " rows) = Ok (d, false).
Proof. exact (@c103_ragged d r1 r2 rows). Qed.
Print Assumptions C103_ragged.

Example C103_ragged_ex : exists rows, Forall (Forall (cell_ok " ")) rows /\ load_txt fresh (text_of " " rows) = Ok (fresh, false) /\ List.length rows = 2.
Proof. exact c103_ragged_ex. Qed.

(** The label 0 every point gets is in no class. *)
Theorem C103_classes_refuted n rows : rows <> [] -> n <> 0 -> table " " (n + 2) rows ->
  exists d', load_txt fresh (text_of " " rows) = Ok (d', true) /\ d_points d' <> [] /\ d_classes d' = [] /\ ~ class_ok d'.
Proof. exact (@c103_classes_refuted n rows). Qed.
Print Assumptions C103_classes_refuted.

Theorem C104_csv dir stem d : ends_with "/" dir -> stem <> [] -> ~ In "."%char stem -> ~ In "/"%char stem ->
  data_ok d -> (forall p, In p (d_points d) -> p_x p <> [] /\ Forall short (p_x p) /\ (Z.abs (p_y p) < 10 ^ 6)%Z) -> minus_one_ok (labels (d_points d)) ->
  exists path text d', write d (dir ++ stem) (txt "csv") = Ok (path, text) /\ load None fresh path text = Ok (d', stem, true) /\ data_ok d' /\
    Forall2 same_content (d_points d) (d_points d').
Proof. exact (@c104_csv dir stem d). Qed.
Print Assumptions C104_csv.

Theorem C104_data dir stem d : ends_with "/" dir -> stem <> [] -> ~ In "."%char stem -> ~ In "/"%char stem ->
  data_ok d -> (forall p, In p (d_points d) -> p_x p <> [] /\ Forall short (p_x p) /\ (Z.abs (p_y p) < 10 ^ 6)%Z) -> minus_one_ok (labels (d_points d)) ->
  (forall f, In f (d_fnames d) -> (f <= int_max)%Z) ->
  exists path text d', write d (dir ++ stem) (txt "data") = Ok (path, text) /\ load None fresh path text = Ok (d', stem, true) /\ data_ok d' /\
    Forall2 same_content (d_points d) (d_points d') /\ d_fnames d' = d_fnames d.
Proof. exact (@c104_data dir stem d). Qed.
Print Assumptions C104_data.

Example C104_round_trip_ex : ends_with "/" (txt "out/") /\ data_ok exw /\ (forall p, In p (d_points exw) -> p_x p <> [] /\ Forall short (p_x p) /\ (Z.abs (p_y p) < 10 ^ 6)%Z) /\
  minus_one_ok (labels (d_points exw)) /\ (forall f, In f (d_fnames exw) -> (f <= int_max)%Z) /\
  exists text d, write exw (txt "out/exw") (txt "csv") = Ok (txt "out/exw.csv", text) /\ load None fresh (txt "out/exw.csv") text = Ok (d, txt "exw", true) /\
    labels (d_points d) = [1; -1; 1]%Z.
Proof. exact c104_round_trip_ex. Qed.

(** With the extension txt nothing is written: what is read back is empty. *)
Theorem C104_txt_refuted d dir stem : ends_with "/" dir -> stem <> [] -> ~ In "."%char stem -> ~ In "/"%char stem ->
  exists path d', write d (dir ++ stem) (txt "txt") = Ok (path, []) /\ load None fresh path [] = Ok (d', stem, true) /\ d_points d' = [] /\ d_isempty d' = false.
Proof. exact (@c104_txt_refuted d dir stem). Qed.
Print Assumptions C104_txt_refuted.

Example C104_txt_ex : data_ok exw /\ d_points exw <> [] /\ ends_with "/" (txt "out/").
Proof. exact c104_txt_ex. Qed.

Theorem C104_again d file d' : class_ok d -> (forall c, In c (d_classes d) -> In c (labels (d_points d))) ->
  (Z.of_nat (List.length (d_points d) + List.length (lines file)) < 2 ^ 63)%Z ->
  (forall l c r, In l (lines file) -> l = c :: r -> c <> ","%char /\ c <> ";"%char) ->
  load_csv false d file = Ok (d', true) ->
  List.length (d_points d') = List.length (lines file) /\
  (forall c, In c (d_classes d') <-> In c (labels (d_points d)) \/ In c (labels (d_points d'))) /\
  forall i c, nth_error (d_classes d') i = Some c -> nth_error (d_dist d') i = Some (label_count c (d_points d) + label_count c (d_points d'))%Z.
Proof. exact (@c104_again d file d'). Qed.
Print Assumptions C104_again.

(** So the class counts are wrong as soon as there were points. *)
Theorem C104_again_refuted d file d' : class_ok d -> (forall c, In c (d_classes d) -> In c (labels (d_points d))) ->
  (Z.of_nat (List.length (d_points d) + List.length (lines file)) < 2 ^ 63)%Z ->
  (forall l c r, In l (lines file) -> l = c :: r -> c <> ","%char /\ c <> ";"%char) ->
  load_csv false d file = Ok (d', true) -> d_points d <> [] -> ~ class_ok d'.
Proof. exact (@c104_again_refuted d file d'). Qed.
Print Assumptions C104_again_refuted.

Example C104_again_ex : exists d d', load_csv false fresh two = Ok (d, true) /\ class_ok d /\ (forall c, In c (d_classes d) -> In c (labels (d_points d))) /\ d_points d <> [] /\
  (forall l c r, In l (lines two) -> l = c :: r -> c <> ","%char /\ c <> ";"%char) /\
  load_csv false d two = Ok (d', true) /\ d_dist d' = [2; 2]%Z /\ labels (d_points d') = [1; 2]%Z.
Proof. exact c104_again_ex. Qed.

(** After load, whether it worked or not, counting the classes does nothing. *)
Theorem C104_counting_refuted atEnd d path text d' name ok : load atEnd d path text = Ok (d', name, ok) -> computeClassesDistribution d' = Ok d'.
Proof. exact (@c104_counting_refuted atEnd d path text d' name ok). Qed.
Print Assumptions C104_counting_refuted.

Example C104_counting_ex : exists d', load None fresh (txt "x.png") [] = Ok (d', txt "x", false) /\ d_cdist d' = true.
Proof. exact c104_counting_ex. Qed.

(** Write with the extension plt gives one row per point: its label, then its feature values. *)
Theorem C104_plt d fname : data_ok d -> (forall p, In p (d_points d) -> p_x p <> [] /\ Forall short (p_x p) /\ (Z.abs (p_y p) < 10 ^ 6)%Z) ->
  exists rows, write d fname (txt "plt") = Ok (fname ++ txt ".plt", text_of " " rows) /\
    Forall2 (fun p r => Forall (cell_ok " ") r /\ exists t ts, r = t :: ts /\ numeral t (p_y p) /\ Forall2 (fun v u => is_number u = true /\ (atod u == dec_Q v)%Q) (p_x p) ts) (d_points d) rows.
Proof. exact (@c104_plt d fname). Qed.
Print Assumptions C104_plt.

Example C104_plt_ex : data_ok exw /\ (forall p, In p (d_points exw) -> p_x p <> [] /\ Forall short (p_x p) /\ (Z.abs (p_y p) < 10 ^ 6)%Z) /\
  write exw (txt "exw") (txt "plt") = Ok (txt "exw.plt", txt "1 1.5 -0.25" ++ newline :: txt "-1 0 1200" ++ newline :: txt "1 0.0003 9.99999" ++ [newline]).
Proof. exact c104_plt_ex. Qed.

(** A point without features: the count of the columns before the last wraps around. *)
Theorem C104_plt_refuted d fname p pts : d_points d = p :: pts -> d_size d = S (List.length pts) -> p_x p = [] -> (Z.abs (p_y p) < 10 ^ 6)%Z -> write d fname (txt "plt") = UB.
Proof. exact (@c104_plt_refuted d fname p pts). Qed.
Print Assumptions C104_plt_refuted.

(** Files of type plt, and those whose extension contains no known type, are refused and the points stay. *)
Theorem C104_refused atEnd d dir stem ext text : ends_with "/" dir -> stem <> [] -> ~ In "."%char stem -> ~ In "/"%char stem ->
  ext = txt "plt" \/ (~ In "."%char ext /\ ~ In "/"%char ext /\ forall t k a b, known t k -> ext <> a ++ t ++ b) ->
  load atEnd d ((dir ++ stem) ++ "."%char :: ext) text =
    Ok (mkData (d_points d) (d_fnames d) (d_index d) (d_cnames d) (d_classes d) (d_dist d) (d_size d) (d_dim d) (d_isempty d) (d_normalized d) true (d_class d), stem, false).
Proof. exact (@c104_refused atEnd d dir stem ext text). Qed.
Print Assumptions C104_refused.

Example C104_refused_ex : ends_with "/" (txt "out/") /\ ~ In "."%char (txt "gz") /\ ~ In "/"%char (txt "gz") /\ (forall t k a b, known t k -> txt "gz" <> a ++ t ++ b).
Proof. exact c104_refused_ex. Qed.

