(** Property theorems: C120: the files written for a plot. C121: their titles.
    Each is closed by the lemma of the same (lower-case) name in T_Plot.v. *)
From Coq Require Import ZArith Ascii Bool String List Arith Permutation Sorted Lia.
From Verif Require Import Base M_Str M_Plot S_Plot L_Plot L_Plot2 L_Plot3.
From Verif Require Import T_Plot.
Import ListNotations.
Local Open Scope nat_scope.

Theorem C120_files (A : Type) (show : A -> str) (path : str) (names : list str) (classes : list Z) (pts : labelled A) (d : folder) :
  plottable names classes pts -> Forall slashfree names ->
  exists d', create_cls show path names classes pts d = Ok (d', map (fun n => path ++ n ++ plt) names) /\
  (forall k n c, nth_error names k = Some n -> nth_error classes k = Some c -> fget d' (n ++ plt) = Some (class_text show pts c)) /\
  (forall m, (forall n, In n names -> m <> n ++ plt) -> fget d' m = fget d m).
Proof. exact (@c120_files A show path names classes pts d). Qed.
Print Assumptions C120_files.

Example C120_files_ex :
  let show := fun b : bool => if b then ["1"%char] else ["0"%char] in
  let names := map list_ascii_of_string ["no"; "yes"]%string in
  let pts := [([true; false], 5%Z); ([false; false], 3%Z); ([true; true], 5%Z)] in
  let nl := String (ascii_of_nat 10) EmptyString in
  plottable names [3; 5]%Z pts /\ Forall slashfree names /\
  exists d, create_cls show [] names [3; 5]%Z pts [] = Ok (d, map list_ascii_of_string ["no.plt"; "yes.plt"]%string) /\
    fget d (list_ascii_of_string "no.plt") = Some (list_ascii_of_string ("0 0" ++ nl)) /\
    fget d (list_ascii_of_string "yes.plt") = Some (list_ascii_of_string ("1 0" ++ nl ++ "1 1" ++ nl)).
Proof. exact c120_files_ex. Qed.

Theorem C120_slash_refuted (A : Type) (show : A -> str) (path : str) (names : list str) (classes : list Z) (pts : labelled A) (n : str) :
  plottable names classes pts -> In n names -> In "/"%char n ->
  exists d fs, create_cls show path names classes pts [] = Ok (d, fs) /\ fget d (n ++ plt) = None /\ ~ In (path ++ n ++ plt) fs.
Proof. exact (@c120_slash_refuted A show path names classes pts n). Qed.
Print Assumptions C120_slash_refuted.

Example C120_slash_refuted_ex :
  let names := map list_ascii_of_string ["w/o"; "with"]%string in
  plottable names [0; 1]%Z [([true], 0%Z)] /\ In "/"%char (list_ascii_of_string "w/o").
Proof. exact c120_slash_refuted_ex. Qed.

Theorem C120_same_name_refuted (A : Type) (show : A -> str) (path n : str) (c1 c2 : Z) (x1 x2 : A) :
  slashfree n -> c1 <> c2 -> List.length (show x1) = List.length (show x2) ->
  exists d, create_cls show path [n; n] [c1; c2] [([x1], c1); ([x2], c2)] [] = Ok (d, [path ++ n ++ plt; path ++ n ++ plt]) /\
  fget d (n ++ plt) = Some (line [show x2]).
Proof. exact (@c120_same_name_refuted A show path n c1 c2 x1 x2). Qed.
Print Assumptions C120_same_name_refuted.

Example C120_same_name_refuted_ex : let show := fun z : Z => list_ascii_of_string (string_of_Z z) in
  slashfree (list_ascii_of_string "a") /\ (3 <> 4)%Z /\ List.length (show 1%Z) = List.length (show 2%Z) /\ line [show 1%Z] <> line [show 2%Z].
Proof. exact c120_same_name_refuted_ex. Qed.

Theorem C120_unknown_refuted (A : Type) (show : A -> str) (path : str) (names : list str) (classes : list Z) (pts : labelled A) (p : list A * Z) (d : folder) :
  NoDup names -> NoDup classes -> List.length names = List.length classes -> In p pts -> ~ In (snd p) classes ->
  create_cls show path names classes pts d = UB.
Proof. exact (@c120_unknown_refuted A show path names classes pts p d). Qed.
Print Assumptions C120_unknown_refuted.

Example C120_unknown_refuted_ex : let pts := [([true], 0%Z); ([false], 7%Z)] in
  NoDup (map list_ascii_of_string ["a"]%string) /\ NoDup [0]%Z /\ In ([false], 7%Z) pts /\ ~ In 7%Z [0%Z].
Proof. exact c120_unknown_refuted_ex. Qed.

Theorem C120_regression (A : Type) (show : A -> str) (path dname : str) (dim : nat) (pts : valued A) (d : folder) :
  (forall p, In p pts -> dim <= List.length (fst p)) ->
  exists d' f, create_reg show path dname dim pts d = Ok (d', [f]) /\ fget d' samples_plt = Some (reg_text show dim pts) /\
  (forall m, m <> samples_plt -> fget d' m = fget d m) /\ (dname = [] -> f = path ++ samples_plt).
Proof. exact (@c120_regression A show path dname dim pts d). Qed.
Print Assumptions C120_regression.

Example C120_regression_ex : let show := fun z : Z => list_ascii_of_string (string_of_Z z) in
  exists d f, create_reg show [] [] 1 [([1%Z], 2%Z)] [] = Ok (d, [f]) /\
    fget d samples_plt = Some (list_ascii_of_string (String.append "1 2" (String (ascii_of_nat 10) EmptyString))).
Proof. exact c120_regression_ex. Qed.

Theorem C120_regression_name_refuted (A : Type) (show : A -> str) (path dname : str) (dim : nat) (pts : valued A) (d : folder) (fs : list str) :
  dname <> [] -> dname <> list_ascii_of_string "samples" -> create_reg show path dname dim pts [] = Ok (d, fs) ->
  fs = [path ++ dname ++ plt] /\ fget d (dname ++ plt) = None.
Proof. exact (@c120_regression_name_refuted A show path dname dim pts d fs). Qed.
Print Assumptions C120_regression_name_refuted.

Example C120_regression_name_refuted_ex : exists d fs, create_reg (fun b : bool => if b then ["1"%char] else ["0"%char]) [] (list_ascii_of_string "blobs") 1 [([true], false)] [] = Ok (d, fs).
Proof. exact c120_regression_name_refuted_ex. Qed.

(** *** C121 *)
Theorem C121_titles (A : Type) (show : A -> str) (path : str) (names : list str) (classes : list Z) (pts : labelled A) (d : folder) (fs ls : list str) :
  plot_path path -> plottable names classes pts -> names <> [] ->
  Forall (fun n => n <> [] /\ ~ In "/"%char n /\ ~ In "."%char n) names ->
  create_cls show path names classes pts [] = Ok (d, fs) -> listing d ls ->
  exists ks, label_order classes ks /\
  let cmd := map (fun k => (path ++ nth k names [] ++ plt, nth k names [])) ks in
  plot2D path names classes ls = Ok cmd /\ plot_by_class path names classes ls = Ok cmd.
Proof. exact (@c121_titles A show path names classes pts d fs ls). Qed.
Print Assumptions C121_titles.

Example C121_titles_ex :
  let show := fun b : bool => if b then ["1"%char] else ["0"%char] in
  let s := list_ascii_of_string in
  let names := map s ["yes"; "no"]%string in
  let pts := [([true], 5%Z); ([false], 3%Z)] in
  exists d fs, plot_path (s "plottemp0/"%string) /\ plottable names [5; 3]%Z pts /\ create_cls show (s "plottemp0/"%string) names [5; 3]%Z pts [] = Ok (d, fs) /\
    listing d (map s [".."; "yes.plt"; "."; "no.plt"]%string) /\
    plot2D (s "plottemp0/"%string) names [5; 3]%Z (map s [".."; "yes.plt"; "."; "no.plt"]%string) =
      Ok [(s "plottemp0/no.plt"%string, s "no"%string); (s "plottemp0/yes.plt"%string, s "yes"%string)].
Proof. exact c121_titles_ex. Qed.

(** What stands before the first '.' of the file is not a class name. *)
Theorem C121_dot_refuted (A : Type) (show : A -> str) (path : str) (names : list str) (classes : list Z) (pts : labelled A) (d : folder) (fs ls : list str) (n a r : str) :
  plot_path path -> plottable names classes pts -> Forall slashfree names -> 2 <= List.length names -> In n names ->
  n ++ plt = a ++ "."%char :: r -> ~ In "."%char a -> a = [] \/ ~ In a names ->
  create_cls show path names classes pts [] = Ok (d, fs) -> listing d ls ->
  (forall cmd, plot2D path names classes ls <> Ok cmd) /\ (forall cmd, plot_by_class path names classes ls <> Ok cmd).
Proof. exact (@c121_dot_refuted A show path names classes pts d fs ls n a r). Qed.
Print Assumptions C121_dot_refuted.

Example C121_dot_refuted_ex :
  let s := list_ascii_of_string in let names := map s ["v1.5"; "v2"]%string in
  plottable names [0; 1]%Z [([true], 0%Z)] /\ s "v1.5"%string ++ plt = s "v1"%string ++ "."%char :: s "5.plt"%string /\ ~ In (s "v1"%string) names.
Proof. exact c121_dot_refuted_ex. Qed.

(** No class at all: the loops run past the end. *)
Theorem C121_none_refuted (path : str) (classes : list Z) (ls : list str) : filter valid_file ls = [] ->
  plot2D path [] classes ls = UB /\ plot_by_class path [] classes ls = UB.
Proof. exact (@c121_none_refuted path classes ls). Qed.
Print Assumptions C121_none_refuted.

Example C121_none_refuted_ex : filter valid_file (map list_ascii_of_string ["."; ".."]%string) = [].
Proof. exact c121_none_refuted_ex. Qed.

(** plot3D loops over the class names: data without classes. *)
Theorem C121_regression_refuted (A : Type) (show : A -> str) (path dname : str) (dim : nat) (pts : valued A) (d : folder) (fs ls : list str) :
  plot_path path -> create_reg show path dname dim pts [] = Ok (d, fs) -> listing d ls ->
  plot2D path [] [] ls = Ok [(path ++ samples_plt, list_ascii_of_string "samples")] /\ plot_by_class path [] [] ls = UB.
Proof. exact (@c121_regression_refuted A show path dname dim pts d fs ls). Qed.
Print Assumptions C121_regression_refuted.

Example C121_regression_refuted_ex : exists d fs, create_reg (fun b : bool => if b then ["1"%char] else ["0"%char]) (list_ascii_of_string "plottemp0/") [] 1 [([true], false)] [] = Ok (d, fs) /\
  listing d (map list_ascii_of_string ["."; ".."; "samples.plt"]%string).
Proof. exact c121_regression_refuted_ex. Qed.

(** The decision surface: its own files, and names without '_'. *)
Theorem C121_decision (A : Type) (show : A -> str) (showy : Z -> str) (path ts : str) (names : list str) (classes : list Z) (pts : labelled A) (d : folder) :
  plot_path path -> slashfree ts -> plottable names classes pts -> Forall (fun n => n <> [] /\ ~ In "/"%char n /\ ~ In "_"%char n) names ->
  (forall p, In p pts -> 2 <= List.length (fst p)) ->
  exists d' ks, label_order classes ks /\
  plot_decision show showy path ts names classes pts d = Ok (d', Some (map (fun k => (path ++ dec_file ts (nth k names []), nth k names [])) ks)) /\
  (forall k n c, nth_error names k = Some n -> nth_error classes k = Some c -> fget d' (dec_file ts n) = Some (dec_text show showy pts c)) /\
  (forall m, (forall n, In n names -> m <> dec_file ts n) -> fget d' m = fget d m).
Proof. exact (@c121_decision A show showy path ts names classes pts d). Qed.
Print Assumptions C121_decision.

Example C121_decision_ex :
  let show := fun b : bool => if b then ["1"%char] else ["0"%char] in
  let s := list_ascii_of_string in
  let nl := String (ascii_of_nat 10) EmptyString in
  exists d, plot_decision show (fun z => s (string_of_Z z)) (s "plottemp0/"%string) (s "12"%string) (map s ["yes"; "no"]%string) [5; 3]%Z [([true; false], 5%Z); ([true; true], 3%Z)] [] =
    Ok (d, Some [(s "plottemp0/no_data12.dat"%string, s "no"%string); (s "plottemp0/yes_data12.dat"%string, s "yes"%string)]) /\
    fget d (s "yes_data12.dat"%string) = Some (s (String.append "1 0 5" nl)).
Proof. exact c121_decision_ex. Qed.

Theorem C121_underscore_refuted (A : Type) (show : A -> str) (showy : Z -> str) (path ts : str) (names : list str) (classes : list Z) (pts : labelled A) (d : folder) (n a r : str) :
  plot_path path -> slashfree ts -> plottable names classes pts -> Forall slashfree names -> 2 <= List.length names -> In n names ->
  n ++ ["_"%char] = a ++ "_"%char :: r -> ~ In "_"%char a -> a = [] \/ ~ In a names ->
  forall q, plot_decision show showy path ts names classes pts d <> Ok q.
Proof. exact (@c121_underscore_refuted A show showy path ts names classes pts d n a r). Qed.
Print Assumptions C121_underscore_refuted.

Example C121_underscore_refuted_ex :
  let s := list_ascii_of_string in
  s "iris_setosa"%string ++ ["_"%char] = s "iris"%string ++ "_"%char :: s "setosa_"%string /\
  plot_decision (fun b : bool => if b then ["1"%char] else ["0"%char]) (fun z => s (string_of_Z z)) (s "plottemp0/"%string) (s "12"%string)
    (map s ["iris_setosa"; "other"]%string) [0; 1]%Z [([true; false], 0%Z)] [] = Abort.
Proof. exact c121_underscore_refuted_ex. Qed.

Theorem C121_decision_slash_refuted (A : Type) (show : A -> str) (showy : Z -> str) (path ts : str) (names : list str) (classes : list Z) (pts : labelled A) (d : folder) (n : str) :
  slashfree ts -> List.length names = List.length classes -> In n names -> In "/"%char n ->
  exists d', plot_decision show showy path ts names classes pts d = Ok (d', None).
Proof. exact (@c121_decision_slash_refuted A show showy path ts names classes pts d n). Qed.
Print Assumptions C121_decision_slash_refuted.

Example C121_decision_slash_refuted_ex : In "/"%char (list_ascii_of_string "w/o") /\ slashfree (list_ascii_of_string "12").
Proof. exact c121_decision_slash_refuted_ex. Qed.

