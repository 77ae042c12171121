(** Property theorems: Property lemmas for files with real labels: C146.
    Each is closed by the lemma of the same (lower-case) name in T_Regr.v. *)
From Coq Require Import ZArith QArith Ascii Bool String List Lia.
From Verif Require Import Base ListLib M_Data S_Data L_Join L_Valid M_Str S_Str L_Str2 L_Str3 M_Load S_Load M_Load2 L_Load L_Load2 L_Load3 L_Load4 M_Regr.
From Verif Require Import T_Regr.
Import ListNotations.
Local Open Scope nat_scope.

(** C146: a .csv file of numbers read as "Regression" gives every feature and every label, with the label in the first or in the last column. *)
Theorem C146_csv : forall (atEnd : bool) (n : nat) (rows : list (list str * str)), rows <> [] -> Forall (row_good n) rows ->
  rload_csv atEnd (comma_file (negb atEnd) rows) = Ok (Some (map row_value rows)).
Proof. exact c146_csv. Qed.
Print Assumptions C146_csv.

Example C146_csv_ex : sample_rows <> [] /\ Forall (row_good 2) sample_rows /\ map row_value sample_rows = [([15#10; 2], 25#100); ([3; -4], 75#10)]%Q.
Proof. exact c146_csv_ex. Qed.

(** C146: the same file as .arff loses every label: all are 0. *)
Theorem C146_arff_refuted : forall (n : nat) (rows : list (list str * str)), rows <> [] -> Forall (row_good n) rows ->
  rload_arff true (comma_file false rows) = Ok (Some (map (fun r => (map atod (fst r), 0%Q)) rows)).
Proof. exact c146_arff_refuted. Qed.
Print Assumptions C146_arff_refuted.

Example C146_arff_ex : sample_rows <> [] /\ Forall (row_good 2) sample_rows.
Proof. exact c146_arff_ex. Qed.

(** C146: a .data file with the labels at the end of the lines, the second of them written with a point, is read with its features and labels; no class is noted. *)
Theorem C146_data_last : forall (before : bool) (s0 : cstate) (n : nat) (r1 r2 : drow) (rows : list drow), Forall (drow_good n) (r1 :: r2 :: rows) -> In "."%char (snd r2) ->
  exists rd, rload_data before s0 (data_file false (r1 :: r2 :: rows)) = Ok (Some rd) /\ rd_points rd = map (fun r => (features_of r, atod (snd r))) (r1 :: r2 :: rows) /\ rd_classes rd = s0.
Proof. exact c146_data_last. Qed.
Print Assumptions C146_data_last.

Example C146_data_last_ex : Forall (drow_good 2) sample_data /\ In "."%char (txt "7.75") /\ map (fun r => (features_of r, atod (snd r))) sample_data = [([15#10; 2], 25#10); ([3; -4], 775#100)]%Q.
Proof. exact c146_data_last_ex. Qed.

(** C146: with the labels at the front of the lines, or with a second label written without a point, the labels are cut to whole numbers, even when "Regression" is asked for. *)
Theorem C146_data_cut_refuted : forall (before front : bool) (n : nat) (r1 r2 : drow) (rows : list drow) (zs : list Z), Forall (drow_good n) (r1 :: r2 :: rows) ->
  (front = true /\ 0 < n) \/ (front = false /\ ~ In "."%char (snd r2)) -> Forall2 (fun r z => stoi (snd r) = Ok z /\ snd r <> txt "-1") (r1 :: r2 :: rows) zs ->
  exists rd, rload_data before no_classes (data_file front (r1 :: r2 :: rows)) = Ok (Some rd) /\ map fst (rd_points rd) = map features_of (r1 :: r2 :: rows) /\ map snd (rd_points rd) = map inject_Z zs.
Proof. exact c146_data_cut_refuted. Qed.
Print Assumptions C146_data_cut_refuted.

Example C146_data_cut_ex : Forall (drow_good 2) sample_data /\ Forall2 (fun r z => stoi (snd r) = Ok z /\ snd r <> txt "-1") sample_data [2; 7]%Z /\ map (fun r => atod (snd r)) sample_data = [25#10; 775#100]%Q.
Proof. exact c146_data_cut_ex. Qed.

(** C146: whatever was asked for and whatever the labels are, a .data file that was read is one of classification. *)
Theorem C146_type_refuted : forall (before : bool) (s0 : cstate) (file : str) (rd : rdata), rload_data before s0 file = Ok (Some rd) -> isClassification (rd_type rd) = true.
Proof. exact c146_type_refuted. Qed.
Print Assumptions C146_type_refuted.

Example C146_type_ex : exists rd, rload_data true no_classes (data_file false sample_data) = Ok (Some rd).
Proof. exact c146_type_ex. Qed.

(** C146: when the first pass finds classes, the reader is the one of the model for classes (C76-C78). *)
Theorem C146_agrees : forall (before : bool) (d : data Q) (file : str), data_regression before (lines file) = false ->
  rload_data before (cstate_of d) file = (let* r := load_data d file in
    Ok (if snd r then Some (mkRd (map (fun p => (p_x p, inject_Z (p_y p))) (d_points (fst r))) (d_fnames (fst r)) (cstate_of (fst r))
          (if Nat.eqb (List.length (d_classes (fst r))) 2 then "BinClassification" else "MultiClassification")%string) else None)).
Proof. exact c146_agrees. Qed.
Print Assumptions C146_agrees.

Example C146_agrees_ex : data_regression true (lines (data_file true sample_data)) = false.
Proof. exact c146_agrees_ex. Qed.

