(** Property theorems: Proofs for P_Eq.v: C99 comparing and copying datasets, C100 name of a dataset, C101 views of a dataset.
    Each is closed by the lemma of the same (lower-case) name in T_Eq.v. *)
From Coq Require Import ZArith Ascii Bool String List Lia Sorted.
From Verif Require Import Base ListLib M_Data S_Data M_Str S_Str L_Str2 L_Str3 T_Data T_Str L_Feat M_Eq S_Eq.
From Verif Require Import T_Eq.
Import ListNotations.
Open Scope Z_scope.

(** C99. Equality on well-formed data. *)
Theorem C99_equal (T : Type) (eqb : T -> T -> bool) (a b : dset T) : decides eqb -> data_ok (ds_data a) -> data_ok (ds_data b) ->
  exists r, ds_eq eqb a b = Ok r /\ (r = true <-> same_table a b).
Proof. exact (@c99_equal T eqb a b). Qed.
Print Assumptions C99_equal.

Theorem C99_equivalence (T : Type) (eqb : T -> T -> bool) (D : decides eqb) :
  (forall a, data_ok (ds_data a) -> ds_eq eqb a a = Ok true) /\
  (forall a b, data_ok (ds_data a) -> data_ok (ds_data b) -> ds_eq eqb a b = ds_eq eqb b a) /\
  (forall a b c, data_ok (ds_data a) -> data_ok (ds_data b) -> data_ok (ds_data c) ->
     ds_eq eqb a b = Ok true -> ds_eq eqb b c = Ok true -> ds_eq eqb a c = Ok true).
Proof. exact (@c99_equivalence T eqb D). Qed.
Print Assumptions C99_equivalence.

Theorem C99_differs (T : Type) (eqb : T -> T -> bool) (a b : dset T) : decides eqb -> data_ok (ds_data a) -> data_ok (ds_data b) ->
  exists r, ds_ne eqb a b = Ok (negb r) /\ ds_eq eqb a b = Ok r.
Proof. exact (@c99_differs T eqb a b). Qed.
Print Assumptions C99_differs.

(** The copy of a dataset is equal to it exactly when the names of its two classes are the default ones. *)
Theorem C99_copy (T : Type) (eqb : T -> T -> bool) (a : dset T) : decides eqb -> data_ok (ds_data a) ->
  exists r, ds_eq eqb (ds_copy a) a = Ok r /\ (r = true <-> ds_pos a = "1"%string /\ ds_neg a = "-1"%string).
Proof. exact (@c99_copy T eqb a). Qed.
Print Assumptions C99_copy.

Theorem C99_copy_refuted (T : Type) (eqb : T -> T -> bool) (a : dset T) : decides eqb -> data_ok (ds_data a) -> ds_pos a <> "1"%string ->
  ds_eq eqb (ds_copy a) a = Ok false.
Proof. exact (@c99_copy_refuted T eqb a). Qed.
Print Assumptions C99_copy_refuted.

(** An assigned dataset is equal to the source, and keeps everything but whether its counts are known. *)
Theorem C99_assign (T : Type) (eqb : T -> T -> bool) (a b : dset T) : decides eqb -> data_ok (ds_data b) ->
  data_ok (ds_data (ds_assign a b)) /\ ds_eq eqb (ds_assign a b) b = Ok true /\
  d_points (ds_data (ds_assign a b)) = d_points (ds_data b) /\ d_cnames (ds_data (ds_assign a b)) = d_cnames (ds_data b).
Proof. exact (@c99_assign T eqb a b). Qed.
Print Assumptions C99_assign.

(** Comparing against a dataset with fewer counts: clear() keeps the counts of the classes. *)
Theorem C99_clear_refuted (T : Type) (eqb : T -> T -> bool) (a : dset T) : data_ok (ds_data a) -> d_classes (ds_data a) <> [] ->
  ds_eq eqb (ds_clear a) ds_fresh = UB /\
  (ds_pos a = "1"%string -> ds_neg a = "-1"%string -> ds_eq eqb ds_fresh (ds_clear a) = Ok true).
Proof. exact (@c99_clear_refuted T eqb a). Qed.
Print Assumptions C99_clear_refuted.

Example C99_equal_ex : decides Z.eqb /\ data_ok ex5 /\ data_ok ex3 /\
  ds_eq Z.eqb (mkDset ex5 "1" "-1") (mkDset ex5 "1" "-1") = Ok true /\ ds_eq Z.eqb (mkDset ex5 "1" "-1") (mkDset ex3 "1" "-1") = Ok false.
Proof. exact c99_equal_ex. Qed.

Example C99_copy_ex : ds_eq Z.eqb (ds_copy (mkDset ex5 "1" "-1")) (mkDset ex5 "1" "-1") = Ok true /\
  ds_eq Z.eqb (ds_copy (mkDset ex5 "yes" "no")) (mkDset ex5 "yes" "no") = Ok false /\ d_classes ex5 <> [].
Proof. exact c99_copy_ex. Qed.

(** Labels take no part in the comparison. *)
Theorem C99_labels_refuted : exists a b : dset Z, data_ok (ds_data a) /\ data_ok (ds_data b) /\
  labels (d_points (ds_data a)) <> labels (d_points (ds_data b)) /\ ds_eq Z.eqb a b = Ok true.
Proof. exact c99_labels_refuted. Qed.
Print Assumptions C99_labels_refuted.

(** Counting the classes of an assigned dataset is a different computation from counting those of its source: the flag that says the
    counts are known stays the one of the overwritten dataset. *)
Theorem C99_assign_flag_refuted : exists a b : dset Z, d_cdist (ds_data a) = true /\ d_points (ds_data (ds_assign a b)) = d_points (ds_data b) /\
  (exists d, computeClassesDistribution (ds_data b) = Ok d /\ d_dist d = [3; 2]) /\
  (exists d, computeClassesDistribution (ds_data (ds_assign a b)) = Ok d /\ d_dist d = [0; 0]).
Proof. exact c99_assign_flag_refuted. Qed.
Print Assumptions C99_assign_flag_refuted.

Theorem C100_name dir k stem rest n : ends_with "/" dir -> stem <> [] -> ~ In "."%char stem -> ~ In "/"%char stem ->
  starts_with "." rest -> ~ In "/"%char rest ->
  dataset_name (dir ++ (repeat "."%char k ++ stem ++ rest) ++ repeat "/"%char n) = Ok stem.
Proof. exact (@c100_name dir k stem rest n). Qed.
Print Assumptions C100_name.

Example C100_name_ex : ends_with "/" (list_ascii_of_string "/home/data.d/") /\
  dataset_name (list_ascii_of_string "/home/data.d/iris.data.csv") = Ok (list_ascii_of_string "iris") /\
  dataset_name (list_ascii_of_string "iris") = Ok (list_ascii_of_string "iris") /\
  dataset_name (list_ascii_of_string "../sets/.iris.csv//") = Ok (list_ascii_of_string "iris").
Proof. exact c100_name_ex. Qed.

Theorem C100_dots dir k n : ends_with "/" dir -> dataset_name (dir ++ repeat "."%char (S k) ++ repeat "/"%char n) = Ok [].
Proof. exact (@c100_dots dir k n). Qed.
Print Assumptions C100_dots.

Example C100_dots_ex : dataset_name (list_ascii_of_string "sets/../") = Ok [] /\ ends_with "/" (list_ascii_of_string "sets/").
Proof. exact c100_dots_ex. Qed.

(** The empty path and paths of slashes only: the last of no tokens. *)
Theorem C100_slashes_refuted n : dataset_name (repeat "/"%char n) = UB.
Proof. exact (@c100_slashes_refuted n). Qed.
Print Assumptions C100_slashes_refuted.

(** Files that differ after their first dot get one name. *)
Theorem C100_distinct_refuted dir stem r1 r2 : ends_with "/" dir -> stem <> [] -> ~ In "."%char stem -> ~ In "/"%char stem ->
  ~ In "/"%char r1 -> ~ In "/"%char r2 ->
  dataset_name (dir ++ stem ++ "."%char :: r1) = dataset_name (dir ++ stem ++ "."%char :: r2).
Proof. exact (@c100_distinct_refuted dir stem r1 r2). Qed.
Print Assumptions C100_distinct_refuted.

Example C100_distinct_ex : dataset_name (list_ascii_of_string "runs/iris.v1.csv") = dataset_name (list_ascii_of_string "runs/iris.v2.csv").
Proof. exact c100_distinct_ex. Qed.

Theorem C101_feature (T : Type) (d : data T) idx : data_ok d -> 0 <= idx < Z.of_nat (d_dim d) ->
  exists col, getFeature d idx = Ok col /\ length col = size d /\
    forall i p, nth_error (d_points d) i = Some p -> nth_error col i = nth_error (p_x p) (Z.to_nat idx).
Proof. exact (@c101_feature T d idx). Qed.
Print Assumptions C101_feature.

Theorem C101_range (T : Type) (d : data T) idx : data_ok d -> d_points d <> [] -> (idx < 0 \/ Z.of_nat (d_dim d) <= idx) -> getFeature d idx = Abort.
Proof. exact (@c101_range T d idx). Qed.
Print Assumptions C101_range.

(** The argument is a position from 0, not a feature name from 1: asked for the last feature by name, the program stops. *)
Theorem C101_by_name_refuted (T : Type) (d : data T) : data_ok d -> d_points d <> [] -> d_dim d <> O -> d_fnames d = iota 1 (d_dim d) ->
  In (Z.of_nat (d_dim d)) (d_fnames d) /\ getFeature d (Z.of_nat (d_dim d)) = Abort.
Proof. exact (@c101_by_name_refuted T d). Qed.
Print Assumptions C101_by_name_refuted.

Theorem C101_labels (T : Type) (d : data T) : data_ok d -> getLabels d = Ok (labels (d_points d)).
Proof. exact (@c101_labels T d). Qed.
Print Assumptions C101_labels.

(** A change that keeps labels and dimensions keeps the dataset well-formed and its labels. *)
Theorem C101_apply (T : Type) (f : point T -> point T) (d : data T) : data_ok d -> (forall p, p_y (f p) = p_y p /\ length (p_x (f p)) = length (p_x p)) ->
  data_ok (apply f d) /\ size (apply f d) = size d /\ getLabels (apply f d) = getLabels d /\
  forall i p, nth_error (d_points d) i = Some p -> nth_error (d_points (apply f d)) i = Some (f p).
Proof. exact (@c101_apply T f d). Qed.
Print Assumptions C101_apply.

(** A change of label does not reach the list of classes and their counts. *)
Theorem C101_apply_refuted (T : Type) (d : data T) y : d_points d <> [] -> ~ In y (d_classes d) ->
  ~ class_ok (apply (fun p => mkPoint (p_x p) y (p_id p) (p_alpha p)) d).
Proof. exact (@c101_apply_refuted T d y). Qed.
Print Assumptions C101_apply_refuted.

Example C101_ex : data_ok ex3 /\ getFeature ex3 2 = Ok [30; 31; 32] /\ getFeature ex3 3 = Abort /\ getFeature ex3 (-1) = Abort /\
  getLabels ex3 = Ok [1; -1; 1] /\ ~ In 5 (d_classes ex3) /\ d_points ex3 <> [] /\ d_fnames ex3 = iota 1 (d_dim ex3).
Proof. exact c101_ex. Qed.

Example C101_apply_ex : forall p : point Z, p_y (mkPoint (map (Z.mul 2) (p_x p)) (p_y p) (p_id p) (p_alpha p)) = p_y p /\
  length (p_x (mkPoint (map (Z.mul 2) (p_x p)) (p_y p) (p_id p) (p_alpha p))) = length (p_x p).
Proof. exact c101_apply_ex. Qed.

