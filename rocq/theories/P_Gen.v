(** Property theorems: Property lemmas for RSM and the artificial datasets: C62, C64, C89.
    Each is closed by the lemma of the same (lower-case) name in T_Gen.v. *)
From Coq Require Import String ZArith Bool List Reals Lra Lia Permutation Sorted.
From Verif Require Import Base ListLib M_Data S_Data L_Data L_Data2 L_Insert L_Vec Loop L_Smo L_Knn T_Data M_Gen S_Gen.
From Verif Require Import T_Gen.
Import ListNotations.
Local Open Scope nat_scope.

Theorem C62_run : forall r dims perms, (0 <= r <= 1)%R -> (forall p, In p perms -> Permutation p (seq 0 dims)) ->
  exists s outs, rsm_make r dims = Ok s /\ rsm_run perms s = Ok outs /\ length outs = length perms /\
    forall out, In out outs -> NoDup out /\ (forall f, In f out -> f < dims) /\ is_ceil (r * INR dims) (length out).
Proof. exact c62_run. Qed.
Print Assumptions C62_run.

(** C62: every choice of the right size is drawn for some shuffle. *)
Theorem C62_any : forall r dims out, (0 <= r <= 1)%R -> NoDup out -> (forall f, In f out -> f < dims) -> is_ceil (r * INR dims) (length out) ->
  exists s perm, Permutation perm (seq 0 dims) /\ rsm_make r dims = Ok s /\ rsm_run [perm] s = Ok [out].
Proof. exact c62_any. Qed.
Print Assumptions C62_any.

(** C62: with a ratio above 1 the call reads past the end of the features. *)
Theorem C62_ratio_refuted : forall r dims s perm, (1 < r)%R -> 0 < dims -> Permutation perm (seq 0 dims) -> rsm_make r dims = Ok s -> rsm_call perm s = UB.
Proof. exact c62_ratio_refuted. Qed.
Print Assumptions C62_ratio_refuted.

(** C62: what is drawn are positions, not the names of features: 0 is no name. *)
Theorem C62_names_refuted : exists (d : data Z) s out f, data_ok d /\ rsm_make 1 (dim d) = Ok s /\ rsm_run [seq 0 (dim d)] s = Ok [out] /\ In f out /\ ~ In (Z.of_nat f) (d_fnames d).
Proof. exact c62_names_refuted. Qed.
Print Assumptions C62_names_refuted.

Example C62_run_ex : (0 <= / 2 <= 1)%R /\ (forall p, In p [[2; 0; 1]; [1; 2; 0]] -> Permutation p (seq 0 3)) /\ is_ceil (/ 2 * INR 3) 2 /\ (1 < 2)%R.
Proof. exact c62_run_ex. Qed.

(** C64: make_spirals gives n_classes * floor(n / n_classes) points, floor(n / n_classes) for each class, on the spirals when there is no noise. *)
Theorem C64_spirals : forall u v w n k perm noise loops margin, 0 < k -> (Z.of_nat n < 2 ^ 63)%Z -> perm_ok perm (k * (n / k)) ->
  exists d, make_spirals u v w n k perm noise loops margin = Ok d /\ data_ok d /\ length (d_points d) = k * (n / k) /\ fresh_numbers d /\
    (forall i y, class_label k i y -> with_label d y = n / k) /\ (forall p, In p (d_points d) -> exists i, class_label k i (p_y p)) /\
    (k <= n -> length (d_classes d) = k) /\
    (noise = 0%R -> forall p, In p (d_points d) -> exists i phi, class_label k i (p_y p) /\ p_x p = [phi * margin * INR k * cos (phi + INR i * 2 * PI / INR k); phi * margin * INR k * sin (phi + INR i * 2 * PI / INR k)]%R).
Proof. exact c64_spirals. Qed.
Print Assumptions C64_spirals.

(** C64: make_blobs with a list of sizes gives, for every center, the SUM of the sizes. *)
Theorem C64_blobs : forall nrm t0 ns centers stds m perm, 0 < m -> (forall c, In c centers -> m <= length c) -> length centers <= length stds ->
  (Z.of_nat (length centers * list_sum ns) < 2 ^ 63)%Z -> perm_ok perm (length centers * list_sum ns) ->
  exists d, make_blobs nrm t0 ns centers stds m perm true = Ok d /\ data_ok d /\ length (d_points d) = length centers * list_sum ns /\ fresh_numbers d /\
    (forall i y, class_label (length centers) i y -> with_label d y = list_sum ns) /\
    (forall p, In p (d_points d) -> exists i, class_label (length centers) i (p_y p) /\ from_center nrm centers stds m i (p_x p)) /\ (0 < list_sum ns -> length (d_classes d) = length centers).
Proof. exact c64_blobs. Qed.
Print Assumptions C64_blobs.

(** C64: without classes: the points only, no class recorded. *)
Theorem C64_unlabelled : forall nrm t0 ns centers stds m perm, 0 < m -> (forall c, In c centers -> m <= length c) -> length centers <= length stds ->
  (Z.of_nat (length centers * list_sum ns) < 2 ^ 63)%Z -> perm_ok perm (length centers * list_sum ns) ->
  exists d, make_blobs nrm t0 ns centers stds m perm false = Ok d /\ length (d_points d) = length centers * list_sum ns /\ fresh_numbers d /\ d_classes d = [] /\ d_class d = false /\
    forall p, In p (d_points d) -> exists i, from_center nrm centers stds m i (p_x p).
Proof. exact c64_unlabelled. Qed.
Print Assumptions C64_unlabelled.

(** C64: make_blobs(n, n_centers) gives n_centers^2 * floor(n / n_centers) points: n_centers times as many as asked for when n_centers divides n. *)
Theorem C64_blobs_n : forall uni nrm n k m std perm, 0 < m -> 0 < k -> (Z.of_nat (k * n) < 2 ^ 63)%Z -> perm_ok perm (k * (k * (n / k))) ->
  exists d centers, make_blobs_n uni nrm n k m std perm true = Ok (d, centers) /\ data_ok d /\ length (d_points d) = k * (k * (n / k)) /\ fresh_numbers d /\ length centers = k /\
    (forall i y, class_label k i y -> with_label d y = k * (n / k)) /\ (forall p, In p (d_points d) -> exists i, class_label k i (p_y p) /\ from_center nrm centers (repeat std k) m i (p_x p)) /\ (k <= n -> length (d_classes d) = k).
Proof. exact c64_blobs_n. Qed.
Print Assumptions C64_blobs_n.

(** C64 fails: 100 samples in 2 blobs are 200; 100 samples in 3 spirals are 99; two blobs of 10 and 20 samples are two of 30. *)
Theorem C64_number_refuted : (forall uni nrm m std, 0 < m -> exists d centers, make_blobs_n uni nrm 100 2 m std None true = Ok (d, centers) /\ length (d_points d) = 200) /\
  (forall u v w noise loops margin, exists d, make_spirals u v w 100 3 None noise loops margin = Ok d /\ length (d_points d) = 99) /\
  (forall nrm c1 c2 s1 s2, exists d, make_blobs nrm 0 [10; 20] [[c1]; [c2]] [s1; s2] 1 None true = Ok d /\ with_label d (-1) = 30 /\ with_label d 1 = 30).
Proof. exact c64_number_refuted. Qed.
Print Assumptions C64_number_refuted.

Example C64_spirals_ex : 0 < 3 /\ (Z.of_nat 7 < 2 ^ 63)%Z /\ perm_ok (Some (seq 0 6)) (3 * (7 / 3)) /\ 7 / 3 = 2 /\ class_label 3 1 2 /\ class_label 2 1 1.
Proof. exact c64_spirals_ex. Qed.

Example C64_blobs_ex : (forall c, In c [[1; 2]; [3; 4]]%R -> 2 <= length c) /\ length [[1; 2]; [3; 4]]%R <= length [1; 1]%R /\ perm_ok None (length [[1; 2]; [3; 4]]%R * list_sum [3; 4]) /\ 0 < list_sum [3; 4].
Proof. exact c64_blobs_ex. Qed.

(** C89: with no noise every Y of make_regression is the product with the coefficients plus the bias; the coefficients past n_informative are 0; n points of n_dims values. *)
Theorem C89_regression : forall x0 noise_of n m bias noise inf perm, perm_ok perm n ->
  exists rows coef, make_regression x0 noise_of n m bias noise inf perm = Ok (rows, coef) /\ length rows = n /\ length coef = m /\ (forall j, inf <= j -> nth j coef 0%R = 0%R) /\
    (forall x y, In (x, y) rows -> length x = m /\ exists e, y = (sumn m (fun j => nth j x 0 * nth j coef 0) + bias + e)%R /\ ((noise <= 0)%R -> e = 0%R)).
Proof. exact c89_regression. Qed.
Print Assumptions C89_regression.

Example C89_regression_ex : perm_ok (Some [1; 0; 2]) 3 /\ (0 <= 0)%R.
Proof. exact c89_regression_ex. Qed.

