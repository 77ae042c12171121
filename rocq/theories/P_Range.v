(** Property theorems: C122: the axis ranges of the plots. C123: the decision surface.
    Each is closed by the lemma of the same (lower-case) name in T_Range.v. *)
From Coq Require Import String ZArith Reals Bool List Arith Sorted Lia Lra.
From Verif Require Import Base M_Data S_Data T_Data L_Vec M_Point L_Point T_Point M_Eq T_Eq M_Range S_Range L_Range.
From Verif Require Import T_Range.
Import ListNotations.
Local Open Scope R_scope.

Theorem C122_near (tiny huge scale : R) (v : list R) : v <> [] -> (forall x, In x v -> x < huge) -> 0 < tiny -> 1 <= scale ->
  exists lo hi, axis tiny huge scale v = Ok (lo, hi) /\ whole lo /\ whole hi /\ forall x, In x v -> lo - / 2 <= x <= hi + / 2.
Proof. exact (@c122_near tiny huge scale v). Qed.
Print Assumptions C122_near.

Example C122_near_ex : let v := [0.5; 2.25] in v <> [] /\ (forall x, In x v -> x < 1000) /\ 0 < 0.001 /\ 1 <= 1.
Proof. exact c122_near_ex. Qed.

Theorem C122_whole (tiny huge scale : R) (v : list R) : v <> [] -> (forall x, In x v -> x < huge) -> 0 < tiny < / 2 -> 1 <= scale ->
  (forall x, In x v -> whole x) ->
  exists lo hi, axis tiny huge scale v = Ok (lo, hi) /\ (forall x, In x v -> lo <= x <= hi) /\
  (scale = 1 -> least lo v /\ ((exists x, In x v /\ 0 < x) -> greatest hi v) /\ ((forall x, In x v -> x <= 0) -> hi = 0)).
Proof. exact (@c122_whole tiny huge scale v). Qed.
Print Assumptions C122_whole.

Example C122_whole_ex : let v := [-3; 5; 2] in v <> [] /\ (forall x, In x v -> x < 1000) /\ (forall x, In x v -> whole x) /\ exists x, In x v /\ 0 < x.
Proof. exact c122_whole_ex. Qed.

Theorem C122_cut_refuted (tiny huge : R) (v : list R) (m : R) (k : Z) : (forall x, In x v -> x < huge) ->
  least m v -> (0 <= k)%Z -> IZR k + / 2 <= m < IZR k + 1 ->
  exists hi, axis tiny huge 1 v = Ok (IZR k + 1, hi) /\ m < IZR k + 1.
Proof. exact (@c122_cut_refuted tiny huge v m k). Qed.
Print Assumptions C122_cut_refuted.

Example C122_cut_refuted_ex : least 1.75 [3; 1.75] /\ IZR 1 + / 2 <= 1.75 < IZR 1 + 1.
Proof. exact c122_cut_refuted_ex. Qed.

Theorem C122_small_refuted (tiny huge : R) (v : list R) : v <> [] -> 0 < tiny < / 2 -> / 2 <= huge -> (forall x, In x v -> - / 2 < x < / 2) ->
  axis tiny huge 1 v = Ok (0, 0) /\ point_axis tiny huge 1 v = Ok None.
Proof. exact (@c122_small_refuted tiny huge v). Qed.
Print Assumptions C122_small_refuted.

Example C122_small_refuted_ex : let v := [0.25; -0.125; 0.4] in v <> [] /\ forall x, In x v -> - / 2 < x < / 2.
Proof. exact c122_small_refuted_ex. Qed.

(** Ranges given from points: set exactly when the ends differ. *)
Theorem C122_points (tiny huge scale : R) (v : list R) : v <> [] -> exists lo hi, axis tiny huge scale v = Ok (lo, hi) /\
  (lo <> hi -> point_axis tiny huge scale v = Ok (Some (lo, hi))) /\ (lo = hi -> point_axis tiny huge scale v = Ok None).
Proof. exact (@c122_points tiny huge scale v). Qed.
Print Assumptions C122_points.

Example C122_points_ex : [1] <> [] /\ rnd (lower 1 1) = 1.
Proof. exact c122_points_ex. Qed.

Theorem C123_surface (tiny huge scale : R) (y0 id0 : Z) (alpha0 : R) (learn : data R -> list R -> R) (d : data R) (x y n : nat) :
  data_ok d -> named_by_position d -> (x < y < d_dim d)%nat ->
  exists sel rows lox hix loy hiy,
    decision_grid tiny huge scale y0 id0 alpha0 learn d x y n = Ok (sel, rows) /\
    axis tiny huge scale (map (fun p => nth x (p_x p) 0) (d_points d)) = Ok (lox, hix) /\
    axis tiny huge scale (map (fun p => nth y (p_x p) 0) (d_points d)) = Ok (loy, hiy) /\
    map p_x (d_points sel) = map (fun p => [nth x (p_x p) 0; nth y (p_x p) 0]) (d_points d) /\
    map p_y (d_points sel) = map p_y (d_points d) /\
    length rows = (n * n)%nat /\
    forall i j, (i < n)%nat -> (j < n)%nat -> nth (i * n + j) rows (0, 0, 0) =
      (spaced lox hix n i, spaced loy hiy n j, learn sel [spaced lox hix n i; spaced loy hiy n j]).
Proof. exact (@c123_surface tiny huge scale y0 id0 alpha0 learn d x y n). Qed.
Print Assumptions C123_surface.

Theorem C123_swapped_refuted (tiny huge scale : R) (y0 id0 : Z) (alpha0 : R) (learn : data R -> list R -> R) (d : data R) (x y n : nat) :
  data_ok d -> named_by_position d -> (y < x < d_dim d)%nat ->
  exists sel rows lox hix loy hiy,
    decision_grid tiny huge scale y0 id0 alpha0 learn d x y n = Ok (sel, rows) /\
    axis tiny huge scale (map (fun p => nth x (p_x p) 0) (d_points d)) = Ok (lox, hix) /\
    axis tiny huge scale (map (fun p => nth y (p_x p) 0) (d_points d)) = Ok (loy, hiy) /\
    map p_x (d_points sel) = map (fun p => [nth y (p_x p) 0; nth x (p_x p) 0]) (d_points d) /\
    forall i j, (i < n)%nat -> (j < n)%nat -> nth (i * n + j) rows (0, 0, 0) =
      (spaced lox hix n i, spaced loy hiy n j, learn sel [spaced lox hix n i; spaced loy hiy n j]).
Proof. exact (@c123_swapped_refuted tiny huge scale y0 id0 alpha0 learn d x y n). Qed.
Print Assumptions C123_swapped_refuted.

Theorem C123_missing_refuted (tiny huge scale : R) (y0 id0 : Z) (alpha0 : R) (learn : data R -> list R -> R) (d : data R) (x y n : nat) :
  data_ok d -> (x < d_dim d)%nat -> (y < d_dim d)%nat -> x = y \/ ~ In (Z.of_nat x + 1)%Z (d_fnames d) \/ ~ In (Z.of_nat y + 1)%Z (d_fnames d) ->
  decision_grid tiny huge scale y0 id0 alpha0 learn d x y n = Abort.
Proof. exact (@c123_missing_refuted tiny huge scale y0 id0 alpha0 learn d x y n). Qed.
Print Assumptions C123_missing_refuted.

Example C123_surface_ex : data_ok square /\ named_by_position square /\ (0 < 2 < d_dim square)%nat.
Proof. exact c123_surface_ex. Qed.

Example C123_swapped_refuted_ex : data_ok square /\ named_by_position square /\ (1 < 2 < d_dim square)%nat.
Proof. exact c123_swapped_refuted_ex. Qed.

Example C123_missing_refuted_ex : data_ok tail_square /\ (0 < d_dim tail_square)%nat /\ (1 < d_dim tail_square)%nat /\ ~ In (Z.of_nat 0 + 1)%Z (d_fnames tail_square).
Proof. exact c123_missing_refuted_ex. Qed.

