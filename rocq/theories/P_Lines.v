(** Property theorems: C124: the lines and planes drawn are those of the solution.
    Each is closed by the lemma of the same (lower-case) name in T_Lines.v. *)
From Coq Require Import List Reals Arith Bool Lia Lra.
From Verif Require Import Base M_Lines S_Lines.
From Verif Require Import T_Lines.
Import ListNotations.
Local Open Scope R_scope.

(** C124: the line f of plot2DwithHyperplane is where the decision function is 0 at points whose other features are 0, and the lines g and h of the margin are
    where it is minus and plus margin*norm (a norm that is not a number counts as 0). *)
Theorem C124_line : forall (s : solution) (x y : nat) (wy : R), x <> y -> (x < length (s_w s))%nat -> nth_error (s_w s) y = Some wy -> wy <> 0 ->
  let d u v := score (s_w s) (sparse (length (s_w s)) [(x, u); (y, v)]) (s_bias s) in
  let n := match s_norm s with Some n => n | None => 0 end in
  exists f gh, lines2 s x y = Ok (f, gh) /\ (forall u v, on_line f u v <-> d u v = 0) /\ (s_margin s = 0 -> gh = None) /\
  (s_margin s <> 0 -> exists g h, gh = Some (g, h) /\ (forall u v, on_line g u v <-> d u v = - (s_margin s * n)) /\ (forall u v, on_line h u v <-> d u v = s_margin s * n)).
Proof. exact c124_line. Qed.
Print Assumptions C124_line.

(** C124: with w_y = 0 (a boundary parallel to the second axis) no line is drawn. *)
Theorem C124_vertical_refuted : forall (s : solution) (x y : nat), (x < length (s_w s))%nat -> nth_error (s_w s) y = Some 0 ->
  exists f gh, lines2 s x y = Ok (f, gh) /\ forall u v, ~ on_line f u v.
Proof. exact c124_vertical_refuted. Qed.
Print Assumptions C124_vertical_refuted.

(** C124: with the same feature on both axes the line is not the boundary: on the diagonal, where all points are, it is at half the place. *)
Theorem C124_same_refuted : forall (s : solution) (x : nat) (wx : R), nth_error (s_w s) x = Some wx -> wx <> 0 ->
  exists f gh, lines2 s x x = Ok (f, gh) /\ forall u, on_line f u u <-> score (s_w s) (sparse (length (s_w s)) [(x, 2 * u)]) (s_bias s) = 0.
Proof. exact c124_same_refuted. Qed.
Print Assumptions C124_same_refuted.

(** C124: the planes of plot3DwithHyperplane, likewise; they are drawn with or without a margin. *)
Theorem C124_plane : forall (s : solution) (x y z : nat) (wz n : R), NoDup [x; y; z] -> (x < length (s_w s))%nat -> (y < length (s_w s))%nat -> nth_error (s_w s) z = Some wz -> wz <> 0 -> s_norm s = Some n ->
  let d u v t := score (s_w s) (sparse (length (s_w s)) [(x, u); (y, v); (z, t)]) (s_bias s) in
  exists f g h, planes3 s x y z = Ok (f, g, h) /\ (forall u v t, on_plane f u v t <-> d u v t = 0) /\
  (forall u v t, on_plane g u v t <-> d u v t = - (s_margin s * n)) /\ (forall u v t, on_plane h u v t <-> d u v t = s_margin s * n).
Proof. exact c124_plane. Qed.
Print Assumptions C124_plane.

(** C124: a norm that is not a number is not handled there: the planes of the margin are missing. *)
Theorem C124_norm_refuted : forall (s : solution) (x y z : nat), (x < length (s_w s))%nat -> (y < length (s_w s))%nat -> (z < length (s_w s))%nat -> s_norm s = None ->
  exists f g h, planes3 s x y z = Ok (f, g, h) /\ forall u v t, ~ on_plane g u v t /\ ~ on_plane h u v t.
Proof. exact c124_norm_refuted. Qed.
Print Assumptions C124_norm_refuted.

(** C124: the fitted line of plot1DRegresionHyperplane and the fitted plane of plot2DRegresionHyperplane give the prediction at points whose other features are 0. *)
Theorem C124_fit : forall (s : solution) (x y : nat), (x < length (s_w s))%nat -> (y < length (s_w s))%nat -> x <> y ->
  exists l p, fit1 s x = Ok l /\ fit2 s x y = Ok p /\
  (forall u v, on_line l u v <-> v = score (s_w s) (sparse (length (s_w s)) [(x, u)]) (s_bias s)) /\
  (forall u v t, on_plane p u v t <-> t = score (s_w s) (sparse (length (s_w s)) [(x, u); (y, v)]) (s_bias s)).
Proof. exact c124_fit. Qed.
Print Assumptions C124_fit.

(** C124: with one feature that is the prediction itself, at any point. *)
Theorem C124_fit_one : forall (s : solution) (a u v : R), s_w s = [a] -> exists l, fit1 s 0 = Ok l /\ (on_line l u v <-> v = score (s_w s) [u] (s_bias s)).
Proof. exact c124_fit_one. Qed.
Print Assumptions C124_fit_one.

(** C124: the points of the regression plots with a plane or a line are the features and the value; in plot1DRegresion the height is the second feature as soon as there are two. *)
Theorem C124_points : forall (A : Type) (f : list A) (v : A) (x y : nat), (x < length f)%nat -> (y < length f)%nat ->
  shown (columns1h (length f) x) (f, v) = [nth_error f x; Some v] /\ shown (columns2 (length f) x y) (f, v) = [nth_error f x; nth_error f y; Some v] /\
  (length f = 1%nat -> shown (columns1 x) (f, v) = [nth_error f x; Some v]).
Proof. exact c124_points. Qed.
Print Assumptions C124_points.

Theorem C124_points_refuted : forall (A : Type) (f : list A) (v : A) (x : nat), (x < length f)%nat -> (2 <= length f)%nat -> shown (columns1 x) (f, v) = [nth_error f x; nth_error f 1].
Proof. exact c124_points_refuted. Qed.
Print Assumptions C124_points_refuted.

Example C124_ex : let s := mkSol [1; 2; 4] 3 1 (Some 2) in (0 < length (s_w s))%nat /\ (1 < length (s_w s))%nat /\ nth_error (s_w s) 1 = Some 2 /\ nth_error (s_w s) 2 = Some 4 /\ NoDup [0; 1; 2]%nat /\
  s_margin s <> 0 /\ score (s_w s) (sparse 3 [(0%nat, 1); (1%nat, -2)]) 3 = 0 /\ nth_error (s_w (mkSol [1; 0] 0 0 None)) 1 = Some 0.
Proof. exact c124_ex. Qed.

