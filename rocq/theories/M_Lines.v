(** Model of the lines and planes drawn through the data: /repo/subprojects/ufjfmltk-visual/include/ufjfmltk/visual/Visualization.hpp.

    Numbers are reals; what a double makes infinite or NaN is [None]. The coefficients are written into the command with utils::dtoa (C126); its rounding is
    left out. Features are numbered from 0 and not negative. *)
From Coq Require Import List Reals Bool Arith.
From Verif Require Import Base.
Import ListNotations.
Local Open Scope R_scope.

(** The part of a Solution that is used (/repo/subprojects/ufjfmltk-core/include/ufjfmltk/core/Solution.hpp:17, 23, 27, 29). *)
Record solution := mkSol { s_w : list R; s_bias : R; s_margin : R; s_norm : option R }.

(** s.w[x]: Point::operator[] asserts the index (/repo/subprojects/ufjfmltk-core/include/ufjfmltk/core/Point.hpp:252-255). *)
Definition weight (s : solution) (x : nat) : outcome R := match nth_error (s_w s) x with Some a => Ok a | None => Abort end.
(** Division of doubles (Visualization.hpp:676-682, 826-828). *)
Definition divide (a b : R) : option R := if Req_EM_T b 0 then None else Some (a / b).
(** s.bias + c * s.margin * s.norm, over -w (Visualization.hpp:676-682, 826-828). *)
Definition offset (b : option R) (wy : R) : option R := match b with Some b => divide b (- wy) | None => None end.
(** s.margin*s.norm added to the bias with sign [c] (Visualization.hpp:681-682, 826, 828). *)
Definition shifted (s : solution) (c : R) (norm : option R) : option R := match norm with Some n => Some (s_bias s + c * (s_margin s * n)) | None => None end.

(** A line a*x + b (Visualization.hpp:676). *)
Record line2 := mkLine { slope : option R; intercept : option R }.
(** plot2DwithHyperplane: f, and g and h when there is a margin. Visualization.hpp:664, 675-686. *)
Definition lines2 (s : solution) (x y : nat) : outcome (line2 * option (line2 * line2)) :=
  let norm := match s_norm s with Some n => Some n | None => Some 0 end in
  let* wx := weight s x in
  let* wy := weight s y in
  let m := divide (- wx) wy in
  let f := mkLine m (offset (Some (s_bias s)) wy) in
  if Req_EM_T (s_margin s) 0 then Ok (f, None)
  else Ok (f, Some (mkLine m (offset (shifted s 1 norm) wy), mkLine m (offset (shifted s (-1) norm) wy))).

(** A plane a*x + b*y + c (Visualization.hpp:826-828). *)
Record plane := mkPlane { slope_x : option R; slope_y : option R; height : option R }.
(** plot3DwithHyperplane: f, g and h. Visualization.hpp:826-829. *)
Definition planes3 (s : solution) (x y z : nat) : outcome (plane * plane * plane) :=
  let* wx := weight s x in
  let* wy := weight s y in
  let* wz := weight s z in
  let p o := mkPlane (divide (- wx) wz) (divide (- wy) wz) (offset o wz) in
  Ok (p (Some (s_bias s)), p (shifted s 1 (s_norm s)), p (shifted s (-1) (s_norm s))).

(** plot1DRegresionHyperplane: f(x) = w*x + b. Visualization.hpp:583. *)
Definition fit1 (s : solution) (x : nat) : outcome line2 := let* wx := weight s x in Ok (mkLine (Some wx) (Some (s_bias s))).
(** plot2DRegresionHyperplane: f(x,y). Visualization.hpp:739. *)
Definition fit2 (s : solution) (x y : nat) : outcome plane := let* wx := weight s x in let* wy := weight s y in Ok (mkPlane (Some wx) (Some wy) (Some (s_bias s))).

(** Fields of a row of the regression file: the features, then the value (Visualization.hpp:423-428); "using a:b" counts from 1. *)
Definition fields {A} (p : list A * A) : list A := fst p ++ [snd p].
(** The columns of plot1DRegresion (Visualization.hpp:548), plot1DRegresionHyperplane (573) and the two plot2DRegresion (705, 729). *)
Definition columns1 (x : nat) : list nat := [x + 1; 2]%nat.
Definition columns1h (dim x : nat) : list nat := [x + 1; dim + 1]%nat.
Definition columns2 (dim x y : nat) : list nat := [x + 1; y + 1; dim + 1]%nat.
(** What gnuplot reads from a row: nothing when a column is missing (Visualization.hpp:560, 562). *)
Definition shown {A} (cols : list nat) (p : list A * A) : list (option A) := map (fun c => nth_error (fields p) (c - 1)) cols.
