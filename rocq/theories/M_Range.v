(** Model of the axis ranges of the plots and of the points of the decision surface.
    /repo/subprojects/ufjfmltk-visual/include/ufjfmltk/visual/Visualization.hpp. Doubles are real numbers; mltk::min and mltk::max are the
    ones of M_Point.v, with [tiny] and [huge] the smallest positive and the largest double. *)
From Coq Require Import ZArith Reals List Arith.
From Verif Require Import Base M_Data M_Point M_Eq.
Import ListNotations.
Local Open Scope R_scope.

(** std::round: to the nearest whole number, halves away from zero (Visualization.hpp:1062-1063). *)
Definition rnd (x : R) : R :=
  if Rle_dec 0 x then IZR (Int_part (x + / 2)) else - IZR (Int_part (- x + / 2)).

(** Visualization.hpp:1060-1063 (the same at 1068-1071, 1076-1079, 1091-1094): the ends of an axis. *)
Definition axis (tiny huge scale : R) (v : list R) : outcome (R * R) :=
  let* mn := pmin huge (V v) in
  let* mx := pmax tiny (V v) in
  let mx := scale * mx in
  let mn := mn + (if Rlt_dec 0 mn then (1 - scale) * mn else - (1 - scale) * mn) in
  Ok (rnd mn, rnd mx).

(** Visualization.hpp:1089-1096, with points given: nothing is set without points or when both ends are equal. *)
Definition point_axis (tiny huge scale : R) (v : list R) : outcome (option (R * R)) :=
  match v with
  | [] => Ok None
  | _ => let* r := axis tiny huge scale v in if Req_EM_T (fst r) (snd r) then Ok None else Ok (Some r)
  end.

(** Visualization.hpp:852-878: the points of the grid with what the learner answers there, row by row, and the data the learner is given (lines
    864-865; the scatter plot shows its first two features, 895-898). [learn] is the learner, trained on that data or before; [x] and [y] are
    not negative. [y0], [id0], [alpha0] as in selectFeatures. *)
Definition decision_grid (tiny huge scale : R) (y0 id0 : Z) (alpha0 : R) (learn : data R -> list R -> R) (d : data R) (x y n : nat) :
    outcome (data R * list (R * R * R)) :=
  let* vx := getFeature d (Z.of_nat x) in
  let* vy := getFeature d (Z.of_nat y) in
  let* ax := axis tiny huge scale vx in
  let* ay := axis tiny huge scale vy in
  let xx := linspace (fst ax) (snd ax) n in
  let yy := linspace (fst ay) (snd ay) n in
  let* sel := selectFeatures y0 id0 alpha0 d [Z.of_nat x + 1; Z.of_nat y + 1]%Z None in
  let f := learn sel in
  Ok (sel, flat_map (fun a => map (fun b => (a, b, f [a; b])) yy) xx).
