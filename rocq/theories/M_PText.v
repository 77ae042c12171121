(** Model of printing, selecting, comparing and erasing coordinates of a point, and of printing a dataset.
    /repo/subprojects/ufjfmltk-core/include/ufjfmltk/core/Point.hpp:217-236, 690-721, /repo/subprojects/ufjfmltk-core/include/ufjfmltk/core/Data.hpp:536-543.

    The texts a stream writes for a coordinate, a label and an id are parameters; labels are integers as in M_Data, and [low] is -DBL_MAX. The conversion of
    the size to int (Point.hpp:692) is left out. *)
From Coq Require Import Ascii String ZArith List Bool Arith.
From Verif Require Import Base Loop M_Str M_Data.
Import ListNotations.
Local Open Scope nat_scope.

Section Print.
Context {T : Type} (low : Z) (sx : T -> str) (sy sid : Z -> str).
(** Point.hpp:690-709: operator<<; the last coordinate is written after the loop, with the index the loop ended at. *)
Definition print_point (p : point T) : outcome str :=
  let x := p_x p in
  let head := if Z.ltb 0 (p_id p) then sid (p_id p) ++ list_ascii_of_string ":[" else list_ascii_of_string "[" in
  let* body := ofold (fun out i => let* v := vget x i in Ok (out ++ sx v ++ list_ascii_of_string ", ")) (seq 0 (List.length x - 1)) head in
  let* last := vget x (List.length x - 1) in
  Ok (if Z.ltb low (p_y p) then body ++ sx last ++ list_ascii_of_string ", " ++ sy (p_y p) ++ list_ascii_of_string "]"
      else body ++ sx last ++ list_ascii_of_string "]").
(** Data.hpp:536-543: one line per point. *)
Definition print_data (d : data T) : outcome str :=
  ofold (fun out p => let* t := print_point p in Ok (out ++ t ++ [ascii_of_nat 10])) (d_points d) [].
End Print.

(** Point.hpp:217-231: selectFeatures; the positions are sorted first. *)
Definition pt_select {T : Type} (p : point T) (feats : list nat) : outcome (point T) :=
  let fs := isort Nat.leb feats in
  let* xs := map_outcome (fun f => if Nat.ltb f (List.length (p_x p)) then vget (p_x p) f else Abort) fs in
  Ok (mkPoint xs (p_y p) (p_id p) (p_alpha p)).

(** Point.hpp:711-721: operator== and operator!=; [eqT] compares coordinates. *)
Fixpoint eq_list {T : Type} (eqT : T -> T -> bool) (a b : list T) : bool :=
  match a, b with [], [] => true | x :: a', y :: b' => eqT x y && eq_list eqT a' b' | _, _ => false end.
(** Point.hpp:712-715. *)
Definition pt_eq {T : Type} (eqT : T -> T -> bool) (p q : point T) : bool := eq_list eqT (p_x p) (p_x q).
(** Point.hpp:718-721: the arguments change places. *)
Definition pt_ne {T : Type} (eqT : T -> T -> bool) (p q : point T) : bool := negb (pt_eq eqT q p).

(** Point.hpp:233-236: erase(b, e) with iterators at the positions b and e. *)
Definition pt_erase {T : Type} (p : point T) (b e : nat) : outcome (point T) :=
  if Nat.leb b e && Nat.leb e (List.length (p_x p)) then Ok (mkPoint (firstn b (p_x p) ++ skipn e (p_x p)) (p_y p) (p_id p) (p_alpha p)) else UB.
