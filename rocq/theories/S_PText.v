(** Specification vocabulary for the text of a point. *)
From Coq Require Import Ascii String ZArith List Sorting.Sorted Permutation.
From Verif Require Import M_Str M_Data.
Import ListNotations.

(** The texts [fs] with a comma and a space between them. *)
Fixpoint listed (fs : list str) : str :=
  match fs with
  | [] => []
  | [f] => f
  | f :: r => f ++ "," % char :: " " % char :: listed r
  end.
(** What is printed of a point: the coordinates, then the label if it is above [low]. *)
Definition shown {T : Type} (low : Z) (sx : T -> str) (sy : Z -> str) (p : point T) : list str :=
  map sx (p_x p) ++ (if Z.ltb low (p_y p) then [sy (p_y p)] else []).
(** The id as printed: only a positive one, with a colon. *)
Definition id_part {T : Type} (sid : Z -> str) (p : point T) : str := if Z.ltb 0 (p_id p) then sid (p_id p) ++ [":" % char] else [].
(** The character [c] does not occur in [s]. *)
Definition without (c : ascii) (s : str) : Prop := ~ In c s.
(** [fs] lists the positions [feats] in ascending order. *)
Definition ascending (feats fs : list nat) : Prop := Permutation feats fs /\ StronglySorted le fs.
