(** Specification for the plot files and titles. *)
From Coq Require Import ZArith Ascii Bool String List Arith Permutation Sorted.
From Verif Require Import Base M_Str M_Plot.
Import ListNotations.
Local Open Scope nat_scope.

(** Points with their labels; points with their values. *)
Notation labelled A := (list (list A * Z)).
Notation valued A := (list (list A * A)).

(** The coordinates separated by one space, then the end of the line. *)
Fixpoint words (l : list str) : str := match l with [] => [] | [t] => t | t :: r => t ++ " "%char :: words r end.
Definition line (l : list str) : str := match l with [] => [] | _ => words l ++ [ascii_of_nat 10] end.
(** The lines of the points of class [c], in the order of the dataset. *)
Definition class_text {A} (show : A -> str) (pts : list (list A * Z)) (c : Z) : str :=
  concat (map (fun p => line (map show (fst p))) (filter (fun p => Z.eqb (snd p) c) pts)).

Definition slashfree (n : str) : Prop := ~ In "/"%char n.
(** A dataset as the plots expect it: every class has one name of its own, and every point a known class. *)
Definition plottable {A} (names : list str) (classes : list Z) (pts : list (list A * Z)) : Prop :=
  NoDup names /\ NoDup classes /\ List.length names = List.length classes /\ (forall p, In p pts -> In (snd p) classes).

(** The folder of the object: "plottemp<N>/". *)
Definition plot_path (path : str) : Prop :=
  exists b, path = b ++ ["/"%char] /\ b <> [] /\ ~ In "/"%char b /\ ~ In "."%char b /\ ~ In "_"%char b.

(** The classes in the order of their labels. *)
Definition label_order (classes : list Z) (ks : list nat) : Prop :=
  Permutation ks (seq 0 (List.length classes)) /\
  StronglySorted (fun i j => (nth i classes 0 < nth j classes 0)%Z) ks.

(** What readdir gives: the files and the two folders, in any order. *)
Definition listing (d : folder) (ls : list str) : Prop :=
  Permutation ls (map list_ascii_of_string ["."; ".."]%string ++ map fst d).

(** The file of a class in a decision plot, and the lines in it: two coordinates and the label. *)
Definition dec_file (ts n : str) : str := n ++ list_ascii_of_string "_data" ++ ts ++ list_ascii_of_string ".dat".
Definition dec_text {A} (show : A -> str) (showy : Z -> str) (pts : list (list A * Z)) (c : Z) : str :=
  concat (map (fun p => line (map show (firstn 2 (fst p)) ++ [showy (snd p)])) (filter (fun p => Z.eqb (snd p) c) pts)).
(** The lines of data without classes: the coordinates and the value. *)
Definition reg_text {A} (show : A -> str) (dim : nat) (pts : list (list A * A)) : str :=
  concat (map (fun p => line (map show (firstn dim (fst p)) ++ [show (snd p)])) pts).
