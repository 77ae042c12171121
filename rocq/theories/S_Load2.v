(** Specification vocabulary for C102-C104: tables of cells. *)
From Coq Require Import ZArith QArith Ascii Bool String List.
From Verif Require Import Base M_Data S_Str M_Str M_Load.
Import ListNotations.

(** A cell of a table whose columns are separated by [c]: some text without separator and white space. *)
Definition cell_ok (c : ascii) (t : list ascii) : Prop := t <> [] /\ ~ In c t /\ Forall (fun x => ~ white x) t.
(** The feature a cell holds: the number it shows (C23), or 0. *)
Definition cell (t : list ascii) : Q := if is_number t then atod t else 0%Q.
(** The text of a table: one line per row. *)
Definition text_of (c : ascii) (rows : list (list (list ascii))) : list ascii := concat (map (fun r => join_with c r ++ [newline]) rows).
(** Every row of the table has [n] cells. *)
Definition table (c : ascii) (n : nat) (rows : list (list (list ascii))) : Prop := Forall (fun r => length r = n /\ Forall (cell_ok c) r) rows.
(** A line of data: the cells of the features and the cell of the class. *)
Definition line_of_data : Type := list (list ascii) * list ascii.
