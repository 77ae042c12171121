(** Specification vocabulary for reading class names and files. *)
From Coq Require Import ZArith QArith Ascii Bool String List.
From Verif Require Import Base M_Data S_Str M_Str M_Load.
Import ListNotations.

(** The labels given, in order, to a sequence of class strings. *)
Fixpoint run_classes (s : cstate) (items : list str) : outcome (list Z * cstate) :=
  match items with
  | [] => Ok ([], s)
  | it :: r =>
      let* (c, s1) := process_class s it in
      let* (l, s2) := run_classes s1 r in
      Ok (c :: l, s2)
  end.
Definition no_classes : cstate := mkCs [] [] [].

(** A class string that is a word: no white space, not made of numeral characters only. *)
Definition word (s : list ascii) : Prop :=
  s <> [] /\ Forall (fun c => ~ white c) s /\ ~ Forall (fun c => In c (list_ascii_of_string "0123456789.-+e")) s.

(** A label other than 1 is not first seen after label -1. *)
Definition minus_one_ok (ys : list Z) : Prop :=
  forall pre y post, ys = pre ++ y :: post -> In (-1)%Z pre -> ~ In y pre -> y = 1%Z.

(** A value that six significant digits without exponent can show: below one million in units of its last digit, and zero or at least 1/10000. *)
Definition short (v : decimal) : Prop :=
  (Z.abs (mant v) < 10 ^ 6)%Z /\ (mant v = 0%Z \/ (10 ^ Z.of_nat (scale v) <= Z.abs (mant v) * 10 ^ 4)%Z).

(** The same labels and feature values in the same order. *)
Definition same_content (p : point decimal) (q : point Q) : Prop :=
  p_y q = p_y p /\ Forall2 (fun v x => x == dec_Q v)%Q (p_x p) (p_x q).

(** A dataset into which nothing was loaded yet. *)
Definition fresh : data Q := mkData [] [] [] [] [] [] 0 0 true false false true.

(** The shape of a line of a .data file: the class, without ':', then items "name:value" where the name is the numeral of an int, separated by single
    blanks; the value may be any text without ':' and white space. *)
Definition data_feature (it : list ascii) : Prop :=
  exists name value f, it = name ++ ":"%char :: value /\ numeral name f /\ (Z.abs f <= int_max)%Z /\ ~ In ":"%char value /\ Forall (fun c => ~ white c) value.
Definition data_shape (l : list ascii) : Prop :=
  exists cls items, l = join_with " " (cls :: items) /\ cls <> [] /\ ~ In ":"%char cls /\ Forall (fun c => ~ white c) cls /\ Forall data_feature items.
