(** Specification vocabulary for the string functions. *)
From Coq Require Import ZArith QArith Ascii Bool String List.
From Verif Require Import M_Str.
Import ListNotations.
Local Open Scope nat_scope.

Definition white (c : ascii) : Prop := In c (map ascii_of_nat [9; 10; 11; 12; 13; 32]).
Definition dig (c : ascii) : Prop := In c (list_ascii_of_string "0123456789").
Definition dig_value (c : ascii) : Z := Z.of_nat (nat_of_ascii c) - 48.
(** The natural number a digit string denotes. *)
Definition dec (s : list ascii) : Z := fold_left (fun a c => 10 * a + dig_value c)%Z s 0%Z.
(** Decimal integer numerals without superfluous zeros or sign, and the integer they denote. *)
Definition no_lead0 (s : list ascii) : Prop := exists c r, s = c :: r /\ c <> "0"%char.
Inductive numeral : list ascii -> Z -> Prop :=
| num_zero : numeral ["0"%char] 0
| num_pos s : Forall dig s -> no_lead0 s -> numeral s (dec s)
| num_neg s : Forall dig s -> no_lead0 s -> numeral ("-"%char :: s) (- dec s).

(** [t] is [s] without the white space on the left (l) and on the right (r). *)
Definition not_white_first (s : list ascii) : Prop := match s with [] => True | c :: _ => ~ white c end.
Definition ltrimmed (s t : list ascii) : Prop := exists a, s = a ++ t /\ Forall white a /\ not_white_first t.
Definition rtrimmed (s t : list ascii) : Prop := exists b, s = t ++ b /\ Forall white b /\ not_white_first (rev t).
Definition trimmed (s t : list ascii) : Prop :=
  exists a b, s = a ++ t ++ b /\ Forall white a /\ Forall white b /\ not_white_first t /\ not_white_first (rev t).

(** The maximal runs of characters other than [c]. *)
Inductive runs (c : ascii) : list ascii -> list (list ascii) -> Prop :=
| runs_end n : runs c (repeat c n) []
| runs_last n t : t <> [] -> ~ In c t -> runs c (repeat c n ++ t) [t]
| runs_cons n t s l : t <> [] -> ~ In c t -> runs c (c :: s) l -> runs c (repeat c n ++ t ++ c :: s) (t :: l).

Fixpoint join_with (c : ascii) (l : list (list ascii)) : list ascii :=
  match l with [] => [] | [t] => t | t :: r => t ++ c :: join_with c r end.

Definition starts (P : ascii -> Prop) (s : list ascii) : Prop := match s with [] => False | c :: _ => P c end.

(** Optional sign. *)
Definition sign_of (sg : list ascii) : Z := match sg with ["-"%char] => (-1)%Z | _ => 1%Z end.
Definition is_sign (sg : list ascii) : Prop := sg = [] \/ sg = ["+"%char] \/ sg = ["-"%char].

(** The file types by name. *)
Definition known (t : list ascii) (k : ftype) : Prop :=
  In (string_of_list_ascii t, k) [("data", TYPE_DATA); ("csv", TYPE_CSV); ("arff", TYPE_ARFF); ("txt", TYPE_TXT); ("plt", TYPE_INVALID)]%string.
