(** Specification of the texts of numbers. *)
From Coq Require Import ZArith QArith Qabs Ascii Bool String List.
From Verif Require Import M_Str S_Str M_Dtoa.
Import ListNotations.
Local Open Scope Q_scope.

(** Digits, and perhaps a dot and more digits [fs]; [tl] is the dot with them. *)
Definition decimal (ds tl fs : str) : Prop := Forall dig ds /\ ds <> [] /\ Forall dig fs /\ (tl = "."%char :: fs \/ tl = [] /\ fs = []).
(** The number it denotes. *)
Definition denotes (ds fs : str) : Q := inject_Z (dec ds) + inject_Z (dec fs) / inject_Z (10 ^ Z.of_nat (List.length fs)).
(** A sign for negative numbers only. *)
Definition signed (q : Q) (sg : str) : Prop := (q < 0 /\ sg = ["-"%char]) \/ (0 <= q /\ sg = []).
(** Numbers written without an exponent. *)
Definition moderate (q : Q) : Prop := 1 # 1000000000 < Qabs q /\ Qabs q < inject_Z (10 ^ 14) /\ (q < 0 -> Qabs q < inject_Z (10 ^ 9)).
(** Numbers beyond, as far as a double goes. *)
Definition extreme (q : Q) : Prop := ten (-400) <= Qabs q /\ Qabs q < ten 400 /\ ~ moderate q.
