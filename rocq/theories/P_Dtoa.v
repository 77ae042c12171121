(** Property theorems: C126: numbers as text.
    Each is closed by the lemma of the same (lower-case) name in T_Dtoa.v. *)
From Coq Require Import ZArith QArith Qround Qpower Qabs Ascii Bool String List Lia Lqa.
From Verif Require Import Base M_Str S_Str L_Str2 L_Str3 M_Dtoa S_Dtoa L_Dtoa.
From Verif Require Import T_Dtoa.
Import ListNotations.
Local Open Scope Q_scope.

(** C126: a number that is not too large or small is written as a decimal, cut to within 1e-9 towards zero, with a sign if it is negative and no needless zeros in front. *)
Theorem C126_plain : forall q : Q, moderate q -> exists sg ds tl fs, dtoa (Num q) = Ok (sg ++ ds ++ tl) /\ signed q sg /\ decimal ds tl fs /\
  0 <= Qabs q - denotes ds fs /\ Qabs q - denotes ds fs <= 1 # 1000000000 /\ (List.length fs <= 9)%nat /\ ((1 < List.length ds)%nat -> inject_Z (10 ^ Z.of_nat (List.length ds - 1)) <= Qabs q).
Proof. exact c126_plain. Qed.
Print Assumptions C126_plain.

Example C126_plain_ex : moderate (-22 # 7) /\ dtoa (Num (-22 # 7)) = Ok (list_ascii_of_string "-3.142857142").
Proof. exact c126_plain_ex. Qed.

(** C126: beyond, as a decimal with one digit other than 0 before the dot, within 1e-9, and a power of ten; unless it is a power of ten itself and small. *)
Theorem C126_exp : forall q : Q, extreme q -> (forall k, Qabs q == ten k -> 1 <= Qabs q) -> exists sg c tl fs s xs, dtoa (Num q) = Ok (sg ++ c :: tl ++ "e"%char :: s :: xs) /\ signed q sg /\ decimal [c] tl fs /\ c <> "0"%char /\
  Forall dig xs /\ xs <> [] /\ (s = "+"%char \/ s = "-"%char) /\
  let e := ten (if Ascii.eqb s "+" then dec xs else - dec xs) in 0 <= Qabs q - denotes [c] fs * e /\ Qabs q - denotes [c] fs * e <= (1 # 1000000000) * e.
Proof. exact c126_exp. Qed.
Print Assumptions C126_exp.

Example C126_exp_ex : extreme (-10000000000 # 7) /\ dtoa (Num (-10000000000 # 7)) = Ok (list_ascii_of_string "-1.428571428e+9") /\ dtoa (Num (2 # 30000000000)) = Ok (list_ascii_of_string "6.666666666e-11").
Proof. exact c126_exp_ex. Qed.

(** C126: small powers of ten are not written as numbers: 1e-9 becomes ":e-10". *)
Theorem C126_power_refuted : forall (q : Q) (k : Z), (9 <= k <= 400)%Z -> Qabs q == ten (- k) ->
  exists sg xs, dtoa (Num q) = Ok (sg ++ ":"%char :: "e"%char :: "-"%char :: xs) /\ signed q sg /\ Forall dig xs /\ dec xs = (k + 1)%Z /\ is_number (sg ++ ":"%char :: "e"%char :: "-"%char :: xs) = false.
Proof. exact c126_power_refuted. Qed.
Print Assumptions C126_power_refuted.

Example C126_power_refuted_ex : Qabs (1 # 1000000000) == ten (- 9) /\ dtoa (Num (1 # 1000000000)) = Ok (list_ascii_of_string ":e-10").
Proof. exact c126_power_refuted_ex. Qed.

(** C126: nan, inf and 0 are written so; the sign of minus infinity is lost. *)
Theorem C126_special : dtoa NaN = Ok (list_ascii_of_string "nan") /\ dtoa (Inf false) = Ok (list_ascii_of_string "inf") /\ forall q, q == 0 -> dtoa (Num q) = Ok (list_ascii_of_string "0").
Proof. exact c126_special. Qed.
Print Assumptions C126_special.

Theorem C126_inf_refuted : dtoa (Inf true) = dtoa (Inf false).
Proof. exact c126_inf_refuted. Qed.
Print Assumptions C126_inf_refuted.

(** C126: atod reads such a text back to within 1e-9; with an exponent it does not read the number. *)
Theorem C126_read : forall q : Q, moderate q -> exists s, dtoa (Num q) = Ok s /\ Qabs (atod s - q) <= 1 # 1000000000.
Proof. exact c126_read. Qed.
Print Assumptions C126_read.

Theorem C126_read_refuted : forall q : Q, extreme q -> (forall k, Qabs q == ten k -> 1 <= Qabs q) -> exists s, dtoa (Num q) = Ok s /\ 1 <= Qabs (atod s) /\ Qabs (atod s) < 10.
Proof. exact c126_read_refuted. Qed.
Print Assumptions C126_read_refuted.

