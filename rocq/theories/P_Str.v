(** Property theorems: String functions: C19 file type, C20 tokenize, C21 trim, C22 integers, C23 numbers.
    Each is closed by the lemma of the same (lower-case) name in T_Str.v. *)
From Coq Require Import ZArith QArith Ascii Bool String List Lia.
From Verif Require Import Base ListLib M_Str S_Str L_Str2 L_Str3.
From Verif Require Import T_Str.
Import ListNotations.
Local Open Scope nat_scope.

(** C19, the part that holds: after the last dot, the reader is the one of the type name that ends last inside the extension; in
    particular a path whose extension is a type name gets the reader of that type. *)
Theorem C19_type base ext t k a b : ~ In "."%char ext -> known t k -> ext = a ++ t ++ b ->
  (forall u l a' b', known u l -> ext = a' ++ u ++ b' -> List.length b <= List.length b') ->
  identifyFileType (base ++ "."%char :: ext) = Ok k.
Proof. exact (@c19_type base ext t k a b). Qed.
Print Assumptions C19_type.

Theorem C19_extension base t k : known t k -> identifyFileType (base ++ "."%char :: t) = Ok k.
Proof. exact (@c19_extension base t k). Qed.
Print Assumptions C19_extension.

Example C19_extension_ex : known (list_ascii_of_string "csv") TYPE_CSV /\
  identifyFileType (list_ascii_of_string "data.old/iris.csv") = Ok TYPE_CSV.
Proof. exact c19_extension_ex. Qed.

Theorem C19_other base ext : ~ In "."%char ext -> (forall t k a b, known t k -> ext <> a ++ t ++ b) ->
  identifyFileType (base ++ "."%char :: ext) = Ok TYPE_INVALID.
Proof. exact (@c19_other base ext). Qed.
Print Assumptions C19_other.

Example C19_other_ex : identifyFileType (list_ascii_of_string "iris.gz") = Ok TYPE_INVALID /\
  (forall t k a b, known t k -> list_ascii_of_string "gz" <> a ++ t ++ b).
Proof. exact c19_other_ex. Qed.

(** C19 in general does not hold: a type name inside the extension is enough, and a name without a dot or type name is read past its start. *)
Theorem C19_inside_refuted : forall base, identifyFileType (base ++ list_ascii_of_string ".csvx") = Ok TYPE_CSV /\
  identifyFileType (base ++ list_ascii_of_string ".metadata2") = Ok TYPE_DATA.
Proof. exact c19_inside_refuted. Qed.
Print Assumptions C19_inside_refuted.

Theorem C19_no_dot_refuted file : ~ In "."%char file -> (forall t k a b, known t k -> file <> a ++ t ++ b) ->
  identifyFileType file = UB.
Proof. exact (@c19_no_dot_refuted file). Qed.
Print Assumptions C19_no_dot_refuted.

Example C19_no_dot_ex : identifyFileType [] = UB /\ identifyFileType (list_ascii_of_string "iris") = UB.
Proof. exact c19_no_dot_ex. Qed.

(** C20: tokenize gives the maximal runs free of the separator; they are determined by the string. *)
Theorem C20_tokenize s c : exists l, tokenize s c = Some l /\ runs c s l /\ (forall l', runs c s l' -> l' = l).
Proof. exact (@c20_tokenize s c). Qed.
Print Assumptions C20_tokenize.

Theorem C20_again s c l : tokenize s c = Some l ->
  Forall (fun t => t <> [] /\ ~ In c t) l /\ tokenize (join_with c l) c = Some l.
Proof. exact (@c20_again s c l). Qed.
Print Assumptions C20_again.

Example C20_ex : tokenize (list_ascii_of_string "//a/b c//d/") "/" = Some (map list_ascii_of_string ["a"; "b c"; "d"]%string).
Proof. exact c20_ex. Qed.

(** C21. *)
Theorem C21_trim s : (ltrimmed s (ltrim s) /\ forall t, ltrimmed s t -> t = ltrim s) /\
  (rtrimmed s (rtrim s) /\ forall t, rtrimmed s t -> t = rtrim s) /\ (trimmed s (trim s) /\ forall t, trimmed s t -> t = trim s).
Proof. exact (@c21_trim s). Qed.
Print Assumptions C21_trim.

Theorem C21_idempotent s : ltrim (ltrim s) = ltrim s /\ rtrim (rtrim s) = rtrim s /\ trim (trim s) = trim s.
Proof. exact (@c21_idempotent s). Qed.
Print Assumptions C21_idempotent.

Example C21_ex : trim (list_ascii_of_string "  a b ") = list_ascii_of_string "a b" /\ ltrim (list_ascii_of_string "  ") = [].
Proof. exact c21_ex. Qed.

(** C22, for every int but the smallest: itos gives the decimal numeral of n (there is only one) and stoin reads it back. *)
Theorem C22_itos n : (int_min < n <= int_max)%Z ->
  exists s, itos n = Ok s /\ numeral s n /\ (forall t, numeral t n -> t = s) /\ stoin s = Ok n.
Proof. exact (@c22_itos n). Qed.
Print Assumptions C22_itos.

Theorem C22_stoin s n : numeral s n -> (- int_max <= n <= int_max)%Z -> stoin s = Ok n.
Proof. exact (@c22_stoin s n). Qed.
Print Assumptions C22_stoin.

Example C22_ex : itos (-2147483647) = Ok (list_ascii_of_string "-2147483647") /\ itos 0 = Ok (list_ascii_of_string "0") /\
  numeral (list_ascii_of_string "-120") (-120) /\ stoin (list_ascii_of_string "-120") = Ok (-120)%Z.
Proof. exact c22_ex. Qed.

(** C22 fails for the smallest int (signed overflow in both functions) and for numerals with a leading zero. *)
Theorem C22_int_min_refuted : itos int_min = UB /\ exists s, numeral s int_min /\ stoin s = UB.
Proof. exact c22_int_min_refuted. Qed.
Print Assumptions C22_int_min_refuted.

Theorem C22_leading_zero_refuted s : Forall dig s -> stoin ("0"%char :: s) = Ok 0%Z.
Proof. exact (@c22_leading_zero_refuted s). Qed.
Print Assumptions C22_leading_zero_refuted.

Example C22_leading_zero_ex : Forall dig (list_ascii_of_string "10") /\ dec (list_ascii_of_string "010") = 10%Z.
Proof. exact c22_leading_zero_ex. Qed.

(** C22: a character that is no digit is not detected: it counts as its code, as a signed char, less 48. *)
Theorem C22_letter_refuted : forall c, c <> "0"%char -> c <> "-"%char -> stoin [c] = Ok ((if Nat.ltb (nat_of_ascii c) 128 then Z.of_nat (nat_of_ascii c) else Z.of_nat (nat_of_ascii c) - 256) - 48)%Z.
Proof. exact c22_letter_refuted. Qed.
Print Assumptions C22_letter_refuted.

Example C22_letter_refuted_ex : stoin (list_ascii_of_string "a") = Ok 49%Z.
Proof. exact c22_letter_refuted_ex. Qed.

(** C23. *)
Theorem C23_is_number s : is_number s = true <-> s <> [] /\ Forall (fun c => In c (list_ascii_of_string "0123456789.-+e")) s.
Proof. exact (@c23_is_number s). Qed.
Print Assumptions C23_is_number.

Example C23_is_number_ex : is_number (list_ascii_of_string "-1.5e+3") = true /\ is_number (list_ascii_of_string "1,5") = false.
Proof. exact c23_is_number_ex. Qed.

(** White space, a sign, digits, and either a dot and more digits or nothing, then anything that does not continue the numeral. *)
Theorem C23_atod ws sg ds tl ds2 rest : Forall white ws -> is_sign sg -> Forall dig ds -> ds <> [] -> Forall dig ds2 -> ~ starts dig rest ->
  (tl = "."%char :: ds2 \/ (tl = [] /\ ds2 = [] /\ ~ starts (eq "."%char) rest)) ->
  (atod (ws ++ sg ++ ds ++ tl ++ rest) ==
   inject_Z (sign_of sg) * (inject_Z (dec ds) + inject_Z (dec ds2) / inject_Z (10 ^ Z.of_nat (List.length ds2))))%Q.
Proof. exact (@c23_atod ws sg ds tl ds2 rest). Qed.
Print Assumptions C23_atod.

Example C23_atod_ex : (atod (list_ascii_of_string " -12.50") == (-25 # 2))%Q.
Proof. exact c23_atod_ex. Qed.

(** An accepted numeral with an exponent is read without it. *)
Theorem C23_exponent_refuted : is_number (list_ascii_of_string "1e3") = true /\ (atod (list_ascii_of_string "1e3") == 1)%Q.
Proof. exact c23_exponent_refuted. Qed.
Print Assumptions C23_exponent_refuted.

