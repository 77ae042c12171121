(** String functions: C19 file type, C20 tokenize, C21 trim, C22 integers, C23 numbers. *)
From Coq Require Import ZArith QArith Ascii Bool String List Lia.
From Verif Require Import Base ListLib M_Str S_Str L_Str2 L_Str3.
Import ListNotations.
Local Open Scope nat_scope.

Lemma digs s : forallb isdigit s = true -> Forall dig s.
Proof. rewrite forallb_forall, Forall_forall. intros H c Hc. apply isdigit_dig. auto. Qed.

Lemma known_types t k : known t k -> exists i, nth_error types i = Some t /\ ftype_of i = k.
Proof.
  unfold known. intro H. assert (forall u, string_of_list_ascii t = u -> t = list_ascii_of_string u) as X by (intros u <-; symmetry; apply list_ascii_of_string_of_list_ascii).
  destruct H as [H|[H|[H|[H|[H|[]]]]]]; injection H as E <-; symmetry in E; apply X in E; subst t; [exists 0|exists 1|exists 2|exists 3|exists 4]; split; reflexivity.
Qed.
Lemma types_known t i : nth_error types i = Some t -> exists k, known t k.
Proof.
  intro E. unfold known. do 5 (destruct i as [|i]; [injection E as <-; eexists; cbn; eauto 10|]). destruct i; discriminate.
Qed.
(** C19, the part that holds: after the last dot, the reader is the one of the type name that ends last inside the extension; in
    particular a path whose extension is a type name gets the reader of that type. *)
Lemma c19_type base ext t k a b : ~ In "."%char ext -> known t k -> ext = a ++ t ++ b ->
  (forall u l a' b', known u l -> ext = a' ++ u ++ b' -> List.length b <= List.length b') ->
  identifyFileType (base ++ "."%char :: ext) = Ok k.
Proof.
  intros D E0 Ex M0. destruct (known_types _ _ E0) as (i & E & <-).
  assert (forall j u a' b', nth_error types j = Some u -> ext = a' ++ u ++ b' -> List.length b <= List.length b') as M.
  { intros j u a' b' Ej Q. destruct (types_known _ _ Ej) as (l & Kl). eapply M0; eauto. }
  unfold identifyFileType. rewrite rev_app_distr. cbn [rev]. rewrite <- app_assoc. cbn [app].
  rewrite identify_ok by (intro X; now apply in_rev in X).
  rewrite (scan_some i t (rev b) E (rev ext) (rev a)); [reflexivity| |].
  - now rewrite Ex, !rev_app_distr, app_assoc.
  - intros j u a' b' Ej Eq. rewrite rev_length, <- (rev_length b'). apply (M j u (rev a') (rev b') Ej).
    rewrite <- (rev_involutive ext), Eq, !rev_app_distr, rev_involutive. now rewrite app_assoc.
Qed.
Lemma c19_extension base t k : known t k -> identifyFileType (base ++ "."%char :: t) = Ok k.
Proof.
  intro E. apply (c19_type base t t k [] []); auto; [|now rewrite app_nil_r|intros; cbn; lia].
  destruct (known_types _ _ E) as (i & Ei & _). pose proof types_good as G. unfold good_types in G. rewrite Forall_forall in G. intro X.
  destruct (G t (nth_error_In _ _ Ei)) as [_ N]. apply N. now apply -> in_rev.
Qed.
Lemma c19_extension_ex : known (list_ascii_of_string "csv") TYPE_CSV /\
  identifyFileType (list_ascii_of_string "data.old/iris.csv") = Ok TYPE_CSV.
Proof. split; [right; left; reflexivity|reflexivity]. Qed.
Lemma c19_other base ext : ~ In "."%char ext -> (forall t k a b, known t k -> ext <> a ++ t ++ b) ->
  identifyFileType (base ++ "."%char :: ext) = Ok TYPE_INVALID.
Proof.
  intros D M. unfold identifyFileType. rewrite rev_app_distr. cbn [rev]. rewrite <- app_assoc. cbn [app].
  rewrite identify_ok by (intro X; now apply in_rev in X).
  rewrite scan_none; [reflexivity|]. intros i t a b E Q. destruct (types_known _ _ E) as (k & K). apply (M t k (rev b) (rev a) K).
  rewrite <- (rev_involutive ext), Q, !rev_app_distr, rev_involutive. now rewrite app_assoc.
Qed.
Lemma known_length t k : known t k -> 3 <= List.length t.
Proof.
  intro K. destruct (known_types _ _ K) as (i & E & _). do 5 (destruct i as [|i]; [vm_compute in E; injection E as <-; cbn; lia|]). destruct i; discriminate.
Qed.
Lemma c19_other_ex : identifyFileType (list_ascii_of_string "iris.gz") = Ok TYPE_INVALID /\
  (forall t k a b, known t k -> list_ascii_of_string "gz" <> a ++ t ++ b).
Proof.
  split; [reflexivity|]. intros t k a b E Q. apply (f_equal (@List.length ascii)) in Q. rewrite !app_length in Q. apply known_length in E. cbn in Q. lia.
Qed.
(** C19 in general does not hold: a type name inside the extension is enough, and a name without a dot or type name is read past its start. *)
Lemma c19_inside_refuted : forall base, identifyFileType (base ++ list_ascii_of_string ".csvx") = Ok TYPE_CSV /\
  identifyFileType (base ++ list_ascii_of_string ".metadata2") = Ok TYPE_DATA.
Proof.
  intro base. split.
  - apply (c19_type base (list_ascii_of_string "csvx") (list_ascii_of_string "csv") TYPE_CSV [] ["x"%char]); auto.
    + vm_compute. intuition discriminate.
    + right; left; reflexivity.
    + intros u l a' b' K Q. destruct b' as [|]; [|cbn; lia]. exfalso. rewrite app_nil_r in Q. destruct (known_types _ _ K) as (j & E & _).
      apply (f_equal (@rev ascii)) in Q. rewrite rev_app_distr in Q.
      do 5 (destruct j as [|j]; [vm_compute in E; injection E as <-; cbn in Q; discriminate|]). destruct j; discriminate.
  - apply (c19_type base (list_ascii_of_string "metadata2") (list_ascii_of_string "data") TYPE_DATA (list_ascii_of_string "meta") ["2"%char]); auto.
    + vm_compute. intuition discriminate.
    + left; reflexivity.
    + intros u l a' b' K Q. destruct b' as [|]; [|cbn; lia]. exfalso. rewrite app_nil_r in Q. destruct (known_types _ _ K) as (j & E & _).
      apply (f_equal (@rev ascii)) in Q. rewrite rev_app_distr in Q.
      do 5 (destruct j as [|j]; [vm_compute in E; injection E as <-; cbn in Q; discriminate|]). destruct j; discriminate.
Qed.
Lemma c19_no_dot_refuted file : ~ In "."%char file -> (forall t k a b, known t k -> file <> a ++ t ++ b) ->
  identifyFileType file = UB.
Proof.
  intros D M. unfold identifyFileType. apply identify_nodot; [intro X; now apply in_rev in X|]. apply scan_none.
  intros i t a b E Q. destruct (types_known _ _ E) as (k & K). apply (M t k (rev b) (rev a) K). rewrite <- (rev_involutive file), Q, !rev_app_distr, rev_involutive. now rewrite app_assoc.
Qed.
Lemma c19_no_dot_ex : identifyFileType [] = UB /\ identifyFileType (list_ascii_of_string "iris") = UB.
Proof. split; reflexivity. Qed.

(** C20: tokenize gives the maximal runs free of the separator; they are determined by the string. *)
Lemma c20_tokenize s c : exists l, tokenize s c = Some l /\ runs c s l /\ (forall l', runs c s l' -> l' = l).
Proof.
  destruct (tokenize_ok s c) as (l & E & R). exists l. split; [auto|split; [auto|]]. intros l' R'. symmetry. now apply (runs_unique c s).
Qed.
Lemma c20_again s c l : tokenize s c = Some l ->
  Forall (fun t => t <> [] /\ ~ In c t) l /\ tokenize (join_with c l) c = Some l.
Proof.
  intro E. destruct (tokenize_ok s c) as (l' & E' & R). assert (l' = l) as -> by congruence.
  pose proof (runs_tokens c s l R) as F. split; [exact F|].
  destruct (tokenize_ok (join_with c l) c) as (k & Ek & Rk). rewrite Ek. f_equal. apply (runs_unique c (join_with c l)); auto. now apply runs_join.
Qed.
Lemma c20_ex : tokenize (list_ascii_of_string "//a/b c//d/") "/" = Some (map list_ascii_of_string ["a"; "b c"; "d"]%string).
Proof. reflexivity. Qed.

(** C21. *)
Lemma c21_trim s : (ltrimmed s (ltrim s) /\ forall t, ltrimmed s t -> t = ltrim s) /\
  (rtrimmed s (rtrim s) /\ forall t, rtrimmed s t -> t = rtrim s) /\ (trimmed s (trim s) /\ forall t, trimmed s t -> t = trim s).
Proof.
  split; [|split]; split; [apply ltrim_spec| |apply rtrim_spec| |apply trim_spec|].
  - intros t H. apply (ltrimmed_unique s); auto using ltrim_spec.
  - intros t H. apply (rtrimmed_unique s); auto using rtrim_spec.
  - intros t H. apply (trimmed_unique s); auto using trim_spec.
Qed.
Lemma c21_idempotent s : ltrim (ltrim s) = ltrim s /\ rtrim (rtrim s) = rtrim s /\ trim (trim s) = trim s.
Proof.
  split; [|split].
  - destruct (ltrim_spec s) as (a & _ & _ & F). apply (ltrimmed_unique (ltrim s)); [apply ltrim_spec|]. exists []. auto.
  - destruct (rtrim_spec s) as (a & _ & _ & F). apply (rtrimmed_unique (rtrim s)); [apply rtrim_spec|]. exists []. now rewrite app_nil_r.
  - destruct (trim_spec s) as (a & b & _ & _ & _ & F & G). apply (trimmed_unique (trim s)); [apply trim_spec|]. exists [], []. now rewrite app_nil_r.
Qed.
Lemma c21_ex : trim (list_ascii_of_string "  a b ") = list_ascii_of_string "a b" /\ ltrim (list_ascii_of_string "  ") = [].
Proof. split; reflexivity. Qed.

(** C22, for every int but the smallest: itos gives the decimal numeral of n (there is only one) and stoin reads it back. *)
Lemma c22_itos n : (int_min < n <= int_max)%Z ->
  exists s, itos n = Ok s /\ numeral s n /\ (forall t, numeral t n -> t = s) /\ stoin s = Ok n.
Proof.
  intro H. destruct (itos_ok n H) as (s & E & N). exists s. split; [auto|split; [auto|split]].
  - intros t T. now apply (numeral_inj t s n).
  - apply (stoin_ok s n N). pose proof int_bounds. lia.
Qed.
Lemma c22_stoin s n : numeral s n -> (- int_max <= n <= int_max)%Z -> stoin s = Ok n.
Proof. exact (stoin_ok s n). Qed.
Lemma c22_ex : itos (-2147483647) = Ok (list_ascii_of_string "-2147483647") /\ itos 0 = Ok (list_ascii_of_string "0") /\
  numeral (list_ascii_of_string "-120") (-120) /\ stoin (list_ascii_of_string "-120") = Ok (-120)%Z.
Proof.
  split; [reflexivity|split; [reflexivity|split; [|reflexivity]]].
  change (-120)%Z with (- dec (list_ascii_of_string "120"))%Z. apply (num_neg (list_ascii_of_string "120")).
  - apply digs; reflexivity.
  - exists "1"%char, (list_ascii_of_string "20"). split; [reflexivity|discriminate].
Qed.
(** C22 fails for the smallest int (signed overflow in both functions) and for numerals with a leading zero. *)
Lemma c22_int_min_refuted : itos int_min = UB /\ exists s, numeral s int_min /\ stoin s = UB.
Proof.
  split; [reflexivity|]. exists (list_ascii_of_string "-2147483648"). split; [|reflexivity].
  change int_min with (- dec (list_ascii_of_string "2147483648"))%Z. apply (num_neg (list_ascii_of_string "2147483648")).
  - apply digs; reflexivity.
  - eexists "2"%char, _. split; [reflexivity|discriminate].
Qed.
Lemma c22_leading_zero_refuted s : Forall dig s -> stoin ("0"%char :: s) = Ok 0%Z.
Proof. reflexivity. Qed.
Lemma c22_leading_zero_ex : Forall dig (list_ascii_of_string "10") /\ dec (list_ascii_of_string "010") = 10%Z.
Proof. split; [apply digs; reflexivity|reflexivity]. Qed.

(** C22: a character that is no digit is not detected: it counts as its code, as a signed char, less 48. *)
Lemma c22_letter_refuted : forall c, c <> "0"%char -> c <> "-"%char -> stoin [c] = Ok ((if Nat.ltb (nat_of_ascii c) 128 then Z.of_nat (nat_of_ascii c) else Z.of_nat (nat_of_ascii c) - 256) - 48)%Z.
Proof. intros [[] [] [] [] [] [] [] []] H0 H1; (exfalso; now apply H0) || (exfalso; now apply H1) || reflexivity. Qed.
Lemma c22_letter_refuted_ex : stoin (list_ascii_of_string "a") = Ok 49%Z.
Proof. reflexivity. Qed.

(** C23. *)
Lemma c23_is_number s : is_number s = true <-> s <> [] /\ Forall (fun c => In c (list_ascii_of_string "0123456789.-+e")) s.
Proof. exact (is_number_ok s). Qed.
Lemma c23_is_number_ex : is_number (list_ascii_of_string "-1.5e+3") = true /\ is_number (list_ascii_of_string "1,5") = false.
Proof. split; reflexivity. Qed.
(** White space, a sign, digits, and either a dot and more digits or nothing, then anything that does not continue the numeral. *)
Lemma c23_atod ws sg ds tl ds2 rest : Forall white ws -> is_sign sg -> Forall dig ds -> ds <> [] -> Forall dig ds2 -> ~ starts dig rest ->
  (tl = "."%char :: ds2 \/ (tl = [] /\ ds2 = [] /\ ~ starts (eq "."%char) rest)) ->
  (atod (ws ++ sg ++ ds ++ tl ++ rest) ==
   inject_Z (sign_of sg) * (inject_Z (dec ds) + inject_Z (dec ds2) / inject_Z (10 ^ Z.of_nat (List.length ds2))))%Q.
Proof. exact (atod_ok ws sg ds tl ds2 rest). Qed.
Lemma c23_atod_ex : (atod (list_ascii_of_string " -12.50") == (-25 # 2))%Q.
Proof. reflexivity. Qed.
(** An accepted numeral with an exponent is read without it. *)
Lemma c23_exponent_refuted : is_number (list_ascii_of_string "1e3") = true /\ (atod (list_ascii_of_string "1e3") == 1)%Q.
Proof. split; reflexivity. Qed.
