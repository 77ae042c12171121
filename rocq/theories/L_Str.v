(** Lemmas on strings: order, to_string. *)
From Coq Require Import Decimal DecimalString.
From Coq Require Import ZArith NArith Bool Ascii String Lia List.
From Verif Require Import Base ListLib M_Data.
Import ListNotations.

Lemma append_assoc_str (a b c : string) : ((a ++ b) ++ c = a ++ (b ++ c))%string.
Proof. induction a as [|x a IH]; simpl; congruence. Qed.

Lemma list_ascii_app s t : list_ascii_of_string (s ++ t) = list_ascii_of_string s ++ list_ascii_of_string t.
Proof. induction s as [|c s IH]; simpl; congruence. Qed.

Lemma list_ascii_inj s t : list_ascii_of_string s = list_ascii_of_string t -> s = t.
Proof.
  intro H. rewrite <- (string_of_list_ascii_of_string s), <- (string_of_list_ascii_of_string t). congruence.
Qed.

Lemma append_inv_tail s1 s2 t : (s1 ++ t)%string = (s2 ++ t)%string -> s1 = s2.
Proof.
  intro H. apply list_ascii_inj. apply (f_equal list_ascii_of_string) in H. rewrite !list_ascii_app in H.
  eapply app_inv_tail; eauto.
Qed.

(** ** order *)
Lemma Ascii_compare_refl a : Ascii.compare a a = Eq.
Proof. unfold Ascii.compare. apply N.compare_refl. Qed.
Lemma Ascii_compare_eq a b : Ascii.compare a b = Eq -> a = b.
Proof. apply Ascii.compare_eq_iff. Qed.

Lemma String_compare_refl s : String.compare s s = Eq.
Proof. induction s as [|c s IH]; simpl; auto. rewrite Ascii_compare_refl. auto. Qed.

Lemma String_compare_lt_trans a : forall b c, String.compare a b = Lt -> String.compare b c = Lt -> String.compare a c = Lt.
Proof.
  induction a as [|x a IH]; intros [|y b] [|z c] H1 H2; simpl in *; try discriminate; auto.
  destruct (Ascii.compare x y) eqn:E1; destruct (Ascii.compare y z) eqn:E2; try discriminate.
  - apply Ascii_compare_eq in E1. apply Ascii_compare_eq in E2. subst. rewrite Ascii_compare_refl. eauto.
  - apply Ascii_compare_eq in E1. subst. rewrite E2. auto.
  - apply Ascii_compare_eq in E2. subst. rewrite E1. auto.
  - unfold Ascii.compare in *. rewrite N.compare_lt_iff in E1, E2.
    assert (N.compare (N_of_ascii x) (N_of_ascii z) = Lt) as -> by (apply N.compare_lt_iff; eapply N.lt_trans; eauto). auto.
Qed.

Lemma String_leb_iff a b : String.leb a b = true <-> (String.compare a b = Lt \/ a = b).
Proof.
  unfold String.leb. destruct (String.compare a b) eqn:E; split; intro H; auto; try discriminate.
  - right. apply String.compare_eq_iff. auto.
  - destruct H as [H| ->]; [discriminate|]. rewrite String_compare_refl in E. discriminate.
Qed.

Lemma String_leb_total a b : String.leb a b = false -> String.leb b a = true.
Proof.
  unfold String.leb. rewrite (String.compare_antisym a b). destruct (String.compare b a); simpl; auto; discriminate.
Qed.

Lemma String_leb_trans a b c : String.leb a b = true -> String.leb b c = true -> String.leb a c = true.
Proof.
  rewrite !String_leb_iff. intros [H1| ->] [H2| ->]; auto. left. eapply String_compare_lt_trans; eauto.
Qed.

Lemma String_leb_antisym a b : String.leb a b = true -> String.leb b a = true -> a = b.
Proof.
  rewrite !String_leb_iff. intros [H1|]; auto. intros [H2|]; auto.
  pose proof (String_compare_lt_trans _ _ _ H1 H2) as X. rewrite String_compare_refl in X. discriminate.
Qed.

(** ** to_string(double) of an integral label never equals to_string(int) *)
Fixpoint has_dot (s : string) : bool :=
  match s with EmptyString => false | String c r => Ascii.eqb c "." || has_dot r end.

Lemma has_dot_app s t : has_dot (s ++ t) = has_dot s || has_dot t.
Proof. induction s as [|c s IH]; simpl; auto. rewrite IH, orb_assoc. auto. Qed.

Lemma has_dot_uint u : has_dot (NilEmpty.string_of_uint u) = false.
Proof. induction u; simpl; auto. Qed.

Lemma has_dot_Z z : has_dot (string_of_Z z) = false.
Proof.
  unfold string_of_Z. destruct (Z.to_int z) as [u|u]; simpl; unfold NilZero.string_of_uint.
  - destruct u; auto; apply has_dot_uint.
  - destruct u; auto; simpl; apply has_dot_uint.
Qed.

Lemma string_of_label_inj a b : string_of_label a = string_of_label b -> a = b.
Proof. intro H. apply append_inv_tail in H. apply string_of_Z_inj. auto. Qed.

Lemma string_of_label_not_Z a b : string_of_label a <> string_of_Z b.
Proof.
  intro H. apply (f_equal has_dot) in H. unfold string_of_label in H. rewrite has_dot_app, !has_dot_Z in H. discriminate.
Qed.

Lemma map_lookup_label y cls n : map_lookup (string_of_label y) (combine (map string_of_Z cls) (seq n (length cls))) = O.
Proof.
  revert n. induction cls as [|c cls IH]; intro n; simpl; auto.
  destruct (String.eqb_spec (string_of_label y) (string_of_Z c)) as [e|]; auto.
  exfalso. eapply string_of_label_not_Z; eauto.
Qed.
