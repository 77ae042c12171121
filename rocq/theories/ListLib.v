(** Generic lemmas on the helpers of Base.v and on lists. No modelling here. *)
From Coq Require Import Decimal DecimalString DecimalZ DecimalFacts.
From Coq Require Import ZArith Bool String Lia Permutation Sorted List.
From Verif Require Import Base.
Import ListNotations.

Lemma vget_Ok {A} (l : list A) i a : vget l i = Ok a <-> nth_error l i = Some a.
Proof. unfold vget. destruct (nth_error l i); split; intro H; congruence. Qed.

Lemma vget_lt {A} (l : list A) i : (i < length l)%nat -> exists a, nth_error l i = Some a /\ vget l i = Ok a.
Proof.
  intro H. destruct (nth_error l i) as [a|] eqn:E.
  - exists a. unfold vget. rewrite E. auto.
  - apply nth_error_None in E. lia.
Qed.

Lemma obind_Ok {A B} (m : outcome A) (f : A -> outcome B) b :
  obind m f = Ok b -> exists a, m = Ok a /\ f a = Ok b.
Proof. destruct m; simpl; intro H; try discriminate. eauto. Qed.

Lemma upd_length {A} i (f : A -> A) l r : upd i f l = Some r -> length r = length l.
Proof.
  revert i r. induction l as [|x l IH]; intros [|i] r H; simpl in *; try discriminate.
  - injection H as <-. reflexivity.
  - destruct (upd i f l) eqn:E; try discriminate. injection H as <-. simpl. f_equal. eauto.
Qed.

Lemma upd_lt {A} i (f : A -> A) l : (i < length l)%nat -> exists r, upd i f l = Some r.
Proof.
  revert i. induction l as [|x l IH]; intros [|i] H; simpl in *; try lia.
  - eauto.
  - destruct (IH i) as [r Hr]; [lia|]. rewrite Hr. eauto.
Qed.

Lemma upd_Some_lt {A} i (f : A -> A) l r : upd i f l = Some r -> (i < length l)%nat.
Proof.
  revert i r. induction l as [|x l IH]; intros [|i] r H; simpl in *; try discriminate; try lia.
  destruct (upd i f l) eqn:E; try discriminate. apply IH in E. lia.
Qed.

Lemma upd_nth_same {A} i (f : A -> A) l r : upd i f l = Some r -> nth_error r i = option_map f (nth_error l i).
Proof.
  revert i r. induction l as [|x l IH]; intros [|i] r H; simpl in *; try discriminate.
  - injection H as <-. reflexivity.
  - destruct (upd i f l) eqn:E; try discriminate. injection H as <-. simpl. eauto.
Qed.

Lemma upd_nth_other {A} i j (f : A -> A) l r : upd i f l = Some r -> i <> j -> nth_error r j = nth_error l j.
Proof.
  revert i j r. induction l as [|x l IH]; intros [|i] [|j] r H N; simpl in *; try discriminate; try congruence.
  - injection H as <-. reflexivity.
  - destruct (upd i f l) eqn:E; try discriminate. injection H as <-. reflexivity.
  - destruct (upd i f l) eqn:E; try discriminate. injection H as <-. simpl. eapply IH; eauto.
Qed.

Lemma upd_split {A} i (f : A -> A) l r :
  upd i f l = Some r -> exists a x b, l = a ++ x :: b /\ r = a ++ f x :: b /\ length a = i.
Proof.
  revert i r. induction l as [|x l IH]; intros [|i] r H; simpl in *; try discriminate.
  - injection H as <-. exists [], x, l. auto.
  - destruct (upd i f l) eqn:E; try discriminate. injection H as <-.
    destruct (IH _ _ E) as (a & y & b & -> & -> & <-). exists (x :: a), y, b. auto.
Qed.

Lemma vupd_Ok {A} i (f : A -> A) l r : vupd i f l = Ok r <-> upd i f l = Some r.
Proof. unfold vupd. destruct (upd i f l); split; intro H; congruence. Qed.

Lemma vupd_lt {A} i (f : A -> A) l : (i < length l)%nat -> exists r, upd i f l = Some r /\ vupd i f l = Ok r.
Proof. intro H. destruct (upd_lt i f l H) as [r Hr]. exists r. unfold vupd. rewrite Hr. auto. Qed.

Lemma upd_last {A} (f : A -> A) l x : upd (length l) f (l ++ [x]) = Some (l ++ [f x]).
Proof. induction l as [|y l IH]; simpl; [reflexivity|]. rewrite IH. reflexivity. Qed.

Lemma nth_error_last {A} (l : list A) x : nth_error (l ++ [x]) (length l) = Some x.
Proof. rewrite nth_error_app2, Nat.sub_diag by lia. reflexivity. Qed.

(** find_pos *)
Lemma find_pos_le c l : (find_pos c l <= length l)%nat.
Proof. induction l as [|x l IH]; simpl; [lia|]. destruct (Z.eqb x c); lia. Qed.

Lemma find_pos_In c l : In c l <-> (find_pos c l < length l)%nat.
Proof.
  induction l as [|x l IH]; simpl; [split; [tauto|lia]|].
  destruct (Z.eqb_spec x c) as [->|N]; split; intro H; auto; try lia.
  - destruct H as [H|H]; [congruence|]. apply IH in H. lia.
  - right. apply IH. lia.
Qed.

Lemma find_pos_eqb c l : Nat.eqb (find_pos c l) (length l) = false <-> In c l.
Proof.
  rewrite find_pos_In. generalize (find_pos_le c l). rewrite Nat.eqb_neq. lia.
Qed.

Lemma find_pos_eqb_true c l : Nat.eqb (find_pos c l) (length l) = true <-> ~ In c l.
Proof.
  rewrite find_pos_In. generalize (find_pos_le c l). rewrite Nat.eqb_eq. lia.
Qed.

Lemma find_pos_nth c l : In c l -> nth_error l (find_pos c l) = Some c.
Proof.
  induction l as [|x l IH]; simpl; [tauto|].
  destruct (Z.eqb_spec x c) as [->|N]; auto.
  intros [H|H]; [congruence|]. simpl. auto.
Qed.

Lemma find_pos_unique c l i : NoDup l -> nth_error l i = Some c -> find_pos c l = i.
Proof.
  intros ND H.
  assert (In c l) as HI by (eapply nth_error_In; eauto).
  apply NoDup_nth_error with (l := l); auto.
  - apply find_pos_In; auto.
  - rewrite find_pos_nth; auto.
Qed.

(** remove_at *)
Lemma remove_at_split {A} (a : list A) x b : remove_at (length a) (a ++ x :: b) = a ++ b.
Proof.
  unfold remove_at. rewrite firstn_app, Nat.sub_diag, firstn_all, firstn_O, app_nil_r. f_equal.
  replace (a ++ x :: b) with ((a ++ [x]) ++ b) by (rewrite <- app_assoc; reflexivity).
  replace (S (length a)) with (length (a ++ [x])) by (rewrite app_length; simpl; lia).
  rewrite skipn_app, Nat.sub_diag, skipn_all. reflexivity.
Qed.

Lemma nth_error_split' {A} (l : list A) i x : nth_error l i = Some x -> exists a b, l = a ++ x :: b /\ length a = i.
Proof. intro H. destruct (nth_error_split _ _ H) as (a & b & -> & <-). eauto. Qed.

(** isort *)
Section SortLemmas.
  Context {A : Type} (leb : A -> A -> bool).
  Lemma insert_sorted_perm x l : Permutation (insert_sorted leb x l) (x :: l).
  Proof.
    induction l as [|y l IH]; simpl; auto. destruct (leb x y); auto.
    rewrite IH. apply perm_swap.
  Qed.
  Lemma isort_perm l : Permutation (isort leb l) l.
  Proof. induction l as [|x l IH]; simpl; auto. rewrite insert_sorted_perm. auto. Qed.
  Lemma isort_length l : length (isort leb l) = length l.
  Proof. apply Permutation_length, isort_perm. Qed.
  Lemma isort_In x l : In x (isort leb l) <-> In x l.
  Proof. split; apply Permutation_in; [|symmetry]; apply isort_perm. Qed.
  Lemma isort_NoDup l : NoDup (isort leb l) <-> NoDup l.
  Proof. split; apply Permutation_NoDup; [|symmetry]; apply isort_perm. Qed.

  Hypothesis leb_total : forall x y, leb x y = false -> leb y x = true.
  Hypothesis leb_trans : forall x y z, leb x y = true -> leb y z = true -> leb x z = true.
  Lemma insert_sorted_sorted x l :
    StronglySorted (fun a b => leb a b = true) l -> StronglySorted (fun a b => leb a b = true) (insert_sorted leb x l).
  Proof.
    induction 1 as [|y l Hs IH Hy]; simpl; [repeat constructor|].
    destruct (leb x y) eqn:E.
    - constructor; [constructor; auto|]. constructor; auto.
      eapply Forall_impl; [|exact Hy]. intros z Hz. eapply leb_trans; eauto.
    - constructor; auto.
      eapply Permutation_Forall; [symmetry; apply insert_sorted_perm|]. constructor; auto.
  Qed.
  Lemma isort_sorted l : StronglySorted (fun a b => leb a b = true) (isort leb l).
  Proof. induction l as [|x l IH]; simpl; [constructor|]. apply insert_sorted_sorted; auto. Qed.
  (* stability: restricted to a class of pairwise-equivalent elements the order is unchanged *)
  Lemma insert_sorted_filter x l (f : A -> bool) :
    (forall a b, f a = true -> f b = true -> leb a b = true) ->
    filter f (insert_sorted leb x l) = filter f (x :: l).
  Proof.
    intro Hf. induction l as [|y l IH]; simpl; auto.
    destruct (leb x y) eqn:E; simpl; auto.
    rewrite IH. simpl. destruct (f x) eqn:Fx; destruct (f y) eqn:Fy; auto.
    rewrite (Hf x y) in E by auto. discriminate.
  Qed.
  Lemma isort_filter l (f : A -> bool) :
    (forall a b, f a = true -> f b = true -> leb a b = true) -> filter f (isort leb l) = filter f l.
  Proof.
    intro Hf. induction l as [|x l IH]; simpl; auto.
    rewrite insert_sorted_filter by auto. simpl. rewrite IH. reflexivity.
  Qed.
End SortLemmas.

Lemma Zleb_total x y : Z.leb x y = false -> Z.leb y x = true.
Proof. rewrite Z.leb_gt, Z.leb_le. lia. Qed.
Lemma Zleb_trans x y z : Z.leb x y = true -> Z.leb y z = true -> Z.leb x z = true.
Proof. rewrite !Z.leb_le. lia. Qed.

Lemma Zsort_sorted l : StronglySorted Z.le (isort Z.leb l).
Proof.
  generalize (isort_sorted Z.leb Zleb_total Zleb_trans l). generalize (isort Z.leb l).
  induction 1 as [|a l' Hs IH Hf]; constructor; auto.
  eapply Forall_impl; [|exact Hf]. intros b Hb. apply Z.leb_le; auto.
Qed.

Lemma sorted_le_lt l : StronglySorted Z.le l -> NoDup l -> StronglySorted Z.lt l.
Proof.
  induction 1 as [|a l' Hs IH Hf]; intro ND; inversion ND; subst; constructor; auto.
  rewrite Forall_forall in *. intros b Hb. specialize (Hf b Hb).
  assert (a <> b) by (intros ->; auto). lia.
Qed.

Lemma sorted_unique l1 l2 :
  StronglySorted Z.lt l1 -> StronglySorted Z.lt l2 -> (forall x, In x l1 <-> In x l2) -> l1 = l2.
Proof.
  intro H1. revert l2. induction H1 as [|a l1 Hs IH Hf]; intros l2 H2 E.
  - destruct l2 as [|b l2]; auto. exfalso. apply (proj2 (E b)). left; auto.
  - destruct H2 as [|b l2 Hs2 Hf2].
    + exfalso. apply (proj1 (E a)). left; auto.
    + rewrite Forall_forall in Hf, Hf2.
      assert (a = b) as ->.
      { destruct (proj1 (E a) (or_introl eq_refl)) as [->|Ha]; auto.
        destruct (proj2 (E b) (or_introl eq_refl)) as [<-|Hb]; auto.
        specialize (Hf _ Hb). specialize (Hf2 _ Ha). lia. }
      f_equal. apply IH; auto. intro x. split; intro Hx.
      * destruct (proj1 (E x) (or_intror Hx)) as [<-|H]; auto. specialize (Hf _ Hx). lia.
      * destruct (proj2 (E x) (or_intror Hx)) as [<-|H]; auto. specialize (Hf2 _ Hx). lia.
Qed.

(** to_string is injective *)
Lemma Z_to_int_inj a b : Z.to_int a = Z.to_int b -> a = b.
Proof. intro H. rewrite <- (DecimalZ.of_to a), <- (DecimalZ.of_to b). congruence. Qed.

Lemma Pos_to_uint_nonnil p : Pos.to_uint p <> Decimal.Nil.
Proof. apply DecimalPos.Unsigned.to_uint_nonnil. Qed.

Lemma string_of_Z_inj a b : string_of_Z a = string_of_Z b -> a = b.
Proof.
  intro H. apply Z_to_int_inj. unfold string_of_Z in H.
  assert (NilZero.int_of_string (NilZero.string_of_int (Z.to_int a)) = NilZero.int_of_string (NilZero.string_of_int (Z.to_int b))) as E
    by congruence.
  rewrite !NilZero.isi in E; try congruence.
  all: match goal with |- Z.to_int ?z <> _ => destruct z; simpl; try congruence end.
  all: intro X; injection X; apply Pos_to_uint_nonnil.
Qed.

(** filters *)
Lemma filter_length_le' {A} (f : A -> bool) l : (length (filter f l) <= length l)%nat.
Proof. induction l as [|x l IH]; simpl; [lia|]. destruct (f x); simpl; lia. Qed.

Lemma filter_all {A} (f : A -> bool) l : (forall x, In x l -> f x = true) -> filter f l = l.
Proof.
  induction l as [|x l IH]; simpl; auto. intro H. rewrite H by auto. f_equal. auto.
Qed.

Lemma filter_none {A} (f : A -> bool) l : (forall x, In x l -> f x = false) -> filter f l = [].
Proof.
  induction l as [|x l IH]; simpl; auto. intro H. rewrite H by auto. auto.
Qed.

Lemma Permutation_filter {A} (f : A -> bool) l1 l2 : Permutation l1 l2 -> Permutation (filter f l1) (filter f l2).
Proof.
  induction 1; simpl; auto.
  - destruct (f x); auto.
  - destruct (f x); destruct (f y); auto. apply perm_swap.
  - etransitivity; eauto.
Qed.

Lemma nth_error_ext' {A} (l1 l2 : list A) : (forall i, nth_error l1 i = nth_error l2 i) -> l1 = l2.
Proof.
  revert l2. induction l1 as [|x l1 IH]; intros [|y l2] H; auto.
  - specialize (H 0%nat). discriminate.
  - specialize (H 0%nat). discriminate.
  - f_equal; [specialize (H 0%nat); simpl in H; congruence|]. apply IH. intro i. apply (H (S i)).
Qed.

Lemma filter_filter {A} (f g : A -> bool) l : filter f (filter g l) = filter (fun x => f x && g x) l.
Proof.
  induction l as [|x l IH]; simpl; auto.
  destruct (g x); simpl; rewrite ?andb_true_r, ?andb_false_r, IH; reflexivity.
Qed.

Lemma filter_map_comm {A B} (f : B -> bool) (g : A -> B) l : filter f (map g l) = map g (filter (fun x => f (g x)) l).
Proof. induction l as [|x l IH]; simpl; auto. destruct (f (g x)); simpl; rewrite IH; reflexivity. Qed.

Lemma wrap64_id z : (0 <= z < 2 ^ 64)%Z -> wrap64 z = z.
Proof. intro H. unfold wrap64. apply Z.mod_small. auto. Qed.
