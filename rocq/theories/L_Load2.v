(** Lemmas about class names, lines and pieces. *)
From Coq Require Import ZArith QArith Ascii Bool String List Lia.
From Verif Require Import Base ListLib M_Data S_Data L_Join M_Str S_Str L_Str2 L_Str3 M_Load S_Load L_Load.
Import ListNotations.
Local Open Scope nat_scope.

Lemma numeral_shape s n : numeral s n -> exists neg ds, s = (if neg : bool then ["-"%char] else []) ++ ds /\ ds <> [] /\ Forall dig ds /\ n = (if neg then - dec ds else dec ds)%Z.
Proof.
  destruct 1 as [|s F N|s F N].
  - exists false, ["0"%char]. split; [auto|split; [discriminate|split; [apply (dig_zeros 1)|reflexivity]]].
  - exists false, s. destruct N as (c & r & -> & _). split; [auto|split; [discriminate|auto]].
  - exists true, s. destruct N as (c & r & -> & _). split; [auto|split; [discriminate|auto]].
Qed.
Lemma numeral_chars s n : numeral s n -> s <> [] /\ Forall numchar s.
Proof.
  intro H. destruct (numeral_shape s n H) as (neg & ds & -> & N & F & _). split.
  - intro Q. apply app_eq_nil in Q. tauto.
  - apply Forall_app. split; [destruct neg; repeat constructor; vm_compute; tauto|now apply digs_numchar].
Qed.
Lemma numchar_not_white c : numchar c -> ~ white c.
Proof. intros H W. vm_compute in H, W. intuition congruence. Qed.
Lemma filter_id A (f : A -> bool) l : Forall (fun x => f x = true) l -> filter f l = l.
Proof. induction 1 as [|x l H _ IH]; cbn [filter]; [auto|]. now rewrite H, IH. Qed.
Lemma filter_nospace s : Forall (fun c => ~ white c) s -> filter (fun c => negb (isspace c)) s = s.
Proof. intro F. apply filter_id. eapply Forall_impl; [|exact F]. cbv beta. intros c H. apply isspace_false in H. now rewrite H. Qed.
Lemma nospace_numchar s : Forall numchar s -> Forall (fun c => ~ white c) s.
Proof. apply Forall_impl, numchar_not_white. Qed.

Lemma stoi_ok s n : numeral s n -> int_ok n = true -> stoi s = Ok n.
Proof.
  intros H I. destruct (numeral_shape s n H) as (neg & ds & -> & N & F & ->).
  destruct ds as [|c r]; [now elim N|]. inversion F as [|? ? D F']; subst.
  assert (isdigit c = true) as Dc by now apply isdigit_dig.
  destruct (digits_ok false (c :: r) [] F ltac:(cbn; auto) 0%Z 1%positive) as (p' & E & _). rewrite app_nil_r in E.
  unfold stoi. destruct neg; cbn [app].
  - rewrite from_first_id by reflexivity.
    replace (Ascii.eqb "-" "-") with true by reflexivity. replace (Ascii.eqb "-" "+") with false by reflexivity. cbn [orb]. cbv iota.
    rewrite Dc. rewrite E. cbn [fst]. rewrite Z.mul_0_l, Z.add_0_l. cbv zeta. now rewrite I.
  - assert (~ white c) as W by now apply dig_not_white. apply isspace_false in W.
    rewrite from_first_id by now rewrite W.
    destruct (Ascii.eqb_spec c "-") as [->|]; [now elim dig_minus|].
    destruct (Ascii.eqb_spec c "+") as [->|]; [vm_compute in D; intuition discriminate|]. cbn [orb]. cbv iota.
    rewrite Dc. rewrite E. cbn [fst]. rewrite Z.mul_0_l, Z.add_0_l. cbv zeta. now rewrite I.
Qed.

Lemma fmt_int_ok z : exists t, fmt_int z = Ok t /\ numeral t z.
Proof.
  unfold fmt_int. destruct (Z.eqb_spec z 0) as [->|N]; [exists ["0"%char]; split; [auto|constructor]|].
  destruct (int_digits_ok (Z.abs z) ltac:(lia)) as (ds & E & F & V & P). rewrite E. cbn [obind].
  eexists. split; [reflexivity|]. specialize (P ltac:(lia)). destruct (Z.ltb_spec z 0); cbn [app].
  - replace z with (- dec ds)%Z by lia. now constructor.
  - replace z with (dec ds) by lia. now constructor.
Qed.
Lemma fmt_label_ok y : (Z.abs y < 10 ^ 6)%Z -> exists t, fmt_label y = Ok t /\ numeral t y.
Proof.
  intro B. unfold fmt_label. destruct (Z.eq_dec y 0) as [->|N]; [exists ["0"%char]; split; [reflexivity|constructor]|].
  destruct (int_digits_ok (Z.abs y) ltac:(lia)) as (ds & E & F & V & P). specialize (P ltac:(lia)).
  assert (List.length ds <= 6) as L by (apply digits_len; auto; rewrite V; exact B).
  rewrite (fmt_g_eq (mkDec y 0) ds) by auto. cbn [mant scale]. cbv zeta.
  assert (1 <= List.length ds) as L1 by (destruct P as (c & r & -> & _); cbn; lia).
  destruct (Z.leb_spec (-4) (Z.of_nat (List.length ds) - 1 - Z.of_nat 0)); [|lia].
  destruct (Z.ltb_spec (Z.of_nat (List.length ds) - 1 - Z.of_nat 0) 6); [|lia]. cbn [andb].
  destruct (Z.leb_spec 0 (Z.of_nat (List.length ds) - 1 - Z.of_nat 0)); [|lia].
  replace (S (Z.to_nat (Z.of_nat (List.length ds) - 1 - Z.of_nat 0))) with (List.length ds) by lia.
  destruct (strip_zeros_ok ds) as (z & Ez).
  assert (List.length ds = List.length (strip_zeros ds) + z) as Lz by (rewrite Ez at 1; now rewrite app_length, repeat_length).
  rewrite (skipn_all2 (strip_zeros ds)) by lia. cbn [ndot]. rewrite app_nil_r.
  rewrite firstn_app, firstn_all2 by lia. rewrite firstn_repeat.
  replace (Nat.min (List.length ds - List.length (strip_zeros ds)) (List.length ds)) with z by lia. rewrite <- Ez.
  eexists. split; [reflexivity|]. destruct (Z.ltb_spec y 0); cbn [app].
  - replace y with (- dec ds)%Z by lia. now constructor.
  - replace y with (dec ds) by lia. now constructor.
Qed.

(** *** class names *)
Lemma find_name_le n l : find_name n l <= List.length l.
Proof. induction l as [|x l IH]; cbn; [lia|]. destruct (String.eqb x n); lia. Qed.
Lemma find_name_in n l : In n l <-> find_name n l < List.length l.
Proof.
  induction l as [|x l IH]; cbn [find_name List.length In]; [split; [tauto|lia]|].
  destruct (String.eqb_spec x n) as [->|N]; [split; [lia|auto]|]. rewrite IH. split; [intros [|]; [congruence|lia]|right; lia].
Qed.
Lemma find_name_nth n l : In n l -> nth_error l (find_name n l) = Some n.
Proof.
  induction l as [|x l IH]; cbn [find_name In]; [tauto|]. destruct (String.eqb_spec x n) as [->|N]; [reflexivity|].
  intros [|H]; [congruence|]. now apply IH.
Qed.
Lemma find_name_absent n l : ~ In n l -> find_name n l = List.length l.
Proof. rewrite find_name_in. pose proof (find_name_le n l). lia. Qed.
Lemma find_name_app n l l' : In n l -> find_name n (l ++ l') = find_name n l.
Proof.
  induction l as [|x l IH]; cbn [app find_name In]; [tauto|]. destruct (String.eqb_spec x n) as [->|N]; [auto|].
  intros [|H]; [congruence|]. f_equal. auto.
Qed.
Lemma find_name_new n l : ~ In n l -> find_name n (l ++ [n]) = List.length l.
Proof.
  induction l as [|x l IH]; cbn [app find_name In List.length]; [now rewrite String.eqb_refl|]. intro H.
  destruct (String.eqb_spec x n) as [->|N]; [tauto|]. f_equal. tauto.
Qed.
Lemma str_inj a b : string_of_list_ascii a = string_of_list_ascii b -> a = b.
Proof. intro H. apply (f_equal list_ascii_of_string) in H. now rewrite !list_ascii_of_string_of_list_ascii in H. Qed.

(** The count of each class. *)
Record cinv (s : cstate) (ls : list Z) : Prop := {
  ci_nodup : NoDup (cs_classes s);
  ci_len : List.length (cs_dist s) = List.length (cs_classes s);
  ci_in : forall c, In c (cs_classes s) <-> In c ls;
  ci_count : forall i c, nth_error (cs_classes s) i = Some c -> nth_error (cs_dist s) i = Some (Z.of_nat (count_occ Z.eq_dec ls c)) }.
Lemma cinv_empty : cinv no_classes [].
Proof. constructor; cbn; [constructor|auto|tauto|]. intros [|i] c; discriminate. Qed.

Definition count_label (s : cstate) (names : list string) (c : Z) : outcome cstate :=
  let known := Nat.ltb (find_pos c (cs_classes s)) (List.length (cs_classes s)) in
  let classes := if known then cs_classes s else cs_classes s ++ [c] in
  let dist := if known then cs_dist s else cs_dist s ++ [0%Z] in
  let* dist' := vupd (find_pos c classes) (fun k => wrap64 (k + 1)) dist in Ok (mkCs names classes dist').
Lemma find_pos_nth c l : In c l -> find_pos c l < List.length l /\ nth_error l (find_pos c l) = Some c.
Proof.
  induction l as [|x l IH]; cbn [find_pos In]; [tauto|]. destruct (Z.eqb_spec x c) as [->|N]; [cbn; split; [lia|auto]|].
  intros [|H]; [congruence|]. destruct (IH H). cbn. split; [lia|auto].
Qed.
Lemma find_pos_absent c l : ~ In c l -> find_pos c l = List.length l.
Proof. induction l as [|x l IH]; cbn [find_pos In List.length]; [auto|]. intro H. destruct (Z.eqb_spec x c); [tauto|]. f_equal. tauto. Qed.
Lemma find_pos_new c l : ~ In c l -> find_pos c (l ++ [c]) = List.length l.
Proof. induction l as [|x l IH]; cbn [app find_pos In List.length]; [now rewrite Z.eqb_refl|]. intro H. destruct (Z.eqb_spec x c); [tauto|]. f_equal. tauto. Qed.
Lemma vupd_at A (l : list A) i f a : nth_error l i = Some a -> exists l', vupd i f l = Ok l' /\ List.length l' = List.length l /\
  nth_error l' i = Some (f a) /\ forall j, j <> i -> nth_error l' j = nth_error l j.
Proof.
  revert i. induction l as [|x l IH]; intros [|i] H; cbn in H; try discriminate.
  - injection H as ->. eexists. split; [reflexivity|]. split; [auto|split; [auto|]]. intros [|j] N; [lia|reflexivity].
  - destruct (IH i H) as (l' & E & L & A1 & O). unfold vupd in *. cbn [upd]. destruct (upd i f l) eqn:U; [|discriminate]. injection E as ->.
    eexists. split; [reflexivity|]. split; [cbn; lia|split; [auto|]]. intros [|j] N; [reflexivity|]. cbn. apply O. lia.
Qed.
Lemma count_occ_snoc ls c x : count_occ Z.eq_dec (ls ++ [c]) x = count_occ Z.eq_dec ls x + (if Z.eq_dec c x then 1 else 0).
Proof. rewrite count_occ_app. cbn [count_occ]. destruct (Z.eq_dec c x); lia. Qed.
Lemma count_label_ok s ls names c : cinv s ls -> (Z.of_nat (List.length ls) < 2 ^ 63)%Z ->
  exists s', count_label s names c = Ok s' /\ cinv s' (ls ++ [c]) /\ cs_names s' = names /\
    cs_classes s' = (if in_dec Z.eq_dec c (cs_classes s) then cs_classes s else cs_classes s ++ [c]).
Proof.
  intros [ND L I C] B. unfold count_label.
  assert (wrap64 (Z.of_nat (count_occ Z.eq_dec ls c) + 1) = Z.of_nat (count_occ Z.eq_dec (ls ++ [c]) c)) as W.
  { rewrite count_occ_snoc. destruct (Z.eq_dec c c); [|congruence]. unfold wrap64.
    assert (count_occ Z.eq_dec ls c <= List.length ls) by apply count_occ_bound.
    rewrite Z.mod_small; [lia|]. split; [lia|]. change (2 ^ 64)%Z with (2 * 2 ^ 63)%Z. lia. }
  destruct (in_dec Z.eq_dec c (cs_classes s)) as [H|H].
  - destruct (find_pos_nth c _ H) as [Lt Nt]. destruct (Nat.ltb_spec (find_pos c (cs_classes s)) (List.length (cs_classes s))); [|lia]. cbv zeta.
    destruct (vupd_at _ (cs_dist s) (find_pos c (cs_classes s)) (fun k => wrap64 (k + 1)) _ (C _ _ Nt)) as (d' & E & Ld & A1 & O).
    rewrite E. cbn [obind]. eexists. split; [reflexivity|]. split; [|auto]. constructor; cbn [cs_classes cs_dist].
    + auto.
    + congruence.
    + intro x. rewrite in_app_iff, <- I. cbn. intuition congruence.
    + intros i x Hx. destruct (Nat.eq_dec i (find_pos c (cs_classes s))) as [->|Ne].
      * assert (x = c) as -> by congruence. now rewrite A1, W.
      * rewrite O by auto. rewrite (C _ _ Hx). f_equal. rewrite count_occ_snoc. destruct (Z.eq_dec c x) as [->|]; [|lia].
        elim Ne. apply (proj1 (NoDup_nth_error (cs_classes s)) ND); [apply nth_error_Some; congruence|congruence].
  - rewrite (find_pos_absent c (cs_classes s)) by auto. destruct (Nat.ltb_spec (List.length (cs_classes s)) (List.length (cs_classes s))); [lia|]. cbv zeta.
    rewrite (find_pos_new c (cs_classes s)) by auto.
    destruct (vupd_at _ (cs_dist s ++ [0%Z]) (List.length (cs_classes s)) (fun k => wrap64 (k + 1)) 0%Z) as (d' & E & Ld & A1 & O).
    { rewrite nth_error_app2 by lia. now rewrite L, Nat.sub_diag. }
    assert (count_occ Z.eq_dec ls c = 0) as Z0 by (apply count_occ_not_In; now rewrite <- I).
    rewrite Z0 in W. cbn [Z.of_nat] in W.
    rewrite E. cbn [obind]. eexists. split; [reflexivity|]. split; [|auto]. constructor; cbn [cs_classes cs_dist].
    + apply NoDup_app_intro; auto; [repeat constructor; auto|]. intros x [<-|[]]. exact H.
    + rewrite Ld, !app_length, L. reflexivity.
    + intro x. rewrite !in_app_iff, <- I. cbn. intuition congruence.
    + intros i x Hx. destruct (Nat.lt_ge_cases i (List.length (cs_classes s))) as [Li|Li].
      * rewrite nth_error_app1 in Hx by auto. rewrite O by lia. rewrite nth_error_app1 by lia. rewrite (C _ _ Hx). f_equal.
        rewrite count_occ_snoc. destruct (Z.eq_dec c x) as [->|]; [|lia]. elim H. eapply nth_error_In; eauto.
      * rewrite nth_error_app2 in Hx by auto. destruct (i - List.length (cs_classes s)) as [|k] eqn:Q; [|destruct k; discriminate].
        cbn in Hx. injection Hx as <-. replace i with (List.length (cs_classes s)) by lia. rewrite A1, <- W. reflexivity.
Qed.

(** process_class as: choose the label, then count it. *)
Definition choose (s : cstate) (item : str) : outcome (Z * list string) :=
  let pos := find_name (string_of_list_ascii item) (cs_names s) in
  let it := filter (fun c => negb (isspace c)) item in
  let name := string_of_list_ascii it in
  if Nat.eqb pos (List.length (cs_names s)) then
    let names := cs_names s ++ [name] in
    let* c := (if Nat.eqb (find_name "-1" names) (List.length names) then
                 if is_number it then stoi it else Ok (Z.of_nat (find_name name names) + 1)%Z
               else Ok 1%Z) in
    Ok (if String.eqb name "-1" then (-1)%Z else c, names)
  else
    let* c := (if is_number it then stoi it else Ok (Z.of_nat pos + 1)%Z) in
    Ok (c, cs_names s).
Lemma process_class_eq s item : filter (fun c => negb (isspace c)) item <> [] ->
  process_class s item = (let* (c, names) := choose s item in let* s' := count_label s names c in Ok (c, s')).
Proof.
  intro N. unfold process_class, choose, count_label. destruct (filter _ item) as [|a l] eqn:E; [now elim N|]. cbv zeta.
  match goal with |- obind ?m _ = obind ?m _ => destruct m as [[c names]| |]; [|reflexivity|reflexivity] end.
  cbn [obind]. match goal with |- obind ?m _ = _ => destruct m; reflexivity end.
Qed.
Lemma stoi_not_UB s : stoi s <> UB.
Proof.
  unfold stoi. cbv zeta. match goal with |- match ?x with _ => _ end <> _ => destruct x end; [discriminate|].
  destruct (isdigit _); [|discriminate]. match goal with |- (if ?b then _ else _) <> _ => destruct b end; discriminate.
Qed.
Lemma choose_not_UB s item : choose s item <> UB.
Proof.
  unfold choose. cbv zeta. pose proof (stoi_not_UB (filter (fun c => negb (isspace c)) item)).
  destruct (Nat.eqb _ _).
  - destruct (Nat.eqb _ _); [destruct (is_number _); [destruct (stoi _)|]|]; cbn [obind]; congruence || discriminate.
  - destruct (is_number _); [destruct (stoi _)|]; cbn [obind]; congruence || discriminate.
Qed.
Definition nonblank (it : str) : Prop := exists c, In c it /\ ~ white c.
Lemma nonblank_filter it : nonblank it -> filter (fun c => negb (isspace c)) it <> [].
Proof.
  intros (c & I & W) E. assert (In c (filter (fun c => negb (isspace c)) it)) as X by (apply filter_In; split; [auto|apply isspace_false in W; now rewrite W]).
  rewrite E in X. destruct X.
Qed.
Lemma process_class_step s ls it : cinv s ls -> (Z.of_nat (List.length ls) < 2 ^ 63)%Z -> nonblank it ->
  process_class s it = Abort \/ exists c s', process_class s it = Ok (c, s') /\ cinv s' (ls ++ [c]).
Proof.
  intros I B N. rewrite process_class_eq by now apply nonblank_filter. pose proof (choose_not_UB s it).
  destruct (choose s it) as [[c names]| |]; cbn [obind]; [|congruence|now left].
  destruct (count_label_ok s ls names c I B) as (s' & -> & I' & _). cbn [obind]. right. eauto.
Qed.
Lemma run_classes_ok items : forall s ls, cinv s ls -> (Z.of_nat (List.length ls + List.length items) < 2 ^ 63)%Z -> Forall nonblank items ->
  run_classes s items = Abort \/ exists l s', run_classes s items = Ok (l, s') /\ cinv s' (ls ++ l) /\ List.length l = List.length items.
Proof.
  induction items as [|it items IH]; intros s ls I B F; cbn [run_classes].
  - right. exists [], s. split; [auto|]. now rewrite app_nil_r.
  - inversion F as [|? ? N F']; subst. cbn [List.length] in B.
    destruct (process_class_step s ls it I ltac:(lia) N) as [-> | (c & s1 & -> & I1)]; cbn [obind]; [now left|].
    destruct (IH s1 (ls ++ [c]) I1) as [-> | (l & s2 & -> & I2 & L)]; cbn [obind]; [rewrite app_length; cbn; lia|auto|now left|].
    right. exists (c :: l), s2. split; [auto|]. rewrite <- app_assoc in I2. split; [exact I2|cbn; lia].
Qed.

(** *** labels that are integers *)
Definition named (nm : string) (c : Z) : Prop := exists t, nm = string_of_list_ascii t /\ numeral t c.
Lemma numeral_fun t a b : numeral t a -> numeral t b -> a = b.
Proof.
  intros H G. inversion H; inversion G; subst; auto; try discriminate;
  repeat match goal with
  | N : no_lead0 ["0"%char] |- _ => destruct N as (? & ? & E & N'); injection E as <- <-; now elim N'
  | F : Forall dig ("-"%char :: _) |- _ => inversion F; subst; now elim dig_minus
  | E : _ :: _ = _ :: _ |- _ => injection E as E
  end; congruence.
Qed.
Lemma named_in t y names classes : Forall2 named names classes -> numeral t y -> (In (string_of_list_ascii t) names <-> In y classes).
Proof.
  intros F N. induction F as [|nm c names classes (u & -> & Nu) F IH]; cbn [In]; [tauto|]. rewrite IH.
  split; (intros [E|H]; [left|now right]).
  - apply str_inj in E. subst u. now apply (numeral_fun t).
  - subst c. f_equal. now apply (numeral_inj u t y).
Qed.
Lemma numeral_m1 : numeral ["-"; "1"]%char (-1).
Proof. apply (num_neg ["1"%char]); [repeat constructor; apply isdigit_dig; reflexivity|]. exists "1"%char, []. split; [reflexivity|discriminate]. Qed.

Lemma choose_number s t y : Forall2 named (cs_names s) (cs_classes s) -> numeral t y -> int_ok y = true ->
  (In (-1)%Z (cs_classes s) -> ~ In y (cs_classes s) -> y = 1%Z) ->
  choose s t = Ok (y, if in_dec Z.eq_dec y (cs_classes s) then cs_names s else cs_names s ++ [string_of_list_ascii t]).
Proof.
  intros F N I G. destruct (numeral_chars t y N) as [Ne Ch]. unfold choose. cbv zeta.
  rewrite (filter_nospace t) by now apply nospace_numchar.
  rewrite (is_number_chars t Ne Ch). rewrite (stoi_ok t y N I).
  pose proof (named_in t y _ _ F N) as K. pose proof (named_in _ _ _ _ F numeral_m1) as K1. change (string_of_list_ascii ["-"; "1"]%char) with "-1"%string in K1.
  set (nm := string_of_list_ascii t) in *.
  destruct (in_dec Z.eq_dec y (cs_classes s)) as [H|H].
  - destruct (Nat.eqb_spec (find_name nm (cs_names s)) (List.length (cs_names s))) as [E|E].
    + apply K, find_name_in in H. lia.
    + reflexivity.
  - rewrite find_name_absent by tauto. rewrite Nat.eqb_refl.
    destruct (Nat.eqb_spec (find_name "-1" (cs_names s ++ [nm])) (List.length (cs_names s ++ [nm]))) as [E|E]; cbn [obind].
    + destruct (String.eqb_spec nm "-1") as [E1|E1]; [|reflexivity]. exfalso.
      assert (In "-1"%string (cs_names s ++ [nm])) as X by (rewrite E1; apply in_or_app; right; now left). apply find_name_in in X. lia.
    + destruct (String.eqb_spec nm "-1") as [E1|E1].
      * assert (t = ["-"; "1"]%char) as -> by (apply str_inj; exact E1). rewrite (numeral_fun _ _ _ N numeral_m1). reflexivity.
      * assert (In "-1"%string (cs_names s ++ [nm])) as X by (apply find_name_in; pose proof (find_name_le "-1" (cs_names s ++ [nm])); lia).
        apply in_app_or in X as [X|[X|[]]]; [|congruence]. apply K1 in X. rewrite (G X H). reflexivity.
Qed.
Lemma process_number s ls t y : cinv s ls -> (Z.of_nat (List.length ls) < 2 ^ 63)%Z -> Forall2 named (cs_names s) (cs_classes s) ->
  numeral t y -> int_ok y = true -> (In (-1)%Z ls -> ~ In y ls -> y = 1%Z) ->
  exists s', process_class s t = Ok (y, s') /\ cinv s' (ls ++ [y]) /\ Forall2 named (cs_names s') (cs_classes s').
Proof.
  intros I B F N J G. destruct (numeral_chars t y N) as [Ne Ch].
  rewrite process_class_eq by (rewrite filter_nospace; auto using nospace_numchar).
  rewrite (choose_number s t y F N J) by (intros H1 H2; apply G; [now apply (ci_in _ _ I)|intro; apply H2; now apply (ci_in _ _ I)]).
  cbn [obind]. match goal with |- context [count_label s ?nm y] => destruct (count_label_ok s ls nm y I B) as (s' & -> & I' & En & Ec) end.
  cbn [obind]. exists s'. split; [auto|split; [auto|]]. rewrite En, Ec. destruct (in_dec Z.eq_dec y (cs_classes s)); [auto|].
  apply Forall2_app; [auto|]. constructor; [|constructor]. exists t. auto.
Qed.
