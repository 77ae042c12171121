(** Property lemmas for files with real labels: C146. *)
From Coq Require Import ZArith QArith Ascii Bool String List Lia.
From Verif Require Import Base ListLib M_Data S_Data L_Join L_Valid M_Str S_Str L_Str2 L_Str3 M_Load S_Load M_Load2 L_Load L_Load2 L_Load3 L_Load4 M_Regr.
Import ListNotations.
Local Open Scope nat_scope.

(** The text of a number: digits, signs, point and exponent. *)
Definition ntext (t : str) : Prop := t <> [] /\ Forall numchar t.
(** A row of a file: the texts of the features and of the label. *)
Definition row_text (front : bool) (r : list str * str) : list str := if front then snd r :: fst r else fst r ++ [snd r].
Definition row_good (n : nat) (r : list str * str) : Prop := List.length (fst r) = n /\ Forall ntext (fst r) /\ ntext (snd r).
Definition row_value (r : list str * str) : list Q * Q := (map atod (fst r), atod (snd r)).
Definition comma_file (front : bool) (rows : list (list str * str)) : str := concat (map (fun l => l ++ [newline]) (map (fun r => join_with "," (row_text front r)) rows)).

Lemma text_ntext front n r : row_good n r -> Forall ntext (row_text front r).
Proof. intros (_ & F & L). destruct front; cbn [row_text]; [constructor; auto|apply Forall_app; auto]. Qed.
Lemma text_length front n r : row_good n r -> List.length (row_text front r) = S n.
Proof. intros (L & _). destruct front; cbn [row_text List.length]; [auto|rewrite app_length; cbn; lia]. Qed.
Lemma ntext_no c t : ntext t -> ~ numchar c -> ~ In c t.
Proof. intros [_ F] N I. rewrite Forall_forall in F. auto. Qed.
Lemma pieces_flags c fs : forall f, Forall (fun t => t <> [] /\ ~ In c t) (fs ++ [f]) -> pieces c [] (join_with c (fs ++ [f])) = map (fun t => (t, false)) fs ++ [(f, true)].
Proof.
  induction fs as [|t fs IH]; intros f H; cbn [app map].
  - inversion H as [|? ? [N C] _]; subst. cbn [join_with]. rewrite pieces_last by auto. reflexivity.
  - inversion H as [|? ? [N C] H']; subst. rewrite join_cons by (destruct fs; discriminate). rewrite pieces_step by auto. cbn [app]. f_equal. auto.
Qed.
Lemma comma_lines front n rows : Forall (row_good n) rows -> lines (comma_file front rows) = map (fun r => join_with "," (row_text front r)) rows.
Proof.
  intro G. apply lines_ok. rewrite Forall_map. eapply Forall_impl; [|exact G]. cbv beta. intros r H. pose proof (text_ntext front n r H) as F.
  assert (Forall (fun x => ~ white x) (join_with "," (row_text front r))) as W. { apply join_white; [vm_compute; intuition discriminate|]. eapply Forall_impl; [|exact F]. now intros t [_ K]. }
  split; [now apply not_white_newline|now apply trim_id].
Qed.
Lemma comma_free fs : Forall ntext fs -> Forall (fun t => t <> [] /\ ~ In ","%char t) fs.
Proof. apply Forall_impl. intros t [N F]. split; [auto|]. apply numchars_not in F. tauto. Qed.
Lemma comma_count fs : Forall ntext fs -> List.length (pieces "," [] (join_with "," fs)) = List.length fs.
Proof. intro F. rewrite <- (map_length fst), pieces_join; [reflexivity|now apply comma_free]. Qed.
Lemma const_dims {A} (f : A -> Z) m (l : list A) : (forall x, In x l -> f x = m) -> l <> [] -> check_dims (map f l) 0%Z = Some m.
Proof. intros H N. apply check_dims_const; [|now right|destruct l; [congruence|discriminate]]. apply Forall_map, Forall_forall. intros x I. symmetry. auto. Qed.

Lemma rcsv_end f : forall fs px rx y, Forall ntext fs -> List.length rx = List.length fs ->
  rcsv_row true (map (fun t => (t, false)) fs ++ [(f, true)]) (Z.of_nat (List.length px) - 1) (px ++ rx) y = Ok (px ++ map atod fs, atod f).
Proof.
  induction fs as [|t fs IH]; intros px rx y F L; cbn [map app rcsv_row negb].
  - destruct rx; [|discriminate]. reflexivity.
  - destruct rx as [|x0 rx]; [discriminate|]. inversion F as [|? ? [N C] F']; subst. rewrite is_number_chars by auto. unfold zset. replace (Z.of_nat (List.length px) - 1 + 1)%Z with (Z.of_nat (List.length px)) by lia.
    destruct (Z.ltb_spec (Z.of_nat (List.length px)) 0); [lia|]. rewrite Nat2Z.id, vupd_mid. cbn [obind]. specialize (IH (px ++ [atod t]) rx y F' ltac:(cbn in L; lia)).
    rewrite app_length in IH. cbn [List.length] in IH. replace (Z.of_nat (List.length px + 1) - 1)%Z with (Z.of_nat (List.length px)) in IH by lia. rewrite <- !app_assoc in IH. cbn [app] in IH. exact IH.
Qed.
Lemma rcsv_front : forall items px rx y, Forall ntext (map fst items) -> List.length rx = List.length items ->
  rcsv_row false items (Z.of_nat (List.length px)) (px ++ rx) y = Ok (px ++ map atod (map fst items), y).
Proof.
  induction items as [|[t e] items IH]; intros px rx y F L; cbn [map fst app rcsv_row negb].
  - destruct rx; [|discriminate]. reflexivity.
  - destruct rx as [|x0 rx]; [discriminate|]. inversion F as [|? ? [N C] F']; subst. destruct (Z.eqb_spec (Z.of_nat (List.length px)) (-1)); [lia|]. cbn [negb]. rewrite is_number_chars by auto. unfold zset.
    destruct (Z.ltb_spec (Z.of_nat (List.length px)) 0); [lia|]. rewrite Nat2Z.id, vupd_mid. cbn [obind]. specialize (IH (px ++ [atod t]) rx y F' ltac:(cbn in L; lia)).
    rewrite app_length in IH. cbn [List.length] in IH. replace (Z.of_nat (List.length px) + 1)%Z with (Z.of_nat (List.length px + 1)) by lia. rewrite <- !app_assoc in IH. cbn [app] in IH. exact IH.
Qed.
Lemma rows_map {B} (f : str -> outcome B) front (g : list str * str -> B) (sep : ascii) rows : (forall r, In r rows -> f (join_with sep (row_text front r)) = Ok (g r)) -> map_outcome f (map (fun r => join_with sep (row_text front r)) rows) = Ok (map g rows).
Proof.
  intro H. apply map_outcome_2. induction rows as [|r rows IH]; cbn; constructor; [apply H; now left|]. apply IH. intros. apply H. now right.
Qed.
Lemma delimiter_text fs : Forall ntext fs -> delimiter (join_with "," fs) = ","%char.
Proof.
  intro F. destruct fs as [|t [|u fs]]; [reflexivity| |].
  - inversion F as [|? ? [_ C] _]; subst. cbn [join_with]. clear -C. induction C as [|c t H F IH]; [reflexivity|]. cbn [delimiter]. destruct (numchar_not c H) as (A & _ & _ & _ & B). destruct (Ascii.eqb_spec c ","); [tauto|]. destruct (Ascii.eqb_spec c ";"); tauto.
  - inversion F as [|? ? [_ C] _]; subst. rewrite join_cons by discriminate. now apply delimiter_ok.
Qed.
Lemma rload_csv_eq atEnd file ls deli : lines file = ls -> deli = (match ls with [] => ","%char | l :: _ => delimiter l end) ->
  rload_csv atEnd file = match check_dims (map (fun l => Z.of_nat (List.length (pieces deli [] l)) - 1)%Z ls) 0%Z with
  | None => Ok None
  | Some dm => if Z.ltb dm 0 then Abort else let* r := map_outcome (fun l => rcsv_row atEnd (pieces deli [] l) (-1) (repeat 0%Q (Z.to_nat dm)) (inject_Z y_default)) ls in Ok (Some r)
  end.
Proof. intros <- ->. reflexivity. Qed.
(** C146: a .csv file of numbers read as "Regression" gives every feature and every label, with the label in the first or in the last column. *)
Lemma c146_csv : forall (atEnd : bool) (n : nat) (rows : list (list str * str)), rows <> [] -> Forall (row_good n) rows ->
  rload_csv atEnd (comma_file (negb atEnd) rows) = Ok (Some (map row_value rows)).
Proof.
  intros atEnd n rows N G. rewrite (rload_csv_eq atEnd _ _ ","%char (comma_lines (negb atEnd) n rows G)).
  2:{ destruct rows as [|r rows]; [congruence|]. cbn [map]. symmetry. apply delimiter_text. apply (text_ntext _ n). inversion G; auto. }
  rewrite Forall_forall in G.
  rewrite map_map, (const_dims _ (Z.of_nat n)); [|intros r I; cbv beta; rewrite comma_count by (apply (text_ntext _ n); auto); rewrite (text_length _ n) by auto; lia|auto].
  destruct (Z.ltb_spec (Z.of_nat n) 0); [lia|]. rewrite Nat2Z.id. rewrite (rows_map _ _ row_value); [reflexivity|]. intros r I. specialize (G r I). destruct (G) as (L & F & T). destruct atEnd; cbn [negb row_text].
  - rewrite pieces_flags by (apply comma_free, Forall_app; auto). apply (rcsv_end (snd r) (fst r) [] (repeat 0%Q n)); [auto|now rewrite repeat_length].
  - pose proof (pieces_join "," (snd r :: fst r) (comma_free _ (Forall_cons _ T F))) as P. destruct (pieces "," [] (join_with "," (snd r :: fst r))) as [|[t e] items]; [discriminate|]. cbn [map fst] in P. injection P as -> P.
    cbn [rcsv_row]. change (Z.eqb (-1) (-1)) with true. cbn [negb]. unfold row_value. rewrite <- P. apply (rcsv_front items [] (repeat 0%Q n)); [now rewrite P|]. rewrite repeat_length, <- L, <- P, map_length. reflexivity.
Qed.
Definition txt (s : string) : str := list_ascii_of_string s.
Definition sample_rows : list (list str * str) := [([txt "1.5"; txt "2"], txt "0.25"); ([txt "3"; txt "-4"], txt "7.5")].
Lemma ntext_by t : (match t with [] => false | _ => forallb (fun c => existsb (Ascii.eqb c) (list_ascii_of_string "0123456789.-+e")) t end) = true -> ntext t.
Proof.
  intro H. split; [now destruct t|]. apply Forall_forall. intros c I. destruct t as [|c0 t0]; [discriminate|]. rewrite forallb_forall in H. specialize (H c I). apply existsb_exists in H as (x & J & E). apply Ascii.eqb_eq in E. now subst.
Qed.
Lemma sample_good : Forall (row_good 2) sample_rows.
Proof. apply Forall_cons; [|apply Forall_cons; [|apply Forall_nil]]; (split; [reflexivity|]; split; [apply Forall_cons; [|apply Forall_cons; [|apply Forall_nil]]|]; apply ntext_by; reflexivity). Qed.
Lemma c146_csv_ex : sample_rows <> [] /\ Forall (row_good 2) sample_rows /\ map row_value sample_rows = [([15#10; 2], 25#100); ([3; -4], 75#10)]%Q.
Proof. split; [discriminate|]. split; [apply sample_good|]. vm_compute. reflexivity. Qed.

Lemma rarff_end f : forall fs px rx y, Forall ntext fs -> List.length rx = List.length fs ->
  rarff_row true (map (fun t => (t, false)) fs ++ [(f, true)]) (Z.of_nat (List.length px) - 1) (px ++ rx) y = Ok (px ++ map atod fs, 0%Q).
Proof.
  induction fs as [|t fs IH]; intros px rx y F L; cbn [map app rarff_row negb].
  - destruct rx; [|discriminate]. reflexivity.
  - destruct rx as [|x0 rx]; [discriminate|]. inversion F as [|? ? [N C] F']; subst. rewrite is_number_chars by auto. unfold zset. replace (Z.of_nat (List.length px) - 1 + 1)%Z with (Z.of_nat (List.length px)) by lia.
    destruct (Z.ltb_spec (Z.of_nat (List.length px)) 0); [lia|]. rewrite Nat2Z.id, vupd_mid. cbn [obind]. specialize (IH (px ++ [atod t]) rx y F' ltac:(cbn in L; lia)).
    rewrite app_length in IH. cbn [List.length] in IH. replace (Z.of_nat (List.length px + 1) - 1)%Z with (Z.of_nat (List.length px)) in IH by lia. rewrite <- !app_assoc in IH. cbn [app] in IH. exact IH.
Qed.
(** C146: the same file as .arff loses every label: all are 0. *)
Lemma c146_arff_refuted : forall (n : nat) (rows : list (list str * str)), rows <> [] -> Forall (row_good n) rows ->
  rload_arff true (comma_file false rows) = Ok (Some (map (fun r => (map atod (fst r), 0%Q)) rows)).
Proof.
  intros n rows N G. unfold rload_arff. rewrite (comma_lines _ n) by auto. cbv zeta. rewrite Forall_forall in G.
  assert (forall l, arff_count [] l = Z.of_nat (List.length (pieces "," [] l))) as AC. { intro l. unfold arff_count. f_equal. f_equal. apply filter_id, Forall_forall. intros p _. cbn [find_name List.length Nat.eqb]. apply orb_true_r. }
  rewrite map_map, (const_dims _ (Z.of_nat (S n))); [|intros r I; cbv beta; rewrite AC, comma_count by (apply (text_ntext _ n); auto); rewrite (text_length _ n) by auto; lia|auto].
  destruct (Z.eqb_spec (Z.of_nat (S n)) 0); [lia|]. replace (Z.to_nat (Z.of_nat (S n) - 1)) with n by lia. rewrite (rows_map _ _ (fun r => (map atod (fst r), 0%Q))); [reflexivity|]. intros r I. specialize (G r I). destruct (G) as (L & F & T). cbn [row_text].
  rewrite pieces_flags by (apply comma_free, Forall_app; auto). apply (rarff_end (snd r) (fst r) [] (repeat 0%Q n)); [auto|now rewrite repeat_length].
Qed.
Lemma c146_arff_ex : sample_rows <> [] /\ Forall (row_good 2) sample_rows.
Proof. split; [discriminate|]. apply sample_good. Qed.

(** *** .data files *)
(** A row: the features, each a name and a text, and the text of the label. *)
Definition drow : Type := (list (str * str) * str)%type.
Definition feature_text (p : str * str) : str := fst p ++ ":"%char :: snd p.
Definition drow_text (front : bool) (r : drow) : list str := if front then snd r :: map feature_text (fst r) else map feature_text (fst r) ++ [snd r].
Definition drow_good (n : nat) (r : drow) : Prop :=
  List.length (fst r) = n /\ ntext (snd r) /\ Forall (fun p : str * str => ntext (snd p) /\ exists f, numeral (fst p) f /\ (- int_max <= f <= int_max)%Z) (fst r).
Definition data_file (front : bool) (rows : list drow) : str := concat (map (fun l => l ++ [newline]) (map (fun r => join_with " " (drow_text front r)) rows)).
Definition features_of (r : drow) : list Q := map (fun p => atod (snd p)) (fst r).

Definition word (t : str) : Prop := t <> [] /\ Forall (fun c => ~ white c) t.
Lemma ntext_word t : ntext t -> word t.
Proof. intros [N F]. split; [auto|now apply nospace_numchar]. Qed.
Lemma feature_word (p : str * str) : ntext (snd p) /\ (exists f, numeral (fst p) f /\ (- int_max <= f <= int_max)%Z) -> word (feature_text p).
Proof.
  intros [[N F] (f & Nm & _)]. apply numeral_chars in Nm as [_ Fn]. split; [intro E; unfold feature_text in E; symmetry in E; exact (app_cons_not_nil _ _ _ E)|]. apply Forall_app. split; [now apply nospace_numchar|]. constructor; [vm_compute; intuition discriminate|now apply nospace_numchar].
Qed.
Lemma drow_words front n r : drow_good n r -> Forall word (drow_text front r).
Proof.
  intros (_ & T & F). assert (Forall word (map feature_text (fst r))) as W by (rewrite Forall_map; eapply Forall_impl; [|exact F]; exact feature_word). apply ntext_word in T. destruct front; cbn [drow_text]; [constructor; auto|apply Forall_app; auto].
Qed.
Lemma drow_length front n r : drow_good n r -> List.length (drow_text front r) = S n.
Proof. intros (L & _). destruct front; cbn [drow_text List.length]; [now rewrite map_length, L|rewrite app_length, map_length; cbn; lia]. Qed.
Lemma words_free fs : Forall word fs -> Forall (fun t => t <> [] /\ ~ In " "%char t) fs.
Proof. apply Forall_impl. intros t [N F]. split; [auto|]. intro I. rewrite Forall_forall in F. apply (F _ I). vm_compute. tauto. Qed.
Lemma words_items fs : Forall word fs -> data_items (join_with " " fs) = fs.
Proof.
  intro F. unfold data_items. rewrite pieces_join by now apply words_free. apply filter_id. eapply Forall_impl; [|exact F]. intros t [N _]. now destruct t.
Qed.
Lemma words_first c fs : Forall word fs -> match join_with c fs with [] => True | x :: _ => ~ white x end.
Proof.
  intro F. destruct fs as [|t fs]; [exact I|]. inversion F as [|? ? [N W] _]; subst. destruct t as [|x t]; [congruence|]. inversion W; subst. destruct fs; [assumption|]. rewrite join_cons by discriminate. assumption.
Qed.
Lemma words_nonl fs : Forall word fs -> ~ In newline (join_with " " fs).
Proof.
  intros F I. assert (Forall (fun c => c <> newline) (join_with " " fs)) as K. { apply join_Forall; [let E := fresh in intro E; vm_compute in E; discriminate E|]. eapply Forall_impl; [|exact F]. intros t [_ W]. eapply Forall_impl; [|exact W]. cbv beta. intros c H ->. apply H. vm_compute. tauto. }
  rewrite Forall_forall in K. now apply (K _ I).
Qed.
Lemma data_lines front n rows : Forall (drow_good n) rows -> lines (data_file front rows) = map (fun r => join_with " " (drow_text front r)) rows.
Proof.
  intro G. apply lines_ok. rewrite Forall_map. eapply Forall_impl; [|exact G]. cbv beta. intros r H. pose proof (drow_words front n r H) as F. split; [now apply words_nonl|]. apply trim_id2; [now apply words_first|now apply rev_join_first].
Qed.
Lemma drow_dim front n r : drow_good n r -> data_dim (join_with " " (drow_text front r)) = Z.of_nat n.
Proof. intro G. unfold data_dim. rewrite words_items by (eapply drow_words; eauto). rewrite (drow_length _ n) by auto. lia. Qed.
(** What the second line says about the type. *)
Definition dotted (t : str) : bool := existsb (Ascii.eqb ".") t.
Lemma dotted_In t : dotted t = true <-> In "."%char t.
Proof. unfold dotted. rewrite existsb_exists. split; [intros (c & I & E); apply Ascii.eqb_eq in E; now subst|intro I; exists "."%char; split; [auto|reflexivity]]. Qed.
Lemma whole_piece t : ntext t -> pieces ":" [] (trim t) = [(t, true)].
Proof. intros [N F]. rewrite trim_id by now apply nospace_numchar. apply pieces_last; [apply numchars_not in F; tauto|auto]. Qed.
Lemma detect_last n r1 r2 rows before : drow_good n r1 -> drow_good n r2 ->
  data_regression before (map (fun r => join_with " " (drow_text false r)) (r1 :: r2 :: rows)) = dotted (snd r2).
Proof.
  intros G1 G2. cbn [map data_regression detect]. rewrite (drow_dim _ n) by auto. unfold line_type. destruct (Z.ltb_spec (Z.of_nat n) 0); [lia|]. rewrite Nat2Z.id, words_items by (eapply drow_words; eauto).
  cbn [drow_text]. destruct (G2) as (L & T & _). rewrite nth_error_app2 by (rewrite map_length; lia). rewrite map_length, L, Nat.sub_diag. cbn [nth_error]. now rewrite whole_piece.
Qed.
Lemma numeral_nodot s f : numeral s f -> dotted s = false.
Proof.
  intro N. apply not_true_iff_false. rewrite dotted_In. intro I.
  assert (forall l, Forall dig l -> ~ In "."%char l) as K. { intros l F J. rewrite Forall_forall in F. specialize (F _ J). vm_compute in F. intuition discriminate. }
  inversion N as [E|l F NL E|l F NL E]; subst; [destruct I as [I|[]]; discriminate|now apply (K _ F)|destruct I as [I|I]; [discriminate|now apply (K _ F)]].
Qed.
Lemma detect_front n r1 r2 rows before : 0 < n -> drow_good n r1 -> drow_good n r2 ->
  data_regression before (map (fun r => join_with " " (drow_text true r)) (r1 :: r2 :: rows)) = false.
Proof.
  intros Hn G1 G2. cbn [map data_regression detect]. rewrite (drow_dim _ n) by auto. unfold line_type. destruct (Z.ltb_spec (Z.of_nat n) 0); [lia|]. rewrite Nat2Z.id, words_items by (eapply drow_words; eauto).
  cbn [drow_text]. destruct (G2) as (L & T & F). destruct n as [|n]; [lia|]. cbn [nth_error]. rewrite nth_error_map. destruct (nth_error (fst r2) n) as [p|] eqn:Ep; [|apply nth_error_None in Ep; lia]. cbn [option_map].
  rewrite Forall_forall in F. pose proof (F p (nth_error_In _ _ Ep)) as Fp. pose proof (feature_word p Fp) as [_ W]. rewrite trim_id by auto. destruct Fp as [_ (f & Nf & _)]. unfold feature_text. destruct (numeral_chars _ _ Nf) as [_ C].
  rewrite pieces_step by (apply numchars_not in C; tauto). cbn [app]. eapply numeral_nodot; eauto.
Qed.
Lemma no_colon t : ntext t -> existsb (Ascii.eqb ":") t = false.
Proof. intros [_ F]. apply not_true_iff_false. intro X. apply existsb_exists in X as (c & Hc & E). apply Ascii.eqb_eq in E. subst c. apply numchars_not in F. tauto. Qed.
(** The features of a row, read one after the other. *)
Lemma rdata_features regr : forall (fs : list (str * str)) rest px rx pf rf y s, Forall (fun p : str * str => ntext (snd p) /\ exists f, numeral (fst p) f /\ (- int_max <= f <= int_max)%Z) fs -> List.length pf = List.length px ->
  exists fn, List.length fn = List.length fs /\ (List.length fs <= List.length rx -> List.length rf = List.length rx ->
    rdata_row regr (map feature_text fs ++ rest) (Z.of_nat (List.length px)) (px ++ rx) y (pf ++ rf) s =
    rdata_row regr rest (Z.of_nat (List.length px + List.length fs)) (px ++ map (fun p => atod (snd p)) fs ++ skipn (List.length fs) rx) y (pf ++ fn ++ skipn (List.length fs) rf) s).
Proof.
  induction fs as [|p fs IH]; intros rest px rx pf rf y s F Lp.
  - exists []. split; [reflexivity|]. intros _ _. cbn [map app List.length skipn]. now rewrite Nat.add_0_r.
  - destruct p as [nm v]. inversion F as [|? ? Fp F']; subst. pose proof (feature_word (nm, v) Fp) as [_ W]. destruct Fp as [[N C] (f & Nf & Bf)]. cbn [fst snd] in N, C, Nf.
    destruct rx as [|x0 rx]; [exists (repeat 0%Z (List.length ((nm, v) :: fs))); split; [now rewrite repeat_length|cbn; lia]|].
    destruct rf as [|f0 rf]; [exists (repeat 0%Z (List.length ((nm, v) :: fs))); split; [now rewrite repeat_length|cbn; lia]|].
    destruct (IH rest (px ++ [atod v]) rx (pf ++ [f]) rf y s F' ltac:(rewrite !app_length; cbn; lia)) as (fn & Lf & E). exists (f :: fn). split; [cbn; lia|]. intros L1 L2. cbn [map app rdata_row]. rewrite (trim_id _ W). cbv zeta.
    replace (existsb (Ascii.eqb ":") (feature_text (nm, v))) with true by (symmetry; apply existsb_exists; exists ":"%char; split; [apply in_or_app; right; now left|reflexivity]).
    unfold feature_text at 1. cbn [fst snd]. destruct (numeral_chars _ _ Nf) as [_ Fn]. rewrite pieces_step by (apply numchars_not in Fn; tauto). cbn [app]. rewrite pieces_last by (auto; apply numchars_not in C; tauto). cbn [app data_item].
    rewrite !no_cr by auto. rewrite (stoin_ok _ f Nf Bf). cbn [obind]. unfold zset. destruct (Z.ltb_spec (Z.of_nat (List.length px)) 0); [lia|]. rewrite Nat2Z.id. rewrite <- Lp at 1. rewrite vupd_mid. cbn [obind].
    rewrite (is_number_chars v) by auto. rewrite vupd_mid. cbn [obind].
    replace (Z.of_nat (List.length px) + 1)%Z with (Z.of_nat (List.length (px ++ [atod v]))) by (rewrite app_length; cbn; lia).
    replace (px ++ atod v :: rx) with ((px ++ [atod v]) ++ rx) by now rewrite <- app_assoc. replace (pf ++ f :: rf) with ((pf ++ [f]) ++ rf) by now rewrite <- app_assoc.
    rewrite E by (cbn [List.length] in *; lia). rewrite app_length. cbn [List.length skipn]. rewrite <- !app_assoc. cbn [app]. f_equal. lia.
Qed.
Lemma skipn_nil {A} n (l : list A) : List.length l = n -> skipn n l = [].
Proof. intros <-. apply skipn_all. Qed.
Lemma rdata_row_real n r fn s : drow_good n r -> List.length fn = n ->
  exists fn', List.length fn' = n /\ rdata_row true (drow_text false r) 0 (repeat 0%Q n) (inject_Z y_default) fn s = Ok (features_of r, atod (snd r), fn', s).
Proof.
  intros (L & T & F) Lf. cbn [drow_text]. destruct (rdata_features true (fst r) [snd r] [] (repeat 0%Q n) [] fn (inject_Z y_default) s F eq_refl) as (fn' & L' & E). rewrite repeat_length in E. specialize (E ltac:(lia) Lf).
  cbn [app List.length Z.of_nat] in E. rewrite L in *. rewrite !skipn_nil in E by (auto; apply repeat_length). rewrite !app_nil_r in E. exists fn'. split; [auto|]. rewrite E. cbn [rdata_row].
  rewrite (trim_id (snd r)) by (apply ntext_word; auto). cbv zeta. rewrite no_colon by auto. reflexivity.
Qed.
(** C146: a .data file with the labels at the end of the lines, the second of them written with a point, is read with its features and labels; no class is noted. *)
Lemma c146_data_last : forall (before : bool) (s0 : cstate) (n : nat) (r1 r2 : drow) (rows : list drow), Forall (drow_good n) (r1 :: r2 :: rows) -> In "."%char (snd r2) ->
  exists rd, rload_data before s0 (data_file false (r1 :: r2 :: rows)) = Ok (Some rd) /\ rd_points rd = map (fun r => (features_of r, atod (snd r))) (r1 :: r2 :: rows) /\ rd_classes rd = s0.
Proof.
  intros before s0 n r1 r2 rows G Dt. unfold rload_data. rewrite (data_lines _ n) by auto. cbv zeta. inversion G as [|? ? G1 G']; subst. inversion G' as [|? ? G2 _]; subst.
  rewrite (detect_last n) by auto. apply dotted_In in Dt. rewrite Dt. set (all := r1 :: r2 :: rows) in *. rewrite Forall_forall in G.
  rewrite map_map, (const_dims _ (Z.of_nat n)); [|intros r I; apply drow_dim; auto|discriminate]. destruct (Z.ltb_spec (Z.of_nat n) 0); [lia|]. rewrite Nat2Z.id.
  assert (forall l fn, (forall r, In r l -> drow_good n r) -> List.length fn = n -> exists fn', rdata_rows true n (map (fun r => join_with " " (drow_text false r)) l) fn s0 = Ok (map (fun r => (features_of r, atod (snd r))) l, fn', s0)) as K.
  { induction l as [|r l IH]; intros fn Hg L; [exists fn; reflexivity|]. cbn [map rdata_rows]. rewrite pieces_join by (apply words_free, (drow_words _ n), Hg; now left).
    destruct (rdata_row_real n r fn s0 (Hg r (or_introl eq_refl)) L) as (fn1 & L1 & ->). cbn [obind]. destruct (IH fn1 (fun r I => Hg r (or_intror I)) L1) as (fn2 & ->). exists fn2. reflexivity. }
  destruct (K all (iota 1 n) G (iota_length 1 n)) as (fn' & ->). cbn [obind]. eexists. split; [reflexivity|]. split; reflexivity.
Qed.
Definition sample_data : list drow := [([(txt "1", txt "1.5"); (txt "2", txt "2")], txt "2.5"); ([(txt "1", txt "3"); (txt "2", txt "-4")], txt "7.75")].
Lemma one_numeral : numeral (txt "1") 1 /\ numeral (txt "2") 2.
Proof.
  split; [change (numeral ["1"%char] (dec ["1"%char]))|change (numeral ["2"%char] (dec ["2"%char]))]; (apply num_pos; [apply Forall_cons; [vm_compute; tauto|apply Forall_nil]|]); (do 2 eexists; split; [reflexivity|discriminate]).
Qed.
Lemma sample_data_good : Forall (drow_good 2) sample_data.
Proof.
  destruct one_numeral as [N1 N2]. apply Forall_cons; [|apply Forall_cons; [|apply Forall_nil]]; (split; [reflexivity|]; split; [apply ntext_by; reflexivity|]; apply Forall_cons; [|apply Forall_cons; [|apply Forall_nil]]);
    (split; [apply ntext_by; reflexivity|]); [exists 1%Z|exists 2%Z|exists 1%Z|exists 2%Z]; (split; [assumption|vm_compute; split; discriminate]).
Qed.
Lemma c146_data_last_ex : Forall (drow_good 2) sample_data /\ In "."%char (txt "7.75") /\ map (fun r => (features_of r, atod (snd r))) sample_data = [([15#10; 2], 25#10); ([3; -4], 775#100)]%Q.
Proof. split; [apply sample_data_good|]. split; [vm_compute; tauto|]. vm_compute. reflexivity. Qed.

(** *** labels taken for classes *)
Record cplain (s : cstate) : Prop := { cp_names : ~ In "-1"%string (cs_names s); cp_dist : List.length (cs_dist s) = List.length (cs_classes s) }.
Lemma find_name_In x l : find_name x l = List.length l -> ~ In x l.
Proof. induction l as [|y l IH]; cbn; [tauto|]. destruct (String.eqb_spec y x); [discriminate|]. intros E [H|H]; [congruence|]. apply IH; [congruence|auto]. Qed.
Lemma find_name_absent x l : ~ In x l -> find_name x l = List.length l.
Proof. induction l as [|y l IH]; cbn; [auto|]. intro N. destruct (String.eqb_spec y x); [exfalso; apply N; now left|]. rewrite IH; tauto. Qed.
Lemma vupd_some {A} (f : A -> A) : forall l i, i < List.length l -> exists l', vupd i f l = Ok l' /\ List.length l' = List.length l.
Proof.
  unfold vupd. induction l as [|x l IH]; intros [|i] L; cbn in *; try lia; [eexists; split; [reflexivity|reflexivity]|].
  destruct (IH i ltac:(lia)) as (l' & E & L'). destruct (upd i f l); [|discriminate]. injection E as <-. eexists. split; [reflexivity|]. cbn. lia.
Qed.
Lemma find_pos_bound c l : find_pos c l <= List.length l.
Proof. induction l as [|y l IH]; cbn; [lia|]. destruct (Z.eqb _ _); lia. Qed.
Lemma process_trunc s t z : cplain s -> ntext t -> t <> txt "-1" -> stoi t = Ok z -> exists s', process_class s t = Ok (z, s') /\ cplain s'.
Proof.
  intros [Nm Ds] [Nt Ft] T1 St. unfold process_class. rewrite filter_nospace by now apply nospace_numchar. destruct t as [|c0 t0] eqn:Et; [congruence|]. rewrite <- Et in *. clear c0 t0 Et. cbv zeta.
  set (nm := string_of_list_ascii t). assert (nm <> "-1"%string) as N1. { intro E. apply T1. unfold nm in E. rewrite <- (list_ascii_of_string_of_list_ascii t), E. reflexivity. }
  assert (exists names, (if Nat.eqb (find_name nm (cs_names s)) (List.length (cs_names s))
        then let* c := (if Nat.eqb (find_name "-1" (cs_names s ++ [nm])) (List.length (cs_names s ++ [nm])) then if is_number t then stoi t else Ok (Z.of_nat (find_name nm (cs_names s ++ [nm])) + 1)%Z else Ok 1%Z) in
          Ok (if String.eqb nm "-1" then (-1)%Z else c, cs_names s ++ [nm])
        else let* c := (if is_number t then stoi t else Ok (Z.of_nat (find_name nm (cs_names s)) + 1)%Z) in Ok (c, cs_names s)) = Ok (z, names) /\ ~ In "-1"%string names) as (names & E & Nn).
  { rewrite (is_number_chars t) by auto. rewrite St. destruct (Nat.eqb_spec (find_name nm (cs_names s)) (List.length (cs_names s))).
    - assert (~ In "-1"%string (cs_names s ++ [nm])) as K. { intro I. apply in_app_or in I as [I|[I|[]]]; [auto|congruence]. }
      rewrite (find_name_absent _ _ K), Nat.eqb_refl. cbn [obind]. destruct (String.eqb_spec nm "-1"); [congruence|]. eexists. split; [reflexivity|auto].
    - cbn [obind]. eexists. split; [reflexivity|auto]. }
  rewrite E. cbn [obind]. clear E.
  set (known := Nat.ltb (find_pos z (cs_classes s)) (List.length (cs_classes s))).
  assert (exists l', vupd (find_pos z (if known then cs_classes s else cs_classes s ++ [z])) (fun k => wrap64 (k + 1)) (if known then cs_dist s else cs_dist s ++ [0%Z]) = Ok l' /\ List.length l' = List.length (if known then cs_dist s else cs_dist s ++ [0%Z])) as (l' & El & Ll).
  { apply vupd_some. unfold known. destruct (Nat.ltb_spec (find_pos z (cs_classes s)) (List.length (cs_classes s))) as [Hk|Hk]; [lia|]. rewrite app_length. cbn [List.length].
    assert (find_pos z (cs_classes s ++ [z]) <= List.length (cs_classes s)) as B. { clear. induction (cs_classes s) as [|y l IH]; cbn; [rewrite Z.eqb_refl; lia|]. destruct (Z.eqb _ _); lia. } lia. }
  rewrite El. cbn [obind]. eexists. split; [reflexivity|]. split; cbn [cs_names cs_dist cs_classes]; [auto|]. rewrite Ll. destruct known; [auto|]. rewrite !app_length. cbn. lia.
Qed.
Lemma rdata_row_class n front r fn s z : drow_good n r -> List.length fn = n -> cplain s -> snd r <> txt "-1" -> stoi (snd r) = Ok z ->
  exists fn' s', List.length fn' = n /\ cplain s' /\ rdata_row false (drow_text front r) 0 (repeat 0%Q n) (inject_Z y_default) fn s = Ok (features_of r, inject_Z z, fn', s').
Proof.
  intros (L & T & F) Lf Cp T1 St. destruct (process_trunc s (snd r) z Cp T T1 St) as (s' & Ep & Cp'). destruct front; cbn [drow_text].
  - destruct (rdata_features false (fst r) [] [] (repeat 0%Q n) [] fn (inject_Z z) s' F eq_refl) as (fn' & L' & E). rewrite repeat_length in E. specialize (E ltac:(lia) Lf).
    cbn [app List.length Z.of_nat] in E. rewrite L in *. rewrite !skipn_nil in E by (auto; apply repeat_length). rewrite !app_nil_r in E. exists fn', s'. split; [auto|]. split; [auto|]. cbn [rdata_row].
    rewrite (trim_id (snd r)) by (apply ntext_word; auto). cbv zeta. rewrite no_colon by auto. rewrite Ep. cbn [obind]. exact E.
  - destruct (rdata_features false (fst r) [snd r] [] (repeat 0%Q n) [] fn (inject_Z y_default) s F eq_refl) as (fn' & L' & E). rewrite repeat_length in E. specialize (E ltac:(lia) Lf).
    cbn [app List.length Z.of_nat] in E. rewrite L in *. rewrite !skipn_nil in E by (auto; apply repeat_length). rewrite !app_nil_r in E. exists fn', s'. split; [auto|]. split; [auto|]. rewrite E. cbn [rdata_row].
    rewrite (trim_id (snd r)) by (apply ntext_word; auto). cbv zeta. rewrite no_colon by auto. rewrite Ep. reflexivity.
Qed.
(** C146: with the labels at the front of the lines, or with a second label written without a point, the labels are cut to whole numbers, even when "Regression" is asked for. *)
Lemma c146_data_cut_refuted : forall (before front : bool) (n : nat) (r1 r2 : drow) (rows : list drow) (zs : list Z), Forall (drow_good n) (r1 :: r2 :: rows) ->
  (front = true /\ 0 < n) \/ (front = false /\ ~ In "."%char (snd r2)) -> Forall2 (fun r z => stoi (snd r) = Ok z /\ snd r <> txt "-1") (r1 :: r2 :: rows) zs ->
  exists rd, rload_data before no_classes (data_file front (r1 :: r2 :: rows)) = Ok (Some rd) /\ map fst (rd_points rd) = map features_of (r1 :: r2 :: rows) /\ map snd (rd_points rd) = map inject_Z zs.
Proof.
  intros before front n r1 r2 rows zs G Fr Z. unfold rload_data. rewrite (data_lines _ n) by auto. cbv zeta. inversion G as [|? ? G1 G']; subst. inversion G' as [|? ? G2 _]; subst.
  assert (data_regression before (map (fun r => join_with " " (drow_text front r)) (r1 :: r2 :: rows)) = false) as ->.
  { destruct Fr as [[-> Hn]|[-> Nd]]; [now apply (detect_front n)|]. rewrite (detect_last n) by auto. apply not_true_iff_false. now rewrite dotted_In. }
  set (all := r1 :: r2 :: rows) in *. assert (all <> []) as Na by discriminate. clearbody all. rewrite Forall_forall in G.
  rewrite map_map, (const_dims _ (Z.of_nat n)); [|intros r I; apply drow_dim; auto|auto]. destruct (Z.ltb_spec (Z.of_nat n) 0); [lia|]. rewrite Nat2Z.id.
  assert (forall l zs fn s, Forall2 (fun r z => stoi (snd r) = Ok z /\ snd r <> txt "-1") l zs -> (forall r, In r l -> drow_good n r) -> List.length fn = n -> cplain s ->
    exists pts fn' s', rdata_rows false n (map (fun r => join_with " " (drow_text front r)) l) fn s = Ok (pts, fn', s') /\ map fst pts = map features_of l /\ map snd pts = map inject_Z zs) as K.
  { clear. intros l zs fn s Z. revert fn s. induction Z as [|r z l zs [St T1] Z IH]; intros fn s H L Cp; [exists [], fn, s; auto|]. cbn [map rdata_rows]. rewrite pieces_join by (apply words_free, (drow_words _ n), H; now left).
    destruct (rdata_row_class n front r fn s z (H r (or_introl eq_refl)) L Cp T1 St) as (fn1 & s1 & L1 & Cp1 & ->). cbn [obind]. destruct (IH fn1 s1 (fun r I => H r (or_intror I)) L1 Cp1) as (pts & fn2 & s2 & -> & A & B). cbn [obind].
    do 3 eexists. split; [reflexivity|]. cbn [map fst snd]. split; congruence. }
  destruct (K all zs (iota 1 n) no_classes Z G (iota_length 1 n)) as (pts & fn' & s' & -> & A & B); [split; [intros []|reflexivity]|]. cbn [obind]. eexists. split; [reflexivity|]. auto.
Qed.
Lemma c146_data_cut_ex : Forall (drow_good 2) sample_data /\ Forall2 (fun r z => stoi (snd r) = Ok z /\ snd r <> txt "-1") sample_data [2; 7]%Z /\ map (fun r => atod (snd r)) sample_data = [25#10; 775#100]%Q.
Proof. split; [apply sample_data_good|]. split; [repeat constructor; cbn [snd]; try discriminate|vm_compute; reflexivity]. Qed.

(** C146: whatever was asked for and whatever the labels are, a .data file that was read is one of classification. *)
Lemma c146_type_refuted : forall (before : bool) (s0 : cstate) (file : str) (rd : rdata), rload_data before s0 file = Ok (Some rd) -> isClassification (rd_type rd) = true.
Proof.
  intros before s0 file rd E. unfold rload_data in E. cbv zeta in E. destruct (check_dims _ _) as [m|]; [|discriminate]. destruct (Z.ltb m 0); [discriminate|]. destruct (rdata_rows _ _ _ _ _) as [[[pts fn] s]| |]; try discriminate. cbn [obind] in E. injection E as <-. cbn [rd_type]. destruct (Nat.eqb _ 2); reflexivity.
Qed.
Lemma c146_type_ex : exists rd, rload_data true no_classes (data_file false sample_data) = Ok (Some rd).
Proof. eexists. vm_compute. reflexivity. Qed.

Lemma rdata_row_agrees : forall items k x y fn s, rdata_row false items k x (inject_Z y) fn s = (let* (x', y', fn', s') := data_row items k x y fn s in Ok (x', inject_Z y', fn', s')).
Proof.
  induction items as [|it items IH]; intros; cbn [rdata_row data_row]; [reflexivity|]. cbv zeta. destruct (existsb _ _).
  - destruct (data_item _ _ _ _ _) as [[[k' x'] fn']| |]; cbn [obind]; auto.
  - destruct (process_class _ _) as [[c s']| |]; cbn [obind]; auto.
Qed.
(** C146: when the first pass finds classes, the reader is the one of the model for classes (C76-C78). *)
Lemma c146_agrees : forall (before : bool) (d : data Q) (file : str), data_regression before (lines file) = false ->
  rload_data before (cstate_of d) file = (let* r := load_data d file in
    Ok (if snd r then Some (mkRd (map (fun p => (p_x p, inject_Z (p_y p))) (d_points (fst r))) (d_fnames (fst r)) (cstate_of (fst r))
          (if Nat.eqb (List.length (d_classes (fst r))) 2 then "BinClassification" else "MultiClassification")%string) else None)).
Proof.
  intros before d file R. unfold rload_data, load_data. cbv zeta. rewrite R.
  replace (map (fun l => (Z.of_nat (List.length (filter (fun p => match fst p with [] => false | _ => true end) (pieces " " [] l))) - 1)%Z) (lines file)) with (map data_dim (lines file)).
  2:{ apply map_ext. intro l. unfold data_dim, data_items. f_equal. f_equal. generalize (pieces " " [] l). induction l0 as [|[t e] l0 IH]; [reflexivity|]. cbn [map fst filter]. destruct t; cbn [List.length]; auto. }
  destruct (check_dims _ _) as [m|]; [|reflexivity]. destruct (Z.ltb m 0); [reflexivity|].
  assert (forall ls fn s id, rdata_rows false (Z.to_nat m) ls fn s = (let* (pts, fn', s') := data_rows (Z.to_nat m) ls id fn s in Ok (map (fun p => (p_x p, inject_Z (p_y p))) pts, fn', s'))) as K.
  { induction ls as [|l ls IH]; intros fn s id; [reflexivity|]. cbn [rdata_rows data_rows]. rewrite rdata_row_agrees. destruct (data_row _ _ _ _ _ _) as [[[[x y] fn1] s1]| |]; cbn [obind]; [|reflexivity|reflexivity].
    rewrite (IH fn1 s1 (id + 1)%Z). destruct (data_rows _ ls _ _ _) as [[[pts fn2] s2]| |]; reflexivity. }
  rewrite (K _ _ _ 1%Z). destruct (data_rows _ _ _ _ _) as [[[pts fn] s]| |]; cbn [obind fst snd]; [|reflexivity|reflexivity]. destruct s as [a b c]. reflexivity.
Qed.
Lemma c146_agrees_ex : data_regression true (lines (data_file true sample_data)) = false.
Proof. vm_compute. reflexivity. Qed.
