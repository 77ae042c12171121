(** Lemmas about .data files, word classes and arbitrary files. *)
From Coq Require Import ZArith QArith Ascii Bool String List Lia Sorting.Sorted.
From Verif Require Import Base ListLib M_Data S_Data L_Join L_Valid M_Str S_Str L_Str2 L_Str3 M_Load S_Load L_Load L_Load2 L_Load3.
Import ListNotations.
Local Open Scope nat_scope.

(** *** .data files *)
Lemma trim_id2 s : (match s with [] => True | c :: _ => ~ white c end) -> (match rev s with [] => True | c :: _ => ~ white c end) -> trim s = s.
Proof. intros A B. apply (trimmed_unique s); [apply trim_spec|]. exists [], []. split; [now rewrite app_nil_r|]. split; [constructor|]. split; [constructor|]. split; auto. Qed.
Definition ditem (f : Z) (v : decimal) (it : str) : Prop :=
  exists n t, it = n ++ ":"%char :: t /\ numeral n f /\ t <> [] /\ Forall numchar t /\ (atod t == dec_Q v)%Q.
Lemma vupd_mid A (pre : list A) a b rest : vupd (List.length pre) (fun _ => b) (pre ++ a :: rest) = Ok (pre ++ b :: rest).
Proof. unfold vupd. induction pre as [|x pre IH]; cbn; [reflexivity|]. destruct (upd _ _ _); [|discriminate]. now injection IH as ->. Qed.
Lemma no_cr s : Forall numchar s -> filter (fun c => negb (Ascii.eqb c (ascii_of_nat 13))) s = s.
Proof.
  intro F. apply filter_id. eapply Forall_impl; [|exact F]. cbv beta. intros c H. destruct (Ascii.eqb_spec c (ascii_of_nat 13)) as [->|]; [|reflexivity].
  vm_compute in H. intuition discriminate.
Qed.
Lemma ditem_chars f v it : ditem f v it -> it <> [] /\ Forall (fun c => ~ white c) it /\ In ":"%char it.
Proof.
  intros (n & t & -> & N & Nt & F & _). apply numeral_chars in N as [_ Fn]. split; [now destruct n|]. split.
  - apply Forall_app. split; [now apply nospace_numchar|]. constructor; [vm_compute; intuition discriminate|now apply nospace_numchar].
  - apply in_or_app. right. now left.
Qed.
Lemma data_item_ok f v it px x0 rx pf f0 rf : ditem f v it -> (- int_max <= f <= int_max)%Z -> List.length pf = List.length px ->
  exists q, (q == dec_Q v)%Q /\ data_item (pieces ":" [] it) false (Z.of_nat (List.length px)) (px ++ x0 :: rx) (pf ++ f0 :: rf) =
    Ok ((Z.of_nat (List.length px) + 1)%Z, px ++ q :: rx, pf ++ f :: rf).
Proof.
  intros (n & t & -> & N & Nt & F & V) B L. exists (atod t). split; [auto|]. destruct (numeral_chars n f N) as [_ Fn].
  rewrite pieces_step by (apply numchars_not in Fn; tauto). cbn [app].
  rewrite pieces_last by (auto; apply numchars_not in F; tauto). cbn [app data_item].
  rewrite !no_cr by auto. rewrite (stoin_ok n f N B). cbn [obind].
  unfold zset. destruct (Z.ltb_spec (Z.of_nat (List.length px)) 0); [lia|]. rewrite Nat2Z.id. rewrite <- L at 1. rewrite vupd_mid. cbn [obind].
  rewrite (is_number_chars t) by auto. rewrite vupd_mid. reflexivity.
Qed.
Lemma data_items_ok fs : forall xs its px rx pf rf y s, Forall2 (fun fv it => ditem (fst fv) (snd fv) it) (combine fs xs) its -> List.length xs = List.length fs ->
  Forall (fun f => (- int_max <= f <= int_max)%Z) fs -> List.length pf = List.length px -> List.length rx = List.length fs -> List.length rf = List.length fs ->
  exists qs, Forall2 (fun v q => (q == dec_Q v)%Q) xs qs /\
    data_row its (Z.of_nat (List.length px)) (px ++ rx) y (pf ++ rf) s = Ok (px ++ qs, y, pf ++ fs, s).
Proof.
  induction fs as [|f fs IH]; intros xs its px rx pf rf y s F Lx B Lp Lrx Lrf.
  - destruct xs; [|discriminate]. destruct rx; [|discriminate]. destruct rf; [|discriminate]. cbn [combine] in F. inversion F; subst. exists []. split; [constructor|reflexivity].
  - destruct xs as [|v xs]; [discriminate|]. destruct rx as [|x0 rx]; [discriminate|]. destruct rf as [|f0 rf]; [discriminate|].
    cbn [combine] in F. inversion F as [|? it ? its' H F']; subst. cbn [fst snd] in H. inversion B as [|? ? Bf B']; subst.
    cbn [data_row]. destruct (ditem_chars _ _ _ H) as (_ & W & C). rewrite (trim_id it W). cbv zeta.
    replace (existsb (Ascii.eqb ":") it) with true by (symmetry; apply existsb_exists; exists ":"%char; split; [auto|reflexivity]).
    destruct (data_item_ok f v it px x0 rx pf f0 rf H Bf Lp) as (q & Q & E). rewrite E. cbn [obind].
    replace (Z.of_nat (List.length px) + 1)%Z with (Z.of_nat (List.length (px ++ [q]))) by (rewrite app_length; cbn; lia).
    replace (px ++ q :: rx) with ((px ++ [q]) ++ rx) by now rewrite <- app_assoc. replace (pf ++ f :: rf) with ((pf ++ [f]) ++ rf) by now rewrite <- app_assoc.
    destruct (IH xs its' (px ++ [q]) rx (pf ++ [f]) rf y s F') as (qs & A & E2); auto; try (rewrite ?app_length; cbn in *; lia).
    exists (q :: qs). split; [constructor; auto|]. rewrite E2. now rewrite <- !app_assoc.
Qed.
Definition dfields (fn : list Z) (p : point decimal) (fs : list str) : Prop :=
  exists t its, fs = t :: its /\ numeral t (p_y p) /\ its <> [] /\ Forall2 (fun fv it => ditem (fst fv) (snd fv) it) (combine fn (p_x p)) its.
Lemma data_row_ok fn p fs s ls fn0 : dfields fn p fs -> List.length (p_x p) = List.length fn -> List.length fn0 = List.length fn ->
  Forall (fun f => (- int_max <= f <= int_max)%Z) fn -> cinv s ls -> (Z.of_nat (List.length ls) < 2 ^ 63)%Z -> Forall2 named (cs_names s) (cs_classes s) ->
  int_ok (p_y p) = true -> (In (-1)%Z ls -> ~ In (p_y p) ls -> p_y p = 1%Z) ->
  exists x s', data_row fs 0 (repeat 0%Q (List.length fn)) y_default fn0 s = Ok (x, p_y p, fn, s') /\
    Forall2 (fun v x => (x == dec_Q v)%Q) (p_x p) x /\ cinv s' (ls ++ [p_y p]) /\ Forall2 named (cs_names s') (cs_classes s').
Proof.
  intros (t & its & -> & N & _ & F) Lx L0 Bf I B Nm J G. destruct (numeral_chars t _ N) as [Nt Ft].
  cbn [data_row]. rewrite (trim_id t) by now apply nospace_numchar. cbv zeta.
  replace (existsb (Ascii.eqb ":") t) with false.
  2:{ symmetry. apply not_true_iff_false. intro X. apply existsb_exists in X as (c & Hc & E). apply Ascii.eqb_eq in E. subst c. apply numchars_not in Ft. tauto. }
  destruct (process_number s ls t (p_y p) I B Nm N J G) as (s' & -> & I' & F'). cbn [obind].
  destruct (data_items_ok fn (p_x p) its [] (repeat 0%Q (List.length fn)) [] fn0 (p_y p) s' F) as (qs & Q & E); auto; [now rewrite repeat_length|].
  cbn [app List.length Z.of_nat] in E. rewrite E. exists qs, s'. auto.
Qed.
Lemma dfields_chars fn p fs : dfields fn p fs -> Forall (fun t => t <> [] /\ Forall (fun c => ~ white c) t) fs /\ fs <> [].
Proof.
  intros (t & its & -> & N & _ & F). split; [|discriminate]. constructor.
  - apply numeral_chars in N as [A C]. split; [auto|now apply nospace_numchar].
  - induction F as [|a it ? ? H F IH]; constructor; auto. apply ditem_chars in H. tauto.
Qed.
Lemma data_rows_ok fn pts : forall fss s ls id fn0, Forall2 (dfields fn) pts fss -> Forall (fun p => List.length (p_x p) = List.length fn) pts ->
  List.length fn0 = List.length fn -> (pts = [] -> fn0 = fn) -> Forall (fun f => (- int_max <= f <= int_max)%Z) fn ->
  cinv s ls -> (Z.of_nat (List.length ls + List.length pts) < 2 ^ 63)%Z -> Forall2 named (cs_names s) (cs_classes s) ->
  Forall (fun p => int_ok (p_y p) = true) pts -> minus_one_ok (ls ++ map p_y pts) ->
  exists qs s', data_rows (List.length fn) (map (join_with " ") fss) id fn0 s = Ok (qs, fn, s') /\ Forall2 same_content pts qs /\
    map p_id qs = iota id (List.length pts) /\ cinv s' (ls ++ map p_y pts) /\ Forall2 named (cs_names s') (cs_classes s').
Proof.
  induction pts as [|p pts IH]; intros fss s ls id fn0 FF D L0 E0 Bf I B F J M; inversion FF as [|? fs ? fss' Hf FF']; subst.
  - exists [], s. cbn. rewrite app_nil_r. rewrite E0 by auto. split; [auto|split; [constructor|split; [auto|split; auto]]].
  - inversion D as [|? ? Dp D']; inversion J as [|? ? Jp J']; subst. cbn [map data_rows List.length] in *.
    rewrite pieces_join.
    2:{ apply dfields_chars in Hf as [C _]. eapply Forall_impl; [|exact C]. cbv beta. intros u [Nu Fu]. split; [auto|]. intro X.
        rewrite Forall_forall in Fu. apply (Fu _ X). vm_compute. tauto. }
    destruct (data_row_ok fn p fs s ls fn0 Hf Dp L0 Bf I ltac:(lia) F Jp) as (x & s1 & E & X & I1 & F1).
    { intros H1 H2. apply (M ls (p_y p) (map p_y pts)); auto. }
    rewrite E. cbn [obind].
    destruct (IH fss' s1 (ls ++ [p_y p]) (id + 1)%Z fn FF' D' eq_refl) as (qs & s2 & E2 & C & Id & I2 & F2); auto.
    { rewrite app_length. cbn. lia. }
    { now rewrite <- app_assoc. }
    rewrite E2. cbn [obind]. eexists. exists s2. split; [reflexivity|]. rewrite <- app_assoc in I2. cbn [app] in I2.
    split; [constructor; [split; auto|auto]|]. split; [|auto]. cbn [map p_id]. rewrite Id. unfold iota. cbn [seq map]. f_equal; [lia|].
    rewrite <- seq_shift, map_map. apply map_ext. intro i. lia.
Qed.
Lemma data_line_ok fn p : List.length (p_x p) = List.length fn -> (Z.abs (p_y p) < 10 ^ 6)%Z -> Forall short (p_x p) -> p_x p <> [] ->
  exists fs, data_line (List.length (p_x p)) fn p = Ok (join_with " " fs ++ [newline]) /\ dfields fn p fs.
Proof.
  intros Lf Y X N. destruct (fmt_label_ok _ Y) as (t & Et & Nt).
  set (g := fun fv : Z * decimal => let* n := fmt_int (fst fv) in let* t := fmt_g (snd fv) in Ok (n ++ ":"%char :: t)).
  assert (exists its, Forall2 (fun fv it => g fv = Ok it) (combine fn (p_x p)) its /\ Forall2 (fun fv it => ditem (fst fv) (snd fv) it) (combine fn (p_x p)) its) as (its & F1 & F2).
  { clear - X. revert fn. induction X as [|v xs H X IH]; intro fn; [destruct fn; exists []; split; constructor|].
    destruct fn as [|f fn]; [exists []; split; constructor|]. destruct (IH fn) as (its & A & B). destruct (fmt_int_ok f) as (n & En & Nn). destruct (fmt_g_short v H) as (u & Eu & Nu & Cu & Vu).
    exists ((n ++ ":"%char :: u) :: its). cbn [combine]. split; constructor; auto.
    - unfold g. cbn [fst snd]. rewrite En. cbn [obind]. now rewrite Eu.
    - exists n, u. auto. }
  assert (List.length (combine fn (p_x p)) = List.length (p_x p)) as Lc by (rewrite combine_length; lia).
  assert (combine fn (p_x p) <> []) as Nc by (intro Q; rewrite Q in Lc; destruct (p_x p); [congruence|discriminate]).
  assert (its <> []) as Ni by (intros ->; inversion F2; congruence).
  exists (t :: its). split; [|exists t, its; auto].
  destruct (split_last _ _ Nc) as (cs & z & Ec).
  unfold data_line. rewrite Et. cbn [obind]. rewrite <- Lc at 1. 
  assert (forall i fv, nth_error (combine fn (p_x p)) i = Some fv -> vget fn i = Ok (fst fv) /\ vget (p_x p) i = Ok (snd fv)) as G.
  { clear. generalize (p_x p). induction fn as [|f fn IH]; intros xs i fv H; [destruct i; discriminate|]. destruct xs as [|v xs]; [destruct i; discriminate|].
    destruct i; cbn in H; [injection H as <-; split; reflexivity|]. exact (IH xs i fv H). }
  rewrite Ec, app_length. cbn [List.length]. rewrite Nat.add_1_r.
  rewrite Ec in F1, G. apply Forall2_snoc_l in F1 as (its' & w & -> & F1 & Ew).
  rewrite (map_outcome_2 _ _ _ _ its').
  - cbn [obind]. destruct (G (List.length cs) z) as [-> ->]; [rewrite nth_error_app2, Nat.sub_diag; auto|]. cbn [obind].
    unfold g in Ew. destruct (fmt_int (fst z)); [|discriminate|discriminate]. cbn [obind] in Ew |- *. destruct (fmt_g (snd z)); [|discriminate|discriminate]. cbn [obind] in Ew |- *.
    injection Ew as Ew. rewrite Ew.
    f_equal. rewrite join_cons by auto. rewrite <- join_snoc. rewrite <- !app_assoc. cbn [app]. now rewrite <- !app_assoc.
  - eapply Forall2_firstn_seq; [exact F1|]. intros i v Hv. destruct (G i v) as [-> ->]; [|reflexivity].
    rewrite nth_error_app1; auto. apply nth_error_Some. congruence.
Qed.
Lemma rev_join_first c fs : Forall (fun t => t <> [] /\ Forall (fun x => ~ white x) t) fs -> match rev (join_with c fs) with [] => True | x :: _ => ~ white x end.
Proof.
  intro F. destruct fs as [|t r]; [exact I|]. destruct (split_last _ (t :: r)) as (l & z & E); [discriminate|]. rewrite E in *. clear E t r.
  apply Forall_app in F as [_ F]. inversion F as [|? ? [N W] _]; subst. rewrite <- join_snoc, rev_app_distr.
  assert (Forall (fun x => ~ white x) (rev z)) as R by now apply Forall_rev. destruct (rev z) as [|x u] eqn:E; cbn [app].
  - elim N. rewrite <- (rev_involutive z), E. reflexivity.
  - now inversion R.
Qed.
Lemma load_data_eq d file ls dm : lines file = ls ->
  check_dims (map (fun l => Z.of_nat (List.length (filter (fun p => match fst p with [] => false | _ => true end) (pieces " " [] l))) - 1)%Z ls) 0%Z = Some (Z.of_nat dm) ->
  load_data d file = (let* (pts, fn, s) := data_rows dm ls 1 (iota 1 dm) (cstate_of d) in Ok (loaded d dm fn pts s, true)).
Proof. intros <- C. unfold load_data. cbv zeta. rewrite C. destruct (Z.ltb_spec (Z.of_nat dm) 0); [lia|]. now rewrite Nat2Z.id. Qed.
Lemma filter_fst_id (l : list (str * bool)) : Forall (fun t => t <> []) (map fst l) -> filter (fun p => match fst p with [] => false | _ => true end) l = l.
Proof. induction l as [|[t e] l IH]; cbn [map filter fst]; [auto|]. intro F. inversion F; subst. destruct t; [congruence|]. now rewrite IH. Qed.

Theorem data_round_trip (d : data decimal) : data_ok d -> (forall p, In p (d_points d) -> p_x p <> [] /\ Forall short (p_x p) /\ (Z.abs (p_y p) < 10 ^ 6)%Z) ->
  (forall f, In f (d_fnames d) -> (f <= int_max)%Z) -> minus_one_ok (labels (d_points d)) ->
  exists txt d', write_data d = Ok txt /\ load_data fresh txt = Ok (d', true) /\ data_ok d' /\ Forall2 same_content (d_points d) (d_points d') /\
    d_dim d' = d_dim d /\ d_fnames d' = d_fnames d /\ map p_id (d_points d') = iota 1 (d_size d).
Proof.
  intros K H Hf M. pose proof (ok_size d K) as Sz. pose proof (ok_dim d K) as Dm. pose proof (ok_cap d K) as Cap. pose proof (ok_empty d K) as Em.
  pose proof (ok_fnames d K) as Lf. pose proof (ok_fpos d K) as Pf.
  assert (forall p, In p (d_points d) -> dim d = List.length (p_x p)) as Dd.
  { intros p Hp. rewrite (Dm p Hp). unfold dim. destruct (d_points d) as [|q l]; [destruct Hp|]. apply Dm. now left. }
  destruct (write_ok (d_points d) (data_line (dim d) (d_fnames d)) (d_size d) (fun p t => exists fs, t = join_with " " fs /\ dfields (d_fnames d) p fs)) as (ts & W & F); [auto| |].
  { intros p Hp. destruct (H p Hp) as (N & X & Y). destruct (data_line_ok (d_fnames d) p) as (fs & E & Hfs); auto; [rewrite Lf; auto|]. rewrite (Dd p Hp), E. eauto. }
  exists (concat (map (fun l => l ++ [newline]) ts)).
  assert (exists fss, ts = map (join_with " ") fss /\ Forall2 (dfields (d_fnames d)) (d_points d) fss) as (fss & -> & FF).
  { clear - F. induction F as [|p t ? ? (fs & -> & Hf) F (fss & -> & FF)]; [exists []; auto|]. exists (fs :: fss). auto. }
  assert (Forall (fun fs => Forall (fun t => t <> [] /\ Forall (fun c => ~ white c) t) fs /\ fs <> [] /\ List.length fs = S (d_dim d)) fss) as Cf.
  { clear - FF Dm Lf. induction FF as [|p fs ? ? Hf FF IH]; constructor.
    - pose proof (dfields_chars _ _ _ Hf) as [A B]. split; [exact A|split; [exact B|]]. destruct Hf as (t & ts & -> & _ & _ & X). apply same_length in X. cbn.
      rewrite combine_length, Lf, (Dm p (or_introl eq_refl)) in X. unfold str in *. lia.
    - apply IH. intros q Hq. apply Dm. now right. }
  assert (Forall (fun fs : list str => map fst (pieces " " [] (join_with " " fs)) = fs) fss) as Pj.
  { eapply Forall_impl; [|exact Cf]. cbv beta. intros fs (C & _ & _). apply pieces_join. eapply Forall_impl; [|exact C]. cbv beta. intros u [Nu Fu]. split; [auto|].
    intro X. rewrite Forall_forall in Fu. apply (Fu _ X). vm_compute. tauto. }
  assert (lines (concat (map (fun l => l ++ [newline]) (map (join_with " ") fss))) = map (join_with " ") fss) as Ln.
  { apply lines_ok. apply Forall_map. eapply Forall_impl; [|exact Cf]. cbv beta. intros fs (C & Nf & _). split.
    - intro X. assert (Forall (fun c => c <> newline) (join_with " " fs)) as Y.
      { apply join_Forall; [vm_compute; discriminate|]. eapply Forall_impl; [|exact C]. cbv beta. intros u [_ Fu]. eapply Forall_impl; [|exact Fu].
        cbv beta. intros c Hc ->. apply Hc. vm_compute. tauto. }
      rewrite Forall_forall in Y. now apply (Y _ X).
    - apply trim_id2; [|now apply rev_join_first]. destruct fs as [|t r]; [congruence|]. inversion C as [|? ? [Nt Ft] _]; subst.
      destruct t as [|c t]; [congruence|]. inversion Ft; subst. destruct r; cbn [join_with app]; auto. }
  destruct (data_rows_ok (d_fnames d) (d_points d) fss no_classes [] 1 (iota 1 (List.length (d_fnames d))) FF) as (qs & s & E & SC & Id & I & Fn).
  { apply Forall_forall. rewrite Lf. exact Dm. } { apply iota_length. }
  { intro Q. specialize (Em Q). rewrite <- Lf in Em. destruct (d_fnames d); [reflexivity|discriminate]. }
  { apply Forall_forall. intros f Hff. specialize (Hf f Hff). specialize (Pf f Hff). lia. }
  { exact cinv_empty. } { cbn; lia. } { constructor. }
  { apply Forall_forall. intros p Hp. apply int_ok_small, (H p Hp). } { exact M. }
  exists (loaded fresh (d_dim d) (d_fnames d) qs s). split; [exact W|]. split.
  - assert (check_dims (map (fun l => Z.of_nat (List.length (filter (fun p => match fst p with [] => false | _ => true end) (pieces " " [] l))) - 1)%Z (map (join_with " ") fss)) 0 = Some (Z.of_nat (d_dim d))) as CD.
    { destruct fss as [|fs fss'].
      - inversion FF as [Q|]. rewrite Em by auto. reflexivity.
      - apply check_dims_const; [|auto|discriminate]. rewrite map_map. apply Forall_map. rewrite Forall_forall in Cf, Pj |- *. intros gs Hg.
        destruct (Cf gs Hg) as (C & _ & Lg). specialize (Pj gs Hg). rewrite filter_fst_id.
        + apply (f_equal (@List.length _)) in Pj. rewrite map_length in Pj. unfold str in *. lia.
        + rewrite Pj. eapply Forall_impl; [|exact C]. cbv beta. tauto. }
    rewrite (load_data_eq fresh _ _ (d_dim d) Ln CD).
    change (cstate_of fresh) with no_classes. rewrite <- Lf. rewrite E. reflexivity.
  - split; [eapply loaded_ok; eauto; rewrite ?iota_length; auto using iota_sorted|].
    + apply Forall_forall. exact Dm.
    + apply (ok_sorted d K).
    + cbn [loaded d_points d_dim d_fnames]. rewrite Sz. auto.
Qed.
