(** Lemmas about whole files. *)
From Coq Require Import ZArith QArith Ascii Bool String List Lia Sorting.Sorted.
From Verif Require Import Base ListLib M_Data S_Data L_Join L_Valid M_Str S_Str L_Str2 L_Str3 M_Load S_Load L_Load L_Load2.
Import ListNotations.
Local Open Scope nat_scope.

(** *** pieces *)
Lemma pieces_step c t : forall cur s, ~ In c t -> pieces c cur (t ++ c :: s) = (cur ++ t, false) :: pieces c [] s.
Proof.
  induction t as [|x t IH]; intros cur s H; cbn [app pieces].
  - now rewrite Ascii.eqb_refl, app_nil_r.
  - destruct (Ascii.eqb_spec x c) as [->|N]; [elim H; now left|]. rewrite IH by (intro; apply H; now right). now rewrite <- app_assoc.
Qed.
Lemma pieces_last c t : forall cur, ~ In c t -> cur ++ t <> [] -> pieces c cur t = [(cur ++ t, true)].
Proof.
  induction t as [|x t IH]; intros cur H N; cbn [pieces].
  - rewrite app_nil_r in *. destruct cur; [now elim N|reflexivity].
  - destruct (Ascii.eqb_spec x c) as [->|]; [elim H; now left|]. rewrite IH; rewrite <- ?app_assoc; auto. intro; apply H; now right.
Qed.
Lemma join_cons c t r : r <> [] -> join_with c (t :: r) = t ++ c :: join_with c r.
Proof. destruct r; [congruence|reflexivity]. Qed.
Lemma pieces_join c fs : Forall (fun t => t <> [] /\ ~ In c t) fs -> map fst (pieces c [] (join_with c fs)) = fs.
Proof.
  induction 1 as [|t r [N I] F IH]; [reflexivity|]. destruct r as [|u r].
  - cbn [join_with]. rewrite pieces_last by auto. reflexivity.
  - rewrite join_cons by discriminate. rewrite pieces_step by auto. cbn [map fst app]. now rewrite IH.
Qed.
Lemma trim_id s : Forall (fun c => ~ white c) s -> trim s = s.
Proof.
  intro F. apply (trimmed_unique s); [apply trim_spec|]. exists [], []. split; [now rewrite app_nil_r|]. split; [constructor|]. split; [constructor|]. split.
  - destruct F; [exact I|auto].
  - assert (Forall (fun c => ~ white c) (rev s)) as R by now apply Forall_rev. destruct R; [exact I|auto].
Qed.
Lemma lines_ok ls : Forall (fun l => ~ In newline l /\ trim l = l) ls -> lines (concat (map (fun l => l ++ [newline]) ls)) = ls.
Proof.
  unfold lines. induction 1 as [|l r [N T] F IH]; [reflexivity|]. cbn [map concat]. rewrite <- app_assoc. cbn [app].
  rewrite pieces_step by auto. cbn [map fst app]. now rewrite T, IH.
Qed.
Lemma join_Forall (P : ascii -> Prop) c fs : P c -> Forall (Forall P) fs -> Forall P (join_with c fs).
Proof.
  intros Hc F. induction F as [|t r H F IH]; [constructor|]. destruct r; [exact H|]. rewrite join_cons by discriminate.
  apply Forall_app. split; [auto|constructor; auto].
Qed.
Lemma check_dims_const counts m : forall l, Forall (eq m) counts -> l = m \/ l = 0%Z -> counts <> [] -> check_dims counts l = Some m.
Proof.
  induction counts as [|c r IH]; intros l F H N; [congruence|]. inversion F; subst. cbn [check_dims].
  replace (negb (Z.eqb l c) && negb (Z.eqb l 0)) with false.
  - destruct r; [reflexivity|]. apply IH; auto; discriminate.
  - symmetry. apply andb_false_iff. destruct H as [->| ->]; [left|right]; now rewrite Z.eqb_refl.
Qed.

(** *** one CSV line *)
Lemma csv_values items : forall k pre rest y s, map fst items = k -> Forall (fun t => is_number t = true) k -> List.length rest = List.length k ->
  csv_row false items (Z.of_nat (List.length pre)) (pre ++ rest) y s = Ok (pre ++ map atod k, y, s).
Proof.
  induction items as [|[t e] items IH]; intros k pre rest y s <- F L; cbn [map List.length] in *.
  - destruct rest; [|discriminate]. reflexivity.
  - destruct rest as [|q rest]; [discriminate|]. cbn [fst] in *. inversion F as [|? ? Ht F']; subst. cbn [csv_row].
    destruct (Z.eqb_spec (Z.of_nat (List.length pre)) (-1)); [lia|]. cbn [negb]. rewrite Ht.
    unfold zset. destruct (Z.ltb_spec (Z.of_nat (List.length pre)) 0); [lia|]. rewrite Nat2Z.id.
    assert (vupd (List.length pre) (fun _ => atod t) (pre ++ q :: rest) = Ok (pre ++ atod t :: rest)) as ->.
    { clear. unfold vupd. induction pre as [|a pre IH]; cbn; [reflexivity|]. destruct (upd _ _ _); [|discriminate]. now injection IH as ->. }
    cbn [obind]. replace (Z.of_nat (List.length pre) + 1)%Z with (Z.of_nat (List.length (pre ++ [atod t]))) by (rewrite app_length; cbn; lia).
    replace (pre ++ atod t :: rest) with ((pre ++ [atod t]) ++ rest) by now rewrite <- app_assoc.
    rewrite (IH _ _ _ y s eq_refl) by (auto; cbn in L; lia). now rewrite <- app_assoc.
Qed.
Definition fields (p : point decimal) (fs : list str) : Prop :=
  exists t ts, fs = t :: ts /\ numeral t (p_y p) /\ ts <> [] /\ Forall2 (fun v u => u <> [] /\ Forall numchar u /\ (atod u == dec_Q v)%Q) (p_x p) ts.
Lemma fields_numchar p fs : fields p fs -> Forall (fun t => t <> [] /\ Forall numchar t) fs.
Proof.
  intros (t & ts & -> & N & _ & F). constructor; [now apply numeral_chars in N|].
  induction F as [|v u ? ? (a & b & _) F IH]; constructor; auto.
Qed.
Lemma map_outcome_2 A B (f : A -> outcome B) l r : Forall2 (fun a b => f a = Ok b) l r -> map_outcome f l = Ok r.
Proof. induction 1 as [|a b l r E F IH]; cbn [map_outcome]; [auto|]. rewrite E. cbn [obind]. now rewrite IH. Qed.
Lemma fmt_all xs : Forall short xs -> exists ts, Forall2 (fun v u => fmt_g v = Ok u) xs ts /\ Forall2 (fun v u => u <> [] /\ Forall numchar u /\ (atod u == dec_Q v)%Q) xs ts.
Proof.
  induction 1 as [|v xs H F (ts & A & B)]; [exists []; auto|]. destruct (fmt_g_short v H) as (t & E & N & C & V). exists (t :: ts). split; constructor; auto.
Qed.
Lemma split_last A (l : list A) : l <> [] -> exists r z, l = r ++ [z].
Proof. intro N. destruct (exists_last N) as (r & z & E). eauto. Qed.
Lemma join_snoc c fs f : concat (map (fun t => t ++ [c]) fs) ++ f = join_with c (fs ++ [f]).
Proof.
  induction fs as [|t fs IH]; [reflexivity|]. cbn [map concat app]. rewrite <- !app_assoc. cbn [app]. rewrite IH.
  destruct (fs ++ [f]) eqn:E; [now destruct fs|]. now rewrite (join_cons c t (l :: l0)) by discriminate.
Qed.
Lemma Forall2_firstn_seq A B (f : nat -> outcome B) (xs : list A) (g : A -> outcome B) ts :
  Forall2 (fun v u => g v = Ok u) xs ts -> (forall i v, nth_error xs i = Some v -> f i = g v) ->
  Forall2 (fun i u => f i = Ok u) (seq 0 (List.length xs)) ts.
Proof.
  intros F H. assert (forall k, (forall i v, nth_error xs i = Some v -> f (k + i) = g v) -> Forall2 (fun i u => f i = Ok u) (seq k (List.length xs)) ts) as X; [|apply (X 0); auto].
  clear H. induction F as [|v u xs ts E F IH]; intros k H; cbn [List.length seq]; constructor.
  - rewrite <- E. specialize (H 0 v eq_refl). now rewrite Nat.add_0_r in H.
  - apply IH. intros i w Hw. rewrite <- (H (S i) w Hw). f_equal. lia.
Qed.
Lemma Forall2_snoc_l A B (R : A -> B -> Prop) l z r : Forall2 R (l ++ [z]) r -> exists r' w, r = r' ++ [w] /\ Forall2 R l r' /\ R z w.
Proof.
  intro F. apply Forall2_app_inv_l in F as (r' & t & F1 & F2 & ->). inversion F2 as [|? w ? ? Hw F3]; subst. inversion F3; subst. eauto.
Qed.
Lemma vget_app_l A (l r : list A) i v : nth_error l i = Some v -> vget (l ++ r) i = Ok v.
Proof. intro H. unfold vget. rewrite nth_error_app1 by (apply nth_error_Some; congruence). now rewrite H. Qed.
Lemma vget_snoc A (l : list A) z : vget (l ++ [z]) (List.length l) = Ok z.
Proof. unfold vget. rewrite nth_error_app2 by lia. now rewrite Nat.sub_diag. Qed.

Lemma csv_line_ok p : (Z.abs (p_y p) < 10 ^ 6)%Z -> Forall short (p_x p) -> p_x p <> [] ->
  exists fs, csv_line (List.length (p_x p)) p = Ok (join_with "," fs ++ [newline]) /\ fields p fs.
Proof.
  intros Y X N. destruct (fmt_label_ok _ Y) as (t & Et & Nt). destruct (fmt_all _ X) as (ts & F1 & F2).
  assert (ts <> []) as Nts by (intros ->; inversion F2; congruence).
  destruct (split_last _ _ N) as (xs & z & Ex).
  exists (t :: ts). split; [|exists t, ts; auto].
  unfold csv_line. rewrite Et. cbn [obind]. rewrite Ex, app_length. cbn [List.length]. rewrite Nat.add_1_r.
  rewrite Ex in F1. apply Forall2_snoc_l in F1 as (ts' & w & -> & F1 & Ew).
  rewrite (map_outcome_2 _ _ _ _ ts').
  - cbn [obind]. rewrite vget_snoc. cbn [obind]. rewrite Ew. cbn [obind]. f_equal. rewrite join_cons by auto. rewrite <- join_snoc.
    rewrite <- !app_assoc. cbn [app]. now rewrite <- !app_assoc.
  - eapply Forall2_firstn_seq; [exact F1|]. intros i v Hv. rewrite (vget_app_l _ _ _ _ _ Hv). reflexivity.
Qed.

Lemma numchar_not c : numchar c -> c <> ","%char /\ c <> newline /\ c <> " "%char /\ c <> ":"%char /\ c <> ";"%char.
Proof. intro H. vm_compute in H. repeat split; intros ->; vm_compute in H; intuition discriminate. Qed.
Lemma numchars_not s : Forall numchar s -> ~ In ","%char s /\ ~ In newline s /\ ~ In " "%char s /\ ~ In ":"%char s.
Proof. intro F. rewrite Forall_forall in F. repeat split; intro H; apply F, numchar_not in H; tauto. Qed.
Lemma same_length A B (R : A -> B -> Prop) l r : Forall2 R l r -> List.length l = List.length r.
Proof. induction 1; cbn; congruence. Qed.

Lemma csv_row_ok p fs s ls : fields p fs -> cinv s ls -> (Z.of_nat (List.length ls) < 2 ^ 63)%Z -> Forall2 named (cs_names s) (cs_classes s) ->
  int_ok (p_y p) = true -> (In (-1)%Z ls -> ~ In (p_y p) ls -> p_y p = 1%Z) ->
  exists x s', csv_row false (pieces "," [] (join_with "," fs)) (-1) (repeat 0%Q (List.length (p_x p))) y_default s = Ok (x, p_y p, s') /\
    Forall2 (fun v x => (x == dec_Q v)%Q) (p_x p) x /\ cinv s' (ls ++ [p_y p]) /\ Forall2 named (cs_names s') (cs_classes s').
Proof.
  intros H I B F J G. pose proof (fields_numchar p fs H) as C. destruct H as (t & ts & -> & N & _ & X).
  assert (map fst (pieces "," [] (join_with "," (t :: ts))) = t :: ts) as P.
  { apply pieces_join. eapply Forall_impl; [|exact C]. cbv beta. intros u [Nu Fu]. apply numchars_not in Fu. tauto. }
  destruct (pieces "," [] (join_with "," (t :: ts))) as [|[t' e] items]; [discriminate|]. cbn [map fst] in P. injection P as -> P.
  cbn [csv_row]. replace (negb (Z.eqb (-1) (-1))) with false by reflexivity. cbv iota.
  destruct (process_number s ls t (p_y p) I B F N J G) as (s' & -> & I' & F'). cbn [obind].
  change (-1 + 1)%Z with (Z.of_nat (List.length (@nil Q))).
  pose proof (csv_values items ts [] (repeat 0%Q (List.length (p_x p))) (p_y p) s' P) as V. cbn [app] in V. rewrite V; clear V.
  - exists (map atod ts), s'. split; [reflexivity|split; [|auto]]. clear - X. induction X as [|v u ? ? (_ & _ & E) ? IH]; cbn; constructor; auto.
  - inversion C as [|? ? _ C']; subst. eapply Forall_impl; [|exact C']. cbv beta. intros u [Nu Fu]. now apply is_number_chars.
  - rewrite repeat_length. eapply same_length; eauto.
Qed.
Lemma csv_rows_ok dm pts : forall fss s ls id, Forall2 fields pts fss -> Forall (fun p => List.length (p_x p) = dm) pts ->
  cinv s ls -> (Z.of_nat (List.length ls + List.length pts) < 2 ^ 63)%Z -> Forall2 named (cs_names s) (cs_classes s) ->
  Forall (fun p => int_ok (p_y p) = true) pts -> minus_one_ok (ls ++ map p_y pts) ->
  exists qs s', csv_rows false "," dm (map (join_with ",") fss) id s = Ok (qs, s') /\ Forall2 same_content pts qs /\
    map p_id qs = iota id (List.length pts) /\ cinv s' (ls ++ map p_y pts) /\ Forall2 named (cs_names s') (cs_classes s').
Proof.
  induction pts as [|p pts IH]; intros fss s ls id FF D I B F J M; inversion FF as [|? fs ? fss' Hf FF']; subst.
  - exists [], s. cbn. rewrite app_nil_r. split; [auto|split; [constructor|split; [auto|split; auto]]].
  - inversion D as [|? ? Dp D']; inversion J as [|? ? Jp J']; subst. cbn [map csv_rows List.length] in *.
    destruct (csv_row_ok p fs s ls Hf I ltac:(lia) F Jp) as (x & s1 & E & X & I1 & F1).
    { intros H1 H2. apply (M ls (p_y p) (map p_y pts)); auto. }
    rewrite E. cbn [obind].
    destruct (IH fss' s1 (ls ++ [p_y p]) (id + 1)%Z FF' D' I1) as (qs & s2 & E2 & C & Id & I2 & F2); auto.
    { rewrite app_length. cbn. lia. }
    { now rewrite <- app_assoc. }
    rewrite E2. cbn [obind fst snd]. eexists. exists s2. split; [reflexivity|]. rewrite <- app_assoc in I2. cbn [app] in I2.
    split; [constructor; [split; auto|auto]|]. split; [|auto]. cbn [map p_id]. rewrite Id. unfold iota. cbn [seq map]. f_equal; [lia|].
    rewrite <- seq_shift, map_map. apply map_ext. intro i. lia.
Qed.

Lemma join_white c fs : ~ white c -> Forall (Forall numchar) fs -> Forall (fun x => ~ white x) (join_with c fs).
Proof. intros W F. apply join_Forall; [auto|]. eapply Forall_impl; [|exact F]. intros t. apply nospace_numchar. Qed.
Lemma not_white_newline s : Forall (fun x => ~ white x) s -> ~ In newline s.
Proof. intros F H. rewrite Forall_forall in F. apply (F _ H). vm_compute. tauto. Qed.
Lemma write_ok pts (line : point decimal -> outcome str) n (R : point decimal -> str -> Prop) : n = List.length pts ->
  (forall p, In p pts -> exists t, line p = Ok (t ++ [newline]) /\ R p t) ->
  exists ts, (let* ls := map_outcome (fun i => let* p := vget pts i in line p) (seq 0 n) in Ok (concat ls)) = Ok (concat (map (fun l => l ++ [newline]) ts)) /\ Forall2 R pts ts.
Proof.
  intros -> H. assert (exists ts, Forall2 (fun p t => line p = Ok (t ++ [newline])) pts ts /\ Forall2 R pts ts) as (ts & F & G).
  { induction pts as [|p pts IH]; [exists []; auto|]. destruct (H p (or_introl eq_refl)) as (t & E & Rt).
    destruct IH as (ts & F & G); [intros; apply H; now right|]. exists (t :: ts). auto. }
  exists ts. split; [|auto]. rewrite (map_outcome_2 _ _ _ _ (map (fun l => l ++ [newline]) ts)); [reflexivity|].
  eapply Forall2_firstn_seq with (g := line).
  - clear - F. induction F; cbn; constructor; auto.
  - intros i v Hv. unfold vget. now rewrite Hv.
Qed.
Lemma delimiter_ok t s : Forall numchar t -> delimiter (t ++ ","%char :: s) = ","%char.
Proof.
  induction 1 as [|c t H F IH]; [reflexivity|]. cbn [app delimiter]. destruct (numchar_not c H) as (A & _ & _ & _ & B).
  destruct (Ascii.eqb_spec c ","); [tauto|]. destruct (Ascii.eqb_spec c ";"); tauto.
Qed.
Lemma int_ok_small y : (Z.abs y < 10 ^ 6)%Z -> int_ok y = true.
Proof. intro H. unfold int_ok. destruct int_bounds as [-> ->]. apply andb_true_iff. split; apply Z.leb_le; lia. Qed.
Lemma iota_length a n : List.length (iota a n) = n.
Proof. unfold iota. now rewrite map_length, seq_length. Qed.
Lemma iota_sorted n : forall a, StronglySorted Z.lt (iota a n).
Proof.
  unfold iota. intro a. assert (forall k, StronglySorted Z.lt (map (fun i => (a + Z.of_nat i)%Z) (seq k n))) as X; [|apply X].
  induction n; intro k; cbn [seq map]; constructor; auto. apply Forall_forall. intros z Hz. apply in_map_iff in Hz as (i & <- & Hi). apply in_seq in Hi. lia.
Qed.
Lemma same_labels pts qs : Forall2 same_content pts qs -> map p_y qs = map p_y pts.
Proof. induction 1 as [|p q ? ? [E _] F IH]; cbn; congruence. Qed.

Lemma loaded_ok d0 dm fn (pts : list (point decimal)) qs s : d_class d0 = true -> Forall2 same_content pts qs -> cinv s (map p_y pts) -> Forall2 named (cs_names s) (cs_classes s) ->
  Forall (fun p => List.length (p_x p) = dm) pts -> List.length fn = dm -> StronglySorted Z.lt fn -> (forall f, In f fn -> (0 < f)%Z) ->
  (pts = [] -> dm = 0) -> (Z.of_nat (List.length pts) < 2 ^ 63)%Z -> data_ok (loaded d0 dm fn qs s).
Proof.
  intros C0 SC [ND L I C] F D Lf Sf Pf E B. pose proof (same_length _ _ _ _ _ SC) as Ls. unfold loaded.
  constructor; cbn [d_size d_points d_cnames d_classes d_index d_dim d_fnames].
  - reflexivity.
  - constructor; cbn [d_class d_classes d_points d_dist]; auto.
    + intros p Hp. apply I. rewrite <- (same_labels _ _ SC). now apply in_map.
    + intros i c Hc. rewrite (C i c Hc). unfold label_count, labels. now rewrite (same_labels _ _ SC).
  - eapply same_length; eauto.
  - now rewrite iota_length.
  - rewrite Forall_forall in D. intros q Hq.
    assert (exists p, In p pts /\ same_content p q) as (p & Hp & _ & G).
    { clear - SC Hq. induction SC as [|p q' ? ? H SC IH]; [destruct Hq|]. destruct Hq as [->|Hq]; [exists p; split; [now left|auto]|].
      destruct (IH Hq) as (p' & A & B). exists p'. split; [now right|auto]. }
    rewrite <- (D p Hp). symmetry. eapply same_length; eauto.
  - exact Lf.
  - exact Sf.
  - exact Pf.
  - intros ->. apply E. destruct pts; [auto|discriminate].
  - now rewrite <- Ls.
Qed.

Lemma load_csv_eq atEnd d file ls deli dm : lines file = ls -> deli = (match ls with [] => ","%char | l :: _ => delimiter l end) ->
  check_dims (map (fun l => Z.of_nat (List.length (pieces deli [] l)) - 1)%Z ls) 0%Z = Some (Z.of_nat dm) ->
  load_csv atEnd d file = (let* r := csv_rows atEnd deli dm ls 1 (cstate_of d) in Ok (loaded d dm (iota 1 dm) (fst r) (snd r), true)).
Proof.
  intros <- -> C. unfold load_csv. cbv zeta. rewrite C. destruct (Z.ltb_spec (Z.of_nat dm) 0); [lia|]. now rewrite Nat2Z.id.
Qed.
Theorem csv_round_trip (d : data decimal) : data_ok d -> (forall p, In p (d_points d) -> p_x p <> [] /\ Forall short (p_x p) /\ (Z.abs (p_y p) < 10 ^ 6)%Z) ->
  minus_one_ok (labels (d_points d)) ->
  exists txt d', write_csv d = Ok txt /\ load_csv false fresh txt = Ok (d', true) /\ data_ok d' /\ Forall2 same_content (d_points d) (d_points d') /\
    d_dim d' = d_dim d /\ d_fnames d' = iota 1 (d_dim d) /\ map p_id (d_points d') = iota 1 (d_size d).
Proof.
  intros K H M. pose proof (ok_size d K) as Sz. pose proof (ok_dim d K) as Dm. pose proof (ok_cap d K) as Cap. pose proof (ok_empty d K) as Em.
  assert (forall p, In p (d_points d) -> dim d = List.length (p_x p)) as Dd.
  { intros p Hp. rewrite (Dm p Hp). unfold dim. destruct (d_points d) as [|q l]; [destruct Hp|]. apply Dm. now left. }
  destruct (write_ok (d_points d) (csv_line (dim d)) (d_size d) (fun p t => exists fs, t = join_with "," fs /\ fields p fs)) as (ts & W & F); [auto| |].
  { intros p Hp. destruct (H p Hp) as (N & X & Y). destruct (csv_line_ok p Y X N) as (fs & E & Hf). rewrite (Dd p Hp), E. eauto. }
  exists (concat (map (fun l => l ++ [newline]) ts)).
  assert (exists fss, ts = map (join_with ",") fss /\ Forall2 fields (d_points d) fss) as (fss & -> & FF).
  { clear - F. induction F as [|p t ? ? (fs & -> & Hf) F (fss & -> & FF)]; [exists []; auto|]. exists (fs :: fss). auto. }
  assert (Forall (fun fs => Forall (fun t => t <> [] /\ Forall numchar t) fs /\ List.length fs = S (d_dim d)) fss) as Cf.
  { clear - FF Dm. induction FF as [|p fs ? ? Hf FF IH]; constructor.
    - split; [now apply fields_numchar in Hf|]. destruct Hf as (t & ts & -> & _ & _ & X). apply same_length in X. cbn. rewrite <- X, (Dm p); auto. now left.
    - apply IH. intros q Hq. apply Dm. now right. }
  assert (lines (concat (map (fun l => l ++ [newline]) (map (join_with ",") fss))) = map (join_with ",") fss) as Ln.
  { apply lines_ok. apply Forall_map. eapply Forall_impl; [|exact Cf]. cbv beta. intros fs [C _].
    assert (Forall (fun x => ~ white x) (join_with "," fs)) as Wh.
    { apply join_white; [vm_compute; intuition discriminate|]. eapply Forall_impl; [|exact C]. cbv beta. tauto. }
    split; [now apply not_white_newline|now apply trim_id]. }
  destruct (csv_rows_ok (d_dim d) (d_points d) fss no_classes [] 1 FF) as (qs & s & E & SC & Id & I & Fn).
  { apply Forall_forall. exact Dm. } { exact cinv_empty. } { cbn; lia. } { constructor. }
  { apply Forall_forall. intros p Hp. apply int_ok_small, (H p Hp). } { exact M. }
  exists (loaded fresh (d_dim d) (iota 1 (d_dim d)) qs s). split; [exact W|]. split.
  - assert (match map (join_with ",") fss with [] => ","%char | l :: _ => delimiter l end = ","%char) as Dl.
    { destruct fss as [|fs fss]; [reflexivity|]. cbn [map]. inversion FF as [|p ? ? ? Hf _]; subst. destruct Hf as (t & us & -> & N & Nu & _).
      rewrite join_cons by auto. apply delimiter_ok. now apply numeral_chars in N. }
    assert (check_dims (map (fun l => (Z.of_nat (List.length (pieces "," [] l)) - 1)%Z) (map (join_with ",") fss)) 0 = Some (Z.of_nat (d_dim d))) as CD.
    { destruct fss as [|fs fss'].
      - inversion FF as [Q|]. rewrite Em by auto. reflexivity.
      - apply check_dims_const; [|auto|discriminate]. rewrite map_map. apply Forall_map. eapply Forall_impl; [|exact Cf]. cbv beta. intros gs [C Lg].
        rewrite <- (map_length fst (pieces "," [] (join_with "," gs))). rewrite pieces_join; [unfold str in *; lia|]. eapply Forall_impl; [|exact C]. cbv beta. intros u [Nu Fu]. apply numchars_not in Fu. tauto. }
    rewrite (load_csv_eq false fresh _ _ ","%char (d_dim d) Ln (eq_sym Dl) CD).
    change (cstate_of fresh) with no_classes. rewrite E. reflexivity.
  - split; [eapply loaded_ok; eauto; rewrite ?iota_length; auto using iota_sorted|].
    + apply Forall_forall. exact Dm.
    + intros f Hf. unfold iota in Hf. apply in_map_iff in Hf as (i & <- & _). lia.
    + cbn [loaded d_points d_dim d_fnames]. rewrite Sz. auto.
Qed.
