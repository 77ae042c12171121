(** Feature removal / selection lemmas. *)
From Coq Require Import ZArith Bool String Sorted Permutation Lia List.
From Verif Require Import Base ListLib M_Data S_Data L_Data L_Insert.
Import ListNotations.
Open Scope Z_scope.

Section D.
Context {T : Type}.
Implicit Types d : data T.
Implicit Types p q : point T.

Lemma feat_exists_spec f fn : (forall g, In g fn -> 0 < g) -> feat_exists f (length fn) fn = Ok (memZ f fn).
Proof.
  induction fn as [|g fn IH]; intro Hp; simpl; auto.
  assert (feat_exists f (length fn) fn = Ok (memZ f fn)) as E by (apply IH; intros; apply Hp; right; auto).
  destruct (Z.ltb_spec (-1) f).
  - destruct (Z.eqb_spec f g); simpl; auto.
  - rewrite E. f_equal. unfold memZ. simpl. destruct (Z.eqb_spec f g); auto.
    specialize (Hp g (or_introl eq_refl)). lia.
Qed.

Lemma exist_flags_spec feats fn : (forall g, In g fn -> 0 < g) ->
  exist_flags feats (length fn) fn = Ok (map (fun f => (f, memZ f fn)) feats).
Proof.
  intro Hp. induction feats as [|f r IH]; simpl; auto. rewrite feat_exists_spec by auto. cbn [obind]. rewrite IH. auto.
Qed.

Definition existing (fs : list (Z * bool)) : list Z := map fst (filter snd fs).

Lemma skip_absent_spec fs :
  match skip_absent fs with
  | [] => existing fs = []
  | (f, b) :: r => b = true /\ existing fs = f :: existing r
  end.
Proof.
  induction fs as [|[f b] r IH]; simpl; auto. destruct b; simpl; auto.
Qed.

Lemma keep_all keep (names : list Z) (xs : list T) :
  length names = length xs -> (forall n, In n names -> keep n = true) -> keep_features keep names xs = xs.
Proof.
  unfold keep_features. revert xs. induction names as [|n names IH]; intros [|x xs] L H; simpl in *; try discriminate; auto.
  rewrite H by auto. simpl. f_equal. apply IH; auto.
Qed.

Lemma rf_point_spec (fn : list Z) : forall fs (xs : list T),
  StronglySorted Z.lt fn -> StronglySorted Z.lt (existing fs) -> (forall f, In f (existing fs) -> In f fn) ->
  length fn = length xs ->
  rf_point fs fn xs = Ok (keep_features (fun n => negb (memZ n (existing fs))) fn xs).
Proof.
  induction fn as [|g fn IH]; intros fs [|x xs] Hf He Hi L; simpl in L; try discriminate; auto.
  cbn [rf_point]. pose proof (skip_absent_spec fs) as Hs. destruct (skip_absent fs) as [|[f b] r].
  - rewrite Hs. rewrite keep_all; auto.
  - destruct Hs as (-> & Hs). rewrite Hs in *. inversion Hf as [|? ? Hf1 Hf2]; subst.
    inversion He as [|? ? He1 He2]; subst. rewrite Forall_forall in Hf2, He2.
    unfold keep_features. cbn [combine filter fst].
    destruct (Z.eqb_spec g f) as [->|N].
    + assert (memZ f (f :: existing r) = true) as Mf by (apply memZ_In; left; auto).
      cbn [fst snd]. rewrite Mf. cbn [negb]. 
      rewrite IH; auto.
      * unfold keep_features. f_equal. f_equal. apply filter_ext_in. intros [n y] Hn. simpl.
        apply in_combine_l in Hn. specialize (Hf2 _ Hn). unfold memZ at 2. simpl. destruct (Z.eqb_spec n f); [lia|]. auto.
      * intros h Hh. specialize (He2 _ Hh). destruct (Hi h) as [->|?]; auto; [right; auto|lia].
    + assert (In f fn) as If by (destruct (Hi f) as [->|?]; auto; [left; auto|congruence]).
      specialize (Hf2 _ If).
      assert (negb (memZ g (f :: existing r)) = true) as ->.
      { apply negb_true_iff, memZ_notIn. intros [->|H]; [congruence|]. specialize (He2 _ H). lia. }
      assert (rf_point ((f, true) :: r) fn xs = Ok (keep_features (fun n => negb (memZ n (f :: existing r))) fn xs)) as E.
      { rewrite IH; auto; unfold existing; simpl; auto.
        intros h Hh. destruct (Hi h Hh) as [->|?]; auto. destruct Hh as [<-|Hh]; [lia|]. specialize (He2 _ Hh). lia. }
      rewrite E. reflexivity.
Qed.

Lemma remove_first_spec f fn : NoDup fn ->
  remove_first f fn = if memZ f fn then Some (filter (fun g => negb (Z.eqb g f)) fn) else None.
Proof.
  induction fn as [|g fn IH]; intro ND; simpl; auto. inversion ND as [|? ? NI ND']; subst.
  unfold memZ. simpl. rewrite (Z.eqb_sym f g). destruct (Z.eqb_spec g f) as [->|N]; simpl.
  - f_equal. symmetry. apply filter_all. intros x Hx. destruct (Z.eqb_spec x f); subst; auto; contradiction.
  - rewrite IH by auto. unfold memZ. destruct (existsb (Z.eqb f) fn); auto.
Qed.

Lemma rf_names_spec feats : forall fn dm, NoDup fn -> dm = length fn ->
  rf_names feats fn dm = (filter (fun g => negb (memZ g feats)) fn, length (filter (fun g => negb (memZ g feats)) fn)).
Proof.
  induction feats as [|f r IH]; intros fn dm ND E; simpl.
  - rewrite filter_all by auto. subst; auto.
  - rewrite remove_first_spec by auto. destruct (memZ f fn) eqn:M.
    + rewrite IH.
      * rewrite filter_filter.
        assert (filter (fun x => negb (memZ x r) && negb (Z.eqb x f)) fn = filter (fun g => negb (memZ g (f :: r))) fn) as ->; auto.
        apply filter_ext. intro x. unfold memZ. simpl. destruct (Z.eqb x f); simpl; rewrite ?andb_true_r, ?andb_false_r; auto.
      * apply NoDup_filter; auto.
      * subst. clear IH. induction fn as [|g fn IH]; [discriminate|]. simpl.
        inversion ND as [|? ? NI ND']; subst. unfold memZ in M. simpl in M.
        rewrite (Z.eqb_sym f g) in M. destruct (Z.eqb_spec g f) as [->|N]; simpl in *.
        -- rewrite filter_all; [lia|]. intros x Hx. destruct (Z.eqb_spec x f); subst; auto; contradiction.
        -- specialize (IH ND' M). rewrite <- IH. destruct fn; [discriminate|]. simpl. lia.
    + rewrite IH; auto.
      assert (filter (fun g => negb (memZ g r)) fn = filter (fun g => negb (memZ g (f :: r))) fn) as ->; auto.
      apply filter_ext_in. intros x Hx. unfold memZ. simpl. destruct (Z.eqb_spec x f); auto.
      subst. apply memZ_notIn in M. contradiction.
Qed.

Lemma map_outcome_Ok {A B} (f : A -> outcome B) (g : A -> B) l :
  (forall x, In x l -> f x = Ok (g x)) -> map_outcome f l = Ok (map g l).
Proof.
  induction l as [|x l IH]; intro H; simpl; auto. rewrite H by (left; auto). cbn [obind].
  rewrite IH by (intros; apply H; right; auto). auto.
Qed.

Lemma keep_features_ext keep1 keep2 (names : list Z) (xs : list T) :
  (forall n, In n names -> keep1 n = keep2 n) -> keep_features keep1 names xs = keep_features keep2 names xs.
Proof.
  intro H. unfold keep_features. f_equal. apply filter_ext_in. intros [n x] Hn. simpl. apply H.
  eapply in_combine_l; eauto.
Qed.

Lemma keep_features_length keep (names : list Z) (xs : list T) :
  length names = length xs -> length (keep_features keep names xs) = length (filter keep names).
Proof.
  unfold keep_features. rewrite map_length. revert xs. induction names as [|n names IH]; intros [|x xs] L; simpl in *; try discriminate; auto.
  destruct (keep n); simpl; auto.
Qed.

Definition project (keep : Z -> bool) (names : list Z) (q : point T) : point T :=
  mkPoint (keep_features keep names (p_x q)) (p_y q) (p_id q) (p_alpha q).

Lemma StronglySorted_filter (f : Z -> bool) l : StronglySorted Z.lt l -> StronglySorted Z.lt (filter f l).
Proof.
  induction 1 as [|a l Hs IH Hf]; simpl; [constructor|]. destruct (f a); auto. constructor; auto.
  rewrite Forall_forall in *. intros x Hx. apply filter_In in Hx. apply Hf. tauto.
Qed.

Lemma removeFeatures_spec d feats :
  data_ok d -> feats <> [] -> length (d_fnames d) <> 1%nat ->
  NoDup (filter (fun f => memZ f (d_fnames d)) feats) ->
  exists d', removeFeatures d feats = Ok (d', true) /\
    d_points d' = map (project (fun n => negb (memZ n feats)) (d_fnames d)) (d_points d) /\
    d_fnames d' = filter (fun n => negb (memZ n feats)) (d_fnames d) /\
    d_dim d' = length (d_fnames d') /\
    d_index d' = d_index d /\ d_cnames d' = d_cnames d /\ d_classes d' = d_classes d /\ d_dist d' = d_dist d /\
    d_size d' = d_size d /\ d_class d' = d_class d.
Proof.
  intros Hd Hne Hl ND. pose proof Hd as [As Acl An Ai Adm Af Aso Afp Ae Ac].
  unfold removeFeatures. destruct feats as [|f0 fr] eqn:Ef; [congruence|]. rewrite <- Ef in *. clear Hne Ef f0 fr.
  apply Nat.eqb_neq in Hl. rewrite Hl. rewrite <- Af. rewrite exist_flags_spec by auto. cbn [obind].
  set (fs := map (fun f => (f, memZ f (d_fnames d))) (isort Z.leb feats)).
  assert (existing fs = filter (fun f => memZ f (d_fnames d)) (isort Z.leb feats)) as Ex.
  { unfold existing, fs. generalize (isort Z.leb feats). induction l as [|x l IH]; simpl; auto.
    destruct (memZ x (d_fnames d)); simpl; rewrite IH; auto. }
  assert (StronglySorted Z.lt (existing fs)) as Sx.
  { apply sorted_le_lt.
    - rewrite Ex. generalize (Zsort_sorted feats). generalize (isort Z.leb feats). induction 1 as [|a l Hs IH Hf]; simpl; [constructor|].
      destruct (memZ a (d_fnames d)); auto. constructor; auto. rewrite Forall_forall in *. intros x Hx. apply filter_In in Hx. apply Hf; tauto.
    - rewrite Ex. eapply Permutation_NoDup; [|exact ND]. apply Permutation_filter. symmetry. apply isort_perm. }
  assert (forall f, In f (existing fs) <-> In f feats /\ In f (d_fnames d)) as Ix.
  { intro f. rewrite Ex, filter_In, isort_In, memZ_In. tauto. }
  rewrite map_outcome_Ok with (g := project (fun n => negb (memZ n feats)) (d_fnames d)).
  - cbn [obind]. rewrite rf_names_spec; auto using sorted_lt_NoDup.
    assert (forall g, memZ g (isort Z.leb feats) = memZ g feats) as Em.
    { intro g. destruct (memZ g feats) eqn:E.
      - apply memZ_In, isort_In, memZ_In; auto.
      - apply memZ_notIn. rewrite isort_In. apply memZ_notIn; auto. }
    assert (filter (fun g => negb (memZ g (isort Z.leb feats))) (d_fnames d) = filter (fun g => negb (memZ g feats)) (d_fnames d)) as ->.
    { apply filter_ext. intro. rewrite Em. auto. }
    eexists. split; [reflexivity|]. cbn. repeat split; auto.
  - intros q Hq. rewrite rf_point_spec; auto.
    + cbn [obind]. unfold project. do 2 f_equal. apply keep_features_ext. intros n Hn. f_equal.
      destruct (memZ n feats) eqn:E.
      * apply memZ_In, Ix. split; auto. apply memZ_In; auto.
      * apply memZ_notIn. rewrite Ix. intros (X & _). apply memZ_notIn in E. auto.
    + intros f Hf. apply Ix in Hf. tauto.
    + rewrite Af. symmetry. auto.
Qed.

Lemma removeFeatures_ok d feats d' b :
  data_ok d -> NoDup (filter (fun f => memZ f (d_fnames d)) feats) ->
  (d_points d = [] -> False) ->
  removeFeatures d feats = Ok (d', b) -> data_ok d'.
Proof.
  intros Hd ND Hne H.
  destruct feats as [|f0 fr] eqn:Ef; [simpl in H; congruence|]. rewrite <- Ef in *.
  destruct (Nat.eq_dec (length (d_fnames d)) 1) as [e|n].
  { unfold removeFeatures in H. rewrite Ef, e, Nat.eqb_refl in H. congruence. }
  destruct (removeFeatures_spec d feats) as (d1 & H1 & Hp & Hf & Hdm & Hi & Hcn & Hcl & Hds & Hsz & Hc); auto; [rewrite Ef; discriminate|].
  rewrite H in H1. injection H1 as <- ->.
  pose proof Hd as [As Acl An Ai Adm Af Aso Afp Ae Ac].
  pose proof (proj1 (class_ok_iff d) Acl) as (A & CO).
  assert (length (d_points d') = length (d_points d)) as L by (rewrite Hp, map_length; auto).
  assert (labels (d_points d') = labels (d_points d)) as HL.
  { rewrite Hp. unfold labels. rewrite map_map. auto. }
  constructor; rewrite ?Hsz, ?L, ?Hcn, ?Hcl, ?Hi; auto.
  - apply class_ok_iff. rewrite Hc, Hcl, Hds, HL. auto.
  - rewrite Hp. intros p Ip. apply in_map_iff in Ip. destruct Ip as (q & <- & Iq). simpl.
    rewrite Hdm, Hf. apply keep_features_length. rewrite Af. symmetry. auto.
  - rewrite Hf. apply StronglySorted_filter; auto.
  - rewrite Hf. intros f If. apply filter_In in If. apply Afp. tauto.
  - intro X. rewrite X in L. simpl in L. destruct (d_points d); [exfalso; auto|discriminate].
Qed.

(** ** insertFeatures *)
Lemma if_walk_nil n fn (xs : list T) : if_walk n fn xs [] = Ok [].
Proof. revert fn xs. induction n as [|n IH]; intros fn xs; simpl; auto. Qed.

Lemma if_walk_spec fn : forall req (xs : list T),
  StronglySorted Z.lt fn -> StronglySorted Z.lt req -> (forall f, In f req -> In f fn) -> length fn = length xs ->
  exists w, if_walk (length fn) fn xs req = Ok w /\ map fst w = keep_features (fun n => memZ n req) fn xs /\
            map snd w = req.
Proof.
  induction fn as [|g fn IH]; intros req [|x xs] Hf Hr Hi L; simpl in L; try discriminate.
  - destruct req as [|f r]; [exists []; auto|]. exfalso. apply (Hi f). left; auto.
  - destruct req as [|f r].
    + exists []. rewrite if_walk_nil. repeat split; auto. unfold keep_features. rewrite filter_none; auto.
    + cbn [if_walk]. inversion Hf as [|? ? Hf1 Hf2]; subst. inversion Hr as [|? ? Hr1 Hr2]; subst.
      rewrite Forall_forall in Hf2, Hr2. unfold keep_features. cbn [length combine filter fst if_walk].
      destruct (Z.eqb_spec g f) as [->|N].
      * destruct (IH r xs) as (w & H1 & H2 & H3); auto.
        { intros h Hh. specialize (Hr2 _ Hh). destruct (Hi h) as [->|?]; auto; [right; auto|lia]. }
        rewrite H1. cbn [obind]. exists ((x, f) :: w). split; auto.
        assert (memZ f (f :: r) = true) as Mf by (apply memZ_In; left; auto).
        rewrite Mf. simpl. rewrite H2, H3. split; auto. f_equal.
        unfold keep_features. f_equal. apply filter_ext_in. intros [n y] Hn. simpl. apply in_combine_l in Hn.
        specialize (Hf2 _ Hn). unfold memZ. simpl. destruct (Z.eqb_spec n f); [lia|]. auto.
      * assert (In f fn) as If by (destruct (Hi f) as [->|?]; auto; [left; auto|congruence]).
        specialize (Hf2 _ If).
        destruct (IH (f :: r) xs) as (w & H1 & H2 & H3); auto.
        { intros h Hh. destruct (Hi h Hh) as [->|?]; auto. destruct Hh as [<-|Hh]; [lia|]. specialize (Hr2 _ Hh). lia. }
        exists w. split; auto. split; auto. rewrite H2.
        assert (memZ g (f :: r) = false) as ->; auto.
        apply memZ_notIn. intros [->|H]; [congruence|]. specialize (Hr2 _ H). lia.
Qed.

(** Whatever the request, the names picked are a prefix of it and occur in the name list in order. *)
Lemma if_walk_prefix n : forall fn (xs : list T) req w,
  if_walk n fn xs req = Ok w -> exists rest, req = map snd w ++ rest.
Proof.
  induction n as [|n IH]; intros fn xs req w H; simpl in H.
  - injection H as <-. exists req. auto.
  - destruct req as [|f r]; [rewrite if_walk_nil in H; injection H as <-; exists []; auto|].
    destruct fn as [|g fn]; [discriminate|]. destruct (Z.eqb_spec g f) as [->|N].
    + destruct xs as [|x xs]; [discriminate|]. apply obind_Ok in H. destruct H as (w' & H1 & H2). injection H2 as <-.
      destruct (IH _ _ _ _ H1) as (rest & ->). exists rest. auto.
    + eapply IH; eauto.
Qed.

Lemma if_walk_sub n : forall fn (xs : list T) req w,
  if_walk n fn xs req = Ok w -> StronglySorted Z.lt fn ->
  StronglySorted Z.lt (map snd w) /\ (forall f, In f (map snd w) -> In f fn).
Proof.
  induction n as [|n IH]; intros fn xs req w H Hf; simpl in H.
  - injection H as <-. split; [constructor|intros f []].
  - destruct req as [|f r]; [rewrite if_walk_nil in H; injection H as <-; split; [constructor|intros ? []]|].
    destruct fn as [|g fn]; [discriminate|]. inversion Hf as [|? ? Hf1 Hf2]; subst.
    destruct (Z.eqb_spec g f) as [->|N].
    + destruct xs as [|x xs]; [discriminate|]. apply obind_Ok in H. destruct H as (w' & H1 & H2). injection H2 as <-.
      destruct (IH _ _ _ _ H1 Hf1) as (A & B). simpl. split.
      * constructor; auto. rewrite Forall_forall in *. auto.
      * intros h [<-|Hh]; auto.
    + destruct (IH _ _ _ _ H Hf1) as (A & B). split; auto. intros h Hh. right. auto.
Qed.

Lemma if_walk_total n : forall fn (xs : list T) req,
  length fn = n -> length xs = n -> exists w, if_walk n fn xs req = Ok w.
Proof.
  induction n as [|n IH]; intros fn xs req H1 H2; simpl; [eauto|].
  destruct req as [|f r]; [rewrite if_walk_nil; eauto|].
  destruct fn as [|g fn]; [discriminate|]. destruct xs as [|x xs]; [discriminate|]. simpl in *.
  destruct (Z.eqb g f).
  - destruct (IH fn xs r) as (w & ->); try lia. simpl. eauto.
  - apply IH; lia.
Qed.

Lemma if_points_good fn req keep : forall pts out names,
  StronglySorted Z.lt fn -> StronglySorted Z.lt req -> (forall f, In f req -> In f fn) ->
  (forall q, In q pts -> length (p_x q) = length fn) ->
  built (length req) out -> Z.of_nat (length (d_points out) + length pts) < 2 ^ 63 ->
  (pts = [] -> names = req) ->
  exists out', if_points (length pts) (length fn) fn req keep pts out names = Ok (out', Some req) /\ built (length req) out' /\
    d_points out' = d_points out ++ renum_all keep (length (d_points out)) (map (project (fun n => memZ n req) fn) pts).
Proof.
  induction pts as [|q pts IH]; intros out names Hf Hr Hi Hl Hb Hc Hn; simpl.
  - rewrite Hn by auto. exists out. rewrite app_nil_r. auto.
  - destruct (if_walk_spec fn req (p_x q)) as (w & H1 & H2 & H3); auto; [symmetry; apply Hl; left; auto|].
    rewrite H1. cbn [obind]. assert (length w = length req) as Lw by (rewrite <- H3, map_length; auto).
    rewrite Lw, Nat.eqb_refl.
    set (p' := mkPoint (map fst w) (p_y q) (p_id q) (p_alpha q)).
    simpl in Hc.
    destruct (built_step (length req) out p' keep Hb) as (o1 & E1 & B1 & P1); [simpl; rewrite map_length; auto|lia|].
    rewrite E1. cbn [obind fst].
    destruct (IH o1 (map snd w)) as (o2 & E2 & B2 & P2); auto; [intros; apply Hl; right; auto|rewrite P1, app_length; simpl; lia|].
    exists o2. split; auto. split; auto. rewrite P2, P1, <- app_assoc, app_length, Nat.add_1_r. cbn [app length].
    do 2 f_equal. unfold p', project. rewrite H2. auto.
Qed.

Lemma renum_project keep n f fn pts :
  renum_all keep n (map (project f fn) pts) = map (project f fn) (renum_all keep n pts).
Proof.
  revert n. induction pts as [|p r IH]; intro n; simpl; auto. rewrite IH. f_equal. destruct keep; reflexivity.
Qed.

Lemma insertFeatures_spec d req keep :
  data_ok d -> req <> [] -> NoDup req -> (forall f, In f req -> In f (d_fnames d)) -> d_points d <> [] ->
  exists d', insertFeatures d req keep = Ok d' /\
    d_points d' = map (project (fun n => memZ n req) (d_fnames d)) (renum_all keep 0 (d_points d)) /\
    d_fnames d' = isort Z.leb req /\ d_dim d' = length req /\ d_size d' = length (d_points d) /\ class_ok d'.
Proof.
  intros Hd Hne ND Hin Hpt. pose proof Hd as [As Acl An Ai Adm Af Aso Afp Ae Ac].
  unfold insertFeatures. destruct req as [|f0 fr] eqn:Ef; [congruence|]. rewrite <- Ef in *. clear Ef.
  assert (length req <= length (d_fnames d))%nat as Hle by (apply NoDup_incl_length; auto).
  destruct (Nat.ltb_spec (d_dim d) (length req)); [lia|].
  set (out := mkData (@nil (point T)) [] [] [] [] [] 0%nat (length req) true false false true).
  assert (StronglySorted Z.lt (isort Z.leb req)) as Sr.
  { apply sorted_le_lt; [apply Zsort_sorted|apply isort_NoDup; auto]. }
  assert (built (length (isort Z.leb req)) out) as Bo.
  { pose proof (@built_empty T (length req)) as [Bs Bc Bn Bi Bd B0 B1 Bf Bcd Bo]. rewrite isort_length. constructor; simpl; auto; try tauto.
    destruct Bc as [C1 C2 C3 C4 C5]. constructor; auto. }
  destruct (if_points_good (d_fnames d) (isort Z.leb req) keep (d_points d) out (repeat 0 (length req)))
    as (o & E & B & P); auto.
  - intros f Hf. apply Hin. apply isort_In in Hf. auto.
  - intros q Hq. rewrite Af. auto.
  - congruence.
  - rewrite As, <- Af. rewrite E. cbn [obind fst snd].
    eexists. split; [reflexivity|]. cbn. rewrite P. cbn [app length out d_points].
    rewrite renum_project.
    assert (forall l, map (project (fun n => memZ n (isort Z.leb req)) (d_fnames d)) l = map (project (fun n => memZ n req) (d_fnames d)) l) as Em.
    { intro l. apply map_ext. intro q. unfold project. f_equal. apply keep_features_ext. intros n _.
      destruct (memZ n req) eqn:E'; [apply memZ_In, isort_In, memZ_In; auto|apply memZ_notIn; rewrite isort_In; apply memZ_notIn; auto]. }
    rewrite Em. rewrite isort_length in B.
    assert (d_points o <> []) as No.
    { rewrite P. destruct (d_points d); [congruence|]. simpl. discriminate. }
    split; [auto|]. split; [auto|]. split; [apply B; auto|]. split.
    + rewrite (b_size _ _ B), P. simpl. rewrite renum_all_length, map_length. auto.
    + apply class_ok_iff. cbn. rewrite <- Em, <- renum_project.
      pose proof (proj1 (class_ok_iff o) (b_class _ _ B)) as CB. rewrite P in CB. exact CB.
Qed.

Lemma insertFeatures_bad d req keep :
  data_ok d -> req <> [] -> d_points d <> [] -> ~ (NoDup req /\ (forall f, In f req -> In f (d_fnames d))) ->
  exists d', insertFeatures d req keep = Ok d' /\ d_points d' = [] /\ d_dim d' = O /\ d_fnames d' = [].
Proof.
  intros Hd Hne Hpt Hbad. pose proof Hd as [As Acl An Ai Adm Af Aso Afp Ae Ac].
  unfold insertFeatures. destruct req as [|f0 fr] eqn:Ef; [congruence|]. rewrite <- Ef in *. clear Ef.
  destruct (Nat.ltb_spec (d_dim d) (length req)); [eexists; split; [reflexivity|auto]|].
  rewrite As. destruct (d_points d) as [|q r] eqn:Ep; [congruence|]. simpl.
  assert (length (p_x q) = d_dim d) as Lq by (apply Adm; left; auto).
  destruct (if_walk_total (d_dim d) (d_fnames d) (p_x q) (isort Z.leb req)) as (w & Hw); auto.
  rewrite Hw. cbn [obind].
  destruct (Nat.eqb_spec (length w) (length (isort Z.leb req))) as [e|n]; [|cbn [obind snd fst]; eexists; split; [reflexivity|auto]].
  exfalso. apply Hbad. destruct (if_walk_prefix _ _ _ _ _ Hw) as (rest & Hr).
  assert (rest = []) as ->.
  { apply (f_equal (@length Z)) in Hr. rewrite app_length, map_length in Hr. destruct rest; auto. simpl in Hr. lia. }
  rewrite app_nil_r in Hr. destruct (if_walk_sub _ _ _ _ _ Hw Aso) as (A & B). rewrite <- Hr in A, B. split.
  - apply (proj1 (isort_NoDup Z.leb req)). apply sorted_lt_NoDup; auto.
  - intros f Hf. apply B, isort_In. auto.
Qed.

(** ** selectFeatures *)
Lemma sf_walk_spec fn : forall pos req (xs : list T),
  StronglySorted Z.lt fn -> StronglySorted Z.lt req -> (forall f, In f req -> In f fn) -> length fn = length xs ->
  exists l, sf_walk fn pos req = Some l /\ length l = length req /\
    forall pre, length pre = pos -> map (nth_error (pre ++ xs)) l = map Some (keep_features (fun n => memZ n req) fn xs).
Proof.
  induction fn as [|g fn IH]; intros pos req [|x xs] Hf Hr Hi L; simpl in L; try discriminate.
  - destruct req as [|f r]; [exists []; auto|]. exfalso. apply (Hi f). left; auto.
  - destruct req as [|f r].
    + exists []. repeat split; auto. intros pre _. unfold keep_features. rewrite filter_none; auto.
    + cbn [sf_walk]. inversion Hf as [|? ? Hf1 Hf2]; subst. inversion Hr as [|? ? Hr1 Hr2]; subst.
      rewrite Forall_forall in Hf2, Hr2. unfold keep_features. cbn [combine filter fst].
      destruct (Z.eqb_spec g f) as [->|N].
      * destruct (IH (S pos) r xs) as (l & H1 & H2 & H3); auto.
        { intros h Hh. specialize (Hr2 _ Hh). destruct (Hi h) as [->|?]; auto; [right; auto|lia]. }
        rewrite H1. exists (pos :: l). split; auto. split; [simpl; auto|]. intros pre Hp.
        assert (memZ f (f :: r) = true) as Mf by (apply memZ_In; left; auto).
        rewrite Mf. simpl. f_equal.
        { rewrite nth_error_app2, Hp, Nat.sub_diag by lia. auto. }
        replace (pre ++ x :: xs) with ((pre ++ [x]) ++ xs) by (rewrite <- app_assoc; auto).
        rewrite H3 by (rewrite app_length; simpl; lia).
        unfold keep_features. do 2 f_equal. apply filter_ext_in. intros [n y] Hn. simpl. apply in_combine_l in Hn.
        specialize (Hf2 _ Hn). unfold memZ. simpl. destruct (Z.eqb_spec n f); [lia|]. auto.
      * assert (In f fn) as If by (destruct (Hi f) as [->|?]; auto; [left; auto|congruence]).
        specialize (Hf2 _ If).
        destruct (IH (S pos) (f :: r) xs) as (l & H1 & H2 & H3); auto.
        { intros h Hh. destruct (Hi h Hh) as [->|?]; auto. destruct Hh as [<-|Hh]; [lia|]. specialize (Hr2 _ Hh). lia. }
        exists l. split; auto. split; auto. intros pre Hp.
        replace (pre ++ x :: xs) with ((pre ++ [x]) ++ xs) by (rewrite <- app_assoc; auto).
        rewrite H3 by (rewrite app_length; simpl; lia).
        assert (memZ g (f :: r) = false) as ->; auto.
        apply memZ_notIn. intros [->|H]; [congruence|]. specialize (Hr2 _ H). lia.
Qed.

Lemma sf_zeros_pos req : (forall f, In f req -> 0 < f) -> sf_zeros req = O.
Proof. destruct req as [|f r]; simpl; auto. intro H. specialize (H f (or_introl eq_refl)). destruct (Z.ltb_spec f 1); auto. lia. Qed.

Lemma map_outcome_ext {A B} (f g : A -> outcome B) l : (forall x, In x l -> f x = g x) -> map_outcome f l = map_outcome g l.
Proof.
  induction l as [|x l IH]; intro H; simpl; auto. rewrite (H x) by (left; auto). destruct (g x); simpl; auto.
  rewrite IH by (intros; apply H; right; auto). auto.
Qed.

Lemma map_outcome_vget {A} (l : list A) (pos : list nat) (r : list A) :
  map (nth_error l) pos = map Some r ->
  map_outcome (fun i => let* j := vget pos i in vget l j) (seq 0 (length pos)) = Ok r.
Proof.
  revert r. induction pos as [|j pos IH]; intros [|x r] H; simpl in *; try discriminate; auto.
  injection H as H0 H. unfold vget at 1. rewrite H0. cbn [obind].
  rewrite <- seq_shift.
  assert (map_outcome (fun i => let* j0 := vget (j :: pos) i in vget l j0) (map S (seq 0 (length pos))) = Ok r) as ->; auto.
  rewrite <- (IH r H). generalize (seq 0 (length pos)). induction l0 as [|i l0 IHl]; simpl; auto.
  rewrite IHl. auto.
Qed.

Lemma sf_insert_is_ins_all pts (out : data T) : sf_insert pts out = ins_all true pts out.
Proof. revert out. induction pts as [|p r IH]; intro out; simpl; auto. destruct (insertPoint out p true); simpl; auto. Qed.

Lemma selectFeatures_spec y0 id0 a0 d req :
  data_ok d -> req <> [] -> NoDup req -> (forall f, In f req -> In f (d_fnames d)) ->
  exists d', selectFeatures y0 id0 a0 d req None = Ok d' /\
    d_points d' = map (project (fun n => memZ n req) (d_fnames d)) (d_points d) /\
    d_size d' = length (d_points d) /\ class_ok d'.
Proof.
  intros Hd Hne ND Hin. pose proof Hd as [As Acl An Ai Adm Af Aso Afp Ae Ac].
  unfold selectFeatures.
  assert (StronglySorted Z.lt (isort Z.leb req)) as Sr.
  { apply sorted_le_lt; [apply Zsort_sorted|apply isort_NoDup; auto]. }
  assert (forall f, In f (isort Z.leb req) -> In f (d_fnames d)) as Hin'.
  { intros f Hf. apply Hin. apply isort_In in Hf. auto. }
  assert (sf_zeros (isort Z.leb req) = O) as Z0 by (apply sf_zeros_pos; auto).
  assert (exists l, sf_walk (d_fnames d) 0 (isort Z.leb req) = Some l /\ length l = length (isort Z.leb req) /\
     forall q, In q (d_points d) -> map (nth_error (p_x q)) l = map Some (keep_features (fun n => memZ n (isort Z.leb req)) (d_fnames d) (p_x q))) as (l & Hl & Ll & Hq).
  { destruct (d_points d) as [|q0 r] eqn:Ep.
    - rewrite Ae in Af by auto. destruct (d_fnames d); [|discriminate]. destruct req as [|f r]; [congruence|]. exfalso. apply (Hin f). left; auto.
    - destruct (sf_walk_spec (d_fnames d) 0 (isort Z.leb req) (p_x q0)) as (l & H1 & H2 & _); auto.
      { rewrite Af. symmetry. apply Adm. left; auto. }
      exists l. repeat split; auto. intros q Iq.
      destruct (sf_walk_spec (d_fnames d) 0 (isort Z.leb req) (p_x q)) as (l' & H1' & _ & H3); auto.
      { rewrite Af. symmetry. apply Adm. auto. }
      assert (l' = l) as -> by congruence. apply (H3 []). auto. }
  assert (sf_positions (d_fnames d) (isort Z.leb req) = Some (l, O)) as Hsp.
  { unfold sf_positions. rewrite Z0. simpl skipn. rewrite Hl. simpl.
    destruct (d_fnames d) eqn:Efn; [|auto].
    destruct (isort Z.leb req) eqn:Er; [auto|]. exfalso. apply (Hin' z). left; auto. }
  rewrite Hsp. simpl Nat.ltb. rewrite Nat.sub_0_r.
  assert (length req <> O) as Nreq by (destruct req; simpl; congruence).
  rewrite map_outcome_Ok with (g := project (fun n => memZ n req) (d_fnames d)).
  - cbn [obind]. rewrite sf_insert_is_ins_all.
    destruct (ins_all_spec true (length req) (map (project (fun n => memZ n req) (d_fnames d)) (d_points d)) data_empty) as (d' & E & B & P).
    + apply built_empty.
    + intros p Ip. apply in_map_iff in Ip. destruct Ip as (q & <- & Iq). simpl.
      rewrite keep_features_length by (rewrite Af; symmetry; auto).
      rewrite <- (isort_length Z.leb req). f_equal. apply sorted_unique; auto.
      * apply StronglySorted_filter; auto.
      * intro x. rewrite filter_In, memZ_In, isort_In. split; [tauto|]. intro; split; auto.
    + simpl. rewrite map_length. auto.
    + exists d'. split; auto. rewrite renum_all_keep in P. simpl in P. split; auto.
      split; [rewrite (b_size _ _ B), P, map_length; auto|apply B].
  - intros q Iq. unfold sf_point. rewrite isort_length. rewrite <- (isort_length Z.leb req) at 1. rewrite <- Ll.
    rewrite (map_outcome_vget _ _ _ (Hq q Iq)). cbn [obind].
    destruct (Nat.eqb_spec (length req) 0); [lia|]. unfold project. do 2 f_equal.
    apply keep_features_ext. intros n' _.
    destruct (memZ n' req) eqn:E'; [apply memZ_In, isort_In, memZ_In; auto|apply memZ_notIn; rewrite isort_In; apply memZ_notIn; auto].
Qed.
End D.
