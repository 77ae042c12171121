(** Property lemmas for borderline SMOTE: C105. *)
From Coq Require Import String ZArith Bool List Reals Lra Lia Permutation Sorted.
From Verif Require Import Base ListLib M_Data S_Data L_Data L_Data2 L_Join Loop T_Data M_Heap L_Heap M_Smote S_Smote T_Smote T_Sampling M_Border S_Border L_Border.
Import ListNotations.
Local Open Scope nat_scope.

Lemma permute_len {A} perm (l : list A) : forall r, permute perm l = Ok r -> length r = length perm.
Proof. induction perm as [|i perm IH]; intros r E; cbn [permute fold_right] in E; [injection E as <-; reflexivity|]. fold (permute perm l) in E. destruct (permute perm l); try discriminate. cbn [obind] in E. destruct (vget l i); try discriminate. injection E as <-. cbn. now rewrite (IH _ eq_refl). Qed.
(** Inserting numbers the points that are accepted. *)
Lemma ins_ids pts : forall d d' : data R, data_ok d -> (Z.of_nat (length (d_points d) + length pts) < 2 ^ 63)%Z -> ofold ins pts d = Ok d' ->
  exists new, d_points d' = d_points d ++ new /\ map p_id new = map Z.of_nat (seq (S (length (d_points d))) (length new)).
Proof.
  induction pts as [|p pts IH]; intros d d' D C E; cbn [ofold] in E.
  - injection E as <-. exists []. rewrite app_nil_r. auto.
  - cbn [length] in C. destruct (insertPoint d p false) as [[d1 b]| |] eqn:E1; try discriminate. cbn [obind fst] in E. pose proof (insertPoint_ok _ _ _ _ _ D ltac:(lia) E1) as D1.
    destruct (accepts_dec d p) as [A|A].
    + destruct (insertPoint_accept d p false A (ok_size _ D)) as (d2 & E2 & P2 & _); [apply (ok_class _ D)|]. rewrite E1 in E2. injection E2 as <- _.
      destruct (IH d1 d' D1 ltac:(rewrite P2, app_length; cbn [length]; lia) E) as (new & Pn & In). rewrite P2, <- app_assoc in Pn. cbn [app] in Pn. eexists. split; [exact Pn|].
      cbn [map length seq]. f_equal. rewrite In, P2, app_length. cbn [length]. now rewrite Nat.add_1_r.
    + rewrite (insertPoint_reject _ _ _ A) in E1. injection E1 as <- _. apply (IH d); auto. lia.
Qed.
Lemma smote_ids dist srt al k perm (d d' : data R) : data_ok d -> smote dist srt al k perm d = Ok d' -> (Z.of_nat (length (d_points d) + length perm) < 2 ^ 63)%Z ->
  exists new, d_points d' = d_points d ++ new /\ map p_id new = map Z.of_nat (seq (S (length (d_points d))) (length new)).
Proof.
  intros D E C. unfold smote in E. destruct (vget (d_classes d) _) as [mc| |]; try discriminate. cbn [obind] in E. destruct (ofold _ _ _) as [s| |] in E; try discriminate. cbn [obind] in E.
  destruct (permute perm (fst s)) as [new| |] eqn:En; try discriminate. cbn [obind] in E. apply (ins_ids new d d' D); [|exact E].
  apply permute_len in En. rewrite En. exact C.
Qed.

(** Putting points back into the dataset. *)
Lemma back_loop ids w cs0 : forall refs (pts : list (point R)) n hp (h : hdata R) v, reads hp refs pts -> NoDup refs -> map p_id pts = map Z.of_nat (seq n (length pts)) -> view hp h = Ok v -> data_ok v -> map content (d_points v) = cs0 ->
  d_points v <> [] -> d_dim v = w -> (forall p, In p pts -> length (p_x p) = w) -> (Z.of_nat (length cs0 + length pts) < 2 ^ 63)%Z ->
  exists hp' h' v', ofold (back_step ids) refs (hp, h) = Ok (hp', h') /\ view hp' h' = Ok v' /\ data_ok v' /\ same_content hp hp' /\
    map content (d_points v') = cs0 ++ map snd (filter (fun ip => existsb (Z.eqb (Z.of_nat (fst ip))) ids) (combine (seq n (length pts)) (map content pts))) /\
    h_refs h' = h_refs h ++ map snd (filter (fun ip => existsb (Z.eqb (Z.of_nat (fst ip))) ids) (combine (seq n (length pts)) refs)).
Proof.
  intros refs. revert cs0. induction refs as [|r refs IH]; intros cs0 pts n hp h v Rd N I V D Cv Np W L C; cbn [ofold].
  - inversion Rd; subst. exists hp, h, v. cbn. rewrite !app_nil_r. split; [auto|]. split; [auto|]. split; [auto|]. split; [intro; auto|]. auto.
  - inversion Rd as [|? p ? pts' Er Rd']; subst. cbn [map length seq] in I, C. injection I as Ip I. unfold back_step at 1. cbn [fst snd]. unfold vget at 1. rewrite Er. cbn [obind]. rewrite Ip.
    inversion N as [|? ? Nr N']; subst. cbn [map length seq combine filter fst snd]. destruct (existsb (Z.eqb (Z.of_nat n)) ids) eqn:Ex.
    + rewrite map_length in C. destruct (insert_ref hp h v r p V D Er) as (hp' & h' & v' & E & V' & D' & C' & SC & K & Rf); [right; apply L; now left|lia|].
      rewrite E. cbn [obind fst].
      destruct (IH (map content (d_points v')) pts' (S n) hp' h' v') as (hp2 & h2 & v2 & E2 & V2 & D2 & S2 & C2 & R2); auto.
      * eapply reads_frame; [exact Rd'|]. intros x q Hx Hq. rewrite K by (intros ->; contradiction). exact Hq.
      * destruct (d_points v'); [|discriminate]. destruct (map content (d_points v)); discriminate.
      * assert (d_points v' <> []) as Np' by (destruct (d_points v'); [destruct (map content (d_points v)); discriminate|discriminate]).
        destruct (d_points v) as [|q qs] eqn:Eq; [congruence|]. rewrite <- (ok_dim _ D q) by (rewrite Eq; now left). destruct (d_points v') as [|q' qs'] eqn:Eq'; [congruence|]. rewrite <- (ok_dim _ D' q') by (rewrite Eq'; now left).
        cbn [map app] in C'. apply (f_equal (fun l => match l with c :: _ => fst (fst c) | [] => [] end)) in C'. cbn in C'. now rewrite C'.
      * intros q Hq. apply L. now right.
      * rewrite C', app_length, map_length. cbn [length]. lia.
      * exists hp2, h2, v2. split; [exact E2|]. split; [auto|]. split; [auto|]. split; [intro j; rewrite S2; apply SC|]. cbn [map snd]. split; [rewrite C2, C', <- app_assoc; reflexivity|]. rewrite R2, Rf, <- app_assoc. reflexivity.
    + apply (IH (map content (d_points v)) pts' (S n) hp h v); auto; [intros q Hq; apply L; now right|lia].
Qed.

Lemma zmax_ok l : forall pre b bi, nth_error pre bi = Some b -> (forall i x, nth_error pre i = Some x -> (x <= b)%Z) -> (forall i x, i < bi -> nth_error pre i = Some x -> (x < b)%Z) ->
  let j := zmax_from b bi (length pre) l in exists v, nth_error (pre ++ l) j = Some v /\ (forall i x, nth_error (pre ++ l) i = Some x -> (x <= v)%Z) /\ (forall i x, i < j -> nth_error (pre ++ l) i = Some x -> (x < v)%Z).
Proof.
  induction l as [|x l IH]; intros pre b bi E A B; cbn [zmax_from].
  - rewrite app_nil_r. exists b. auto.
  - assert (bi < length pre) as Lb by (apply nth_error_Some; congruence). replace (pre ++ x :: l) with ((pre ++ [x]) ++ l) by now rewrite <- app_assoc. replace (S (length pre)) with (length (pre ++ [x])) by (rewrite app_length; cbn; lia).
    assert (forall i y, nth_error (pre ++ [x]) i = Some y -> i < length pre /\ nth_error pre i = Some y \/ i = length pre /\ y = x) as C.
    { intros i y Q. destruct (Nat.lt_ge_cases i (length pre)); [left; split; [auto|now rewrite nth_error_app1 in Q]|]. right. rewrite nth_error_app2 in Q by auto.
      destruct (i - length pre) eqn:Z; [|cbn in Q; destruct n; discriminate]. injection Q as <-. split; [lia|auto]. }
    destruct (Z.ltb_spec b x) as [Q|Q]; apply IH.
    + rewrite nth_error_app2, Nat.sub_diag by auto. reflexivity.
    + intros i y Hi. destruct (C i y Hi) as [[_ Z]|[_ ->]]; [apply A in Z; lia|lia].
    + intros i y Hi Z. destruct (C i y Z) as [[_ Z']|[-> _]]; [apply A in Z'; lia|lia].
    + now rewrite nth_error_app1.
    + intros i y Hi. destruct (C i y Hi) as [[_ Z]|[_ ->]]; [apply A in Z; lia|lia].
    + intros i y Hi Z. destruct (C i y Z) as [[_ Z']|[-> _]]; [apply (B i); auto|lia].
Qed.
Lemma majority_ok d : data_ok d -> d_points d <> [] -> exists c, vget (d_classes d) (zmax_element (d_dist d)) = Ok c /\ most_frequent d c.
Proof.
  intros D N. pose proof (ok_class _ D) as C. assert (d_dist d <> []) as Nd.
  { intro Z. pose proof (co_len _ C) as L. rewrite Z in L. destruct (d_points d) as [|p l] eqn:E; [congruence|]. pose proof (co_listed _ C p ltac:(rewrite E; now left)) as I. destruct (d_classes d); [destruct I|discriminate]. }
  assert (exists v, nth_error (d_dist d) (zmax_element (d_dist d)) = Some v /\ (forall i x, nth_error (d_dist d) i = Some x -> (x <= v)%Z) /\ (forall i x, i < zmax_element (d_dist d) -> nth_error (d_dist d) i = Some x -> (x < v)%Z)) as (v & Ev & Le & Lt).
  { destruct (d_dist d) as [|x l]; [congruence|]. apply (zmax_ok l [x] x 0); [reflexivity| |].
    - intros [|[|i]] y E; cbn in E; try discriminate; injection E as <-; lia.
    - intros i y Hi; lia. }
  set (m := zmax_element (d_dist d)) in *.
  assert (m < length (d_classes d)) as Lm by (rewrite <- (co_len _ C); apply nth_error_Some; congruence). destruct (nth_error (d_classes d) m) as [c|] eqn:Ec; [|apply nth_error_None in Ec; lia].
  exists c. split; [unfold vget; now rewrite Ec|]. destruct (nth_error_split _ _ Ec) as (b & a & Es & Lb). exists b, a. split; [auto|].
  assert (forall i c', nth_error (d_classes d) i = Some c' -> nth_error (d_dist d) i = Some (Z.of_nat (length (points_of d c')))) as Co.
  { intros i c' Ei. rewrite (co_count _ C i c' Ei). unfold points_of. now rewrite L_Split.label_count_filter. }
  pose proof (Co m c Ec) as Em. rewrite Ev in Em. injection Em as ->. split.
  - intros c' Hc. apply In_nth_error in Hc as (i & Ei). assert (i < length b) as Li by (apply nth_error_Some; congruence). assert (nth_error (d_classes d) i = Some c') as E' by (rewrite Es, nth_error_app1; auto). specialize (Lt i _ ltac:(lia) (Co i c' E')). lia.
  - intros c' Hc. apply In_nth_error in Hc as (i & Ei). assert (nth_error (d_classes d) (length b + S i) = Some c') as E'. { rewrite Es, nth_error_app2 by lia. replace (length b + S i - length b) with (S i) by lia. exact Ei. } specialize (Le _ _ (Co _ c' E')). lia.
Qed.

Lemma nth_error_ext {A} (l l' : list A) : (forall j, nth_error l j = nth_error l' j) -> l = l'.
Proof. revert l'. induction l as [|x l IH]; intros [|y l'] H; auto; try (specialize (H 0); discriminate). f_equal; [specialize (H 0); now injection H|]. apply IH. intro j. exact (H (S j)). Qed.
(** C105: the first class with the most points is the majority; a point is in danger if at least m/2 but not all of m points at the m smallest different non-zero
    distances belong to it, whatever its own class. SMOTE is applied to these points alone. To the dataset are added those of the points in danger and of the artificial points,
    in that order, whose place counted from 1 is the id of a point in danger; a point in danger that is added is the same object once more. *)
Lemma c105_borderline : forall (dist dist2 : list R -> list R -> R) (srt : list entry -> list entry) (al : nat -> R) m k (hp : heap R) (h : hdata R) (d : data R),
  sorts_by_distance srt -> view hp h = Ok d -> data_ok d -> NoDup (h_refs h) -> d_points d <> [] -> (Z.of_nat (length (d_points d)) < 2 ^ 63)%Z ->
  (forall z, In z (d_points d) -> exists n, distinct_nonzero (map (fun p => dist (p_x z) (p_x p)) (d_points d)) n /\ m <= n) ->
  exists maj nb, most_frequent d maj /\ (forall z, In z (d_points d) -> nearest dist m (d_points d) (p_x z) (nb (p_x z))) /\
    let danger := filter (fun z => dangerous (d_points d) maj m (nb (p_x z))) (d_points d) in
    (danger = [] -> forall perm, borderline dist dist2 srt al m k perm hp h = Ok (hp, h)) /\
    (danger <> [] -> exists dg c groups refs, data_ok dg /\ map content (d_points dg) = map content danger /\ least_frequent dg c /\
      Forall2 (fun z g => Forall (smote_from al dist2 k dg c z) g /\ exists n, distinct_nonzero (map (fun p => dist2 (p_x z) (p_x p)) (points_of dg c)) n /\ length g = Nat.min k n) (points_of dg c) groups /\
      reads hp refs danger /\ incl refs (h_refs h) /\
      forall perm, Permutation perm (seq 0 (length (concat groups))) -> (Z.of_nat (length (d_points d) + length danger + length (concat groups)) < 2 ^ 63)%Z ->
        exists new hp' h' d', borderline dist dist2 srt al m k perm hp h = Ok (hp', h') /\ view hp' h' = Ok d' /\ data_ok d' /\ Permutation new (map content (concat groups)) /\
          map content (d_points d') = map content (d_points d) ++ numbered (map p_id danger) (map content danger ++ new) /\
          h_refs h' = h_refs h ++ numbered (map p_id danger) (refs ++ seq (length hp) (length new))).
Proof.
  intros dist dist2 srt al m k hp h d Hs V D N Np C En. destruct (majority_ok d D Np) as (maj & Em & Mf).
  exists maj, (hood dist srt m d). split; [auto|]. split; [intros z Hz; apply (danger_ok dist srt m maj (d_points d) (p_x z) Hs (En z Hz))|]. cbv zeta. fold (hit dist srt m maj d).
  change (fun z => dangerous (d_points d) maj m (hood dist srt m d (p_x z))) with (hit dist srt m maj d). set (danger := filter (hit dist srt m maj d) (d_points d)).
  assert (reads hp (h_refs h) (d_points d)) as Rd by (apply view_ok in V; apply V).
  destruct (danger_loop dist srt m maj hp h d Hs V D N C (h_refs h) (d_points d) [] (hp, mkH [] (strip data_empty), []) eq_refl Rd eq_refl (dinv_start _ _ _ _ _ _ _) En) as ([[hp1 dg] ids] & E & [I1 I2 _ I4 I5 (v & Iv & Iw) I7 I8 I9]). cbn [fst snd] in *. fold danger in Iw, I7, I9.
  destruct (hits_ok dist srt m maj d D C (d_points d) (incl_refl _) (le_n _)) as (v0 & F0 & Dv & Pv & Wv). fold danger in F0, Pv. assert (v0 = v) as -> by congruence.
  assert (forall x, existsb (Z.eqb x) ids = existsb (Z.eqb x) (map p_id danger)) as Hid.
  { intro x. subst ids. apply eq_true_iff_eq. rewrite !existsb_exists. split; intros (y & Hy & Q); exists y; (split; [|exact Q]); [now apply in_rev|now apply -> in_rev]. }
  split.
  - intros Z perm. unfold borderline. rewrite V. cbn [obind]. rewrite Em. cbn [obind]. rewrite E. cbn [obind]. unfold danger_smote. rewrite Iv. cbn [obind]. rewrite Z in Pv, I9. unfold size. rewrite Pv. cbn. inversion I9 as [Q|]. cbn.
    replace hp1 with hp; [reflexivity|]. apply nth_error_ext. intro j. symmetry. apply I8. rewrite <- Q. auto.
  - intro Nz. assert (d_points v <> []) as Nv. { rewrite Pv. intro Q. apply Nz. destruct danger; [auto|discriminate]. }
    destruct (c63_smote dist2 srt al k v Hs Dv Nv) as (c & groups & Lf & Fg & G). exists v, c, groups, (h_refs dg). split; [auto|]. split; [rewrite Pv; apply renumber_content|]. split; [auto|]. split; [auto|]. split; [auto|]. split; [intros r Hr; apply I4, Hr|].
    intros perm P Cap. assert (length (d_points v) = length danger) as Lv by (rewrite Pv; apply renumber_len).
    destruct (G perm P ltac:(rewrite Lv; lia)) as (r & new & Er & Dr & Pr & Qr).
    destruct (smote_ids dist2 srt al k perm v r Dv Er) as (new' & Pr' & Ir). { rewrite (Permutation_length P), seq_length, Lv. lia. }
    assert (new' = new) as -> by (rewrite Pr in Pr'; apply app_inv_head in Pr'; auto).
    assert (length (h_refs dg) = length danger) as Ldg by (exact (reads_len _ _ _ I9)).
    pose proof Iv as Iv'. apply view_ok in Iv' as [Rv _].
    unfold borderline. rewrite V. cbn [obind]. rewrite Em. cbn [obind]. rewrite E. cbn [obind]. unfold danger_smote. rewrite Iv. cbn [obind].
    assert (Nat.ltb 0 (size v) = true) as -> by (apply Nat.ltb_lt; unfold size; destruct (d_points v); [congruence|cbn; lia]). rewrite Er. cbn [obind].
    assert (skipn (length (h_refs dg)) (d_points r) = new) as ->. { rewrite Pr, Ldg, <- Lv. rewrite skipn_app, skipn_all, Nat.sub_diag. reflexivity. }
    cbn [obind h_refs].
    assert (length new = length (concat groups)) as Lnew by (rewrite <- (map_length content new), (Permutation_length Qr); apply map_length).
    destruct (view_content hp h d V D hp1 I1) as (d1 & V1 & C1 & D1).
    assert (view (hp1 ++ new) h = Ok d1) as V2. { eapply view_frame; [exact V1|]. intros j q _ Q. rewrite nth_error_app1; [auto|]. apply nth_error_Some. congruence. }
    assert (d_points d1 <> []) as Np1. { intro Q. rewrite Q in C1. destruct (d_points d); [congruence|discriminate]. }
    assert (d_dim d1 = d_dim d) as Wd. { destruct (d_points d) as [|q qs] eqn:Eq; [congruence|]. destruct (d_points d1) as [|q' qs'] eqn:Eq'; [congruence|]. rewrite <- (ok_dim _ D q) by (rewrite Eq; now left). rewrite <- (ok_dim _ D1 q') by (rewrite Eq'; now left).
      apply (f_equal (fun l => match l with c :: _ => fst (fst c) | [] => [] end)) in C1. cbn in C1. now rewrite C1. }
    assert (d_dim r = d_dim d) as Wr. { rewrite <- (Wv Nv). destruct (d_points v) as [|q qs] eqn:Eq; [congruence|]. rewrite <- (ok_dim _ Dv q) by (rewrite Eq; now left). symmetry. apply (ok_dim _ Dr). rewrite Pr. now left. }
    assert (map content (d_points r) = map content danger ++ map content new) as Cr by (rewrite Pr, map_app, Pv, renumber_content; reflexivity).
    assert (length (d_points r) = length danger + length new) as Lr by (rewrite Pr, app_length, Lv; reflexivity).
    destruct (back_loop ids (d_dim d) (map content (d_points d1)) (h_refs dg ++ seq (length hp1) (length new)) (d_points r) 1 (hp1 ++ new) h d1) as (hp' & h' & d' & E3 & V3 & D3 & _ & C3 & R3); auto.
    + rewrite Pr. apply Forall2_app; [apply reads_app, Rv|apply reads_fresh].
    + apply NoDup_app_intro; [auto|apply seq_NoDup|]. intros x Hx X. apply in_seq in Hx. pose proof (reads_lt _ _ _ _ I9 X). lia.
    + rewrite Pr, map_app, Ir, Pv, renumber_ids, app_length, renumber_len, seq_app, map_app. reflexivity.
    + intros p Hp. rewrite <- Wr. apply (ok_dim _ Dr), Hp.
    + rewrite map_length, Lr. rewrite <- (map_length content (d_points d1)), C1, map_length. lia.
    + exists (map content new), hp', h', d'. split; [exact E3|]. split; [auto|]. split; [auto|]. split; [exact Qr|]. split.
      * rewrite C3, C1. f_equal. unfold numbered. rewrite <- Cr, map_length. f_equal. apply filter_ext. intros [a b]. apply Hid.
      * rewrite R3, map_length, I2. f_equal. unfold numbered. rewrite app_length, seq_length, Ldg, <- Lr. f_equal. apply filter_ext. intros [a b]. apply Hid.
Qed.
Lemma numbered_from (ids : list Z) {A} (b : list A) : forall n, (forall i, n <= i < n + length b -> existsb (Z.eqb (Z.of_nat i)) ids = false) -> filter (fun ip => existsb (Z.eqb (Z.of_nat (fst ip))) ids) (combine (seq n (length b)) b) = [].
Proof. induction b as [|x b IH]; intros n H; cbn [length seq combine filter]; [reflexivity|]. cbn [fst]. rewrite H by (cbn; lia). apply IH. intros i Hi. apply H. cbn [length]. lia. Qed.
Lemma numbered_all (ids : list Z) {A} (a : list A) : forall n, (forall i, n <= i < n + length a -> existsb (Z.eqb (Z.of_nat i)) ids = true) -> map snd (filter (fun ip => existsb (Z.eqb (Z.of_nat (fst ip))) ids) (combine (seq n (length a)) a)) = a.
Proof. induction a as [|x a IH]; intros n H; cbn [length seq combine filter]; [reflexivity|]. cbn [fst]. rewrite H by (cbn; lia). cbn [map snd]. f_equal. apply IH. intros i Hi. apply H. cbn [length]. lia. Qed.
Lemma combine_app {A B} (a : list A) (b : list B) : forall a' b', length a = length b -> combine (a ++ a') (b ++ b') = combine a b ++ combine a' b'.
Proof. revert b. induction a as [|x a IH]; intros [|y b] a' b' L; try discriminate; cbn; [reflexivity|]. f_equal. apply IH. now injection L. Qed.
Lemma numbered_front {A} (a b : list A) t : t = length a -> numbered (map Z.of_nat (seq 1 t)) (a ++ b) = a.
Proof.
  intros ->. unfold numbered. rewrite app_length, seq_app, combine_app by apply seq_length. rewrite filter_app, map_app.
  assert (forall i, existsb (Z.eqb (Z.of_nat i)) (map Z.of_nat (seq 1 (length a))) = true <-> 1 <= i < 1 + length a) as X.
  { intro i. rewrite existsb_exists. split; [intros (y & Hy & Q)|intro Q; exists (Z.of_nat i); split; [apply in_map, in_seq; lia|apply Z.eqb_refl]]. apply in_map_iff in Hy as (j & <- & Hj). apply Z.eqb_eq, Nat2Z.inj in Q. subst. apply in_seq in Hj. lia. }
  rewrite numbered_all by (intros i Hi; apply X; lia). rewrite numbered_from, app_nil_r; [reflexivity|].
  intros i Hi. destruct (existsb _ _) eqn:E; [|reflexivity]. apply X in E. lia.
Qed.
(** C105: when the points in danger carry the ids 1, 2, ... (they stand first in a dataset numbered as the loaders do), they are added to the dataset a second time and none of the artificial points is. *)
Lemma c105_front_refuted : forall (dist dist2 : list R -> list R -> R) (srt : list entry -> list entry) (al : nat -> R) m k (hp : heap R) (h : hdata R) (d : data R),
  sorts_by_distance srt -> view hp h = Ok d -> data_ok d -> NoDup (h_refs h) -> d_points d <> [] -> (Z.of_nat (length (d_points d)) < 2 ^ 63)%Z ->
  (forall z, In z (d_points d) -> exists n, distinct_nonzero (map (fun p => dist (p_x z) (p_x p)) (d_points d)) n /\ m <= n) ->
  exists maj nb, most_frequent d maj /\ (forall z, In z (d_points d) -> nearest dist m (d_points d) (p_x z) (nb (p_x z))) /\
    let danger := filter (fun z => dangerous (d_points d) maj m (nb (p_x z))) (d_points d) in
    danger <> [] -> map p_id danger = map Z.of_nat (seq 1 (length danger)) -> exists t, forall perm, Permutation perm (seq 0 t) -> (Z.of_nat (length (d_points d) + length danger + t) < 2 ^ 63)%Z ->
      exists hp' h' d', borderline dist dist2 srt al m k perm hp h = Ok (hp', h') /\ view hp' h' = Ok d' /\ map content (d_points d') = map content (d_points d) ++ map content danger /\ ~ NoDup (h_refs h').
Proof.
  intros dist dist2 srt al m k hp h d Hs V D N Np C En. destruct (c105_borderline dist dist2 srt al m k hp h d Hs V D N Np C En) as (maj & nb & Mf & Nb & _ & H). exists maj, nb. split; [auto|]. split; [auto|]. cbv zeta. intros Nd Id.
  destruct (H Nd) as (dg & c & groups & refs & _ & _ & _ & _ & Rd & In & G). exists (length (concat groups)). intros perm P Cap. destruct (G perm P Cap) as (new & hp' & h' & d' & E & V' & _ & _ & Cd & Rf).
  exists hp', h', d'. split; [auto|]. split; [auto|]. rewrite Id in Cd, Rf. rewrite numbered_front in Cd by now rewrite map_length. rewrite numbered_front in Rf by (symmetry; exact (reads_len _ _ _ Rd)). split; [exact Cd|].
  rewrite Rf. intro X. destruct refs as [|r refs]; [pose proof (reads_len _ _ _ Rd) as L; destruct (filter _ (d_points d)); [congruence|discriminate]|].
  apply NoDup_remove_2 in X. apply X, in_or_app. left. apply In. now left.
Qed.
(** C105: with fewer than m different non-zero distances from some point, null pointers are read. *)
Lemma c105_short_refuted : forall (dist dist2 : list R -> list R -> R) (srt : list entry -> list entry) (al : nat -> R) m k perm (hp : heap R) (h : hdata R) (d : data R) z n,
  sorts_by_distance srt -> view hp h = Ok d -> data_ok d -> NoDup (h_refs h) -> (Z.of_nat (length (d_points d)) < 2 ^ 63)%Z ->
  In z (d_points d) -> distinct_nonzero (map (fun p => dist (p_x z) (p_x p)) (d_points d)) n -> n < m -> borderline dist dist2 srt al m k perm hp h = UB.
Proof.
  intros dist dist2 srt al m k perm hp h d z n Hs V D N C Iz Dn Ln. assert (d_points d <> []) as Np by (intro Q; rewrite Q in Iz; destruct Iz).
  destruct (majority_ok d D Np) as (maj & Em & _). unfold borderline. rewrite V. cbn [obind]. rewrite Em. cbn [obind].
  assert (reads hp (h_refs h) (d_points d)) as Rd by (apply view_ok in V; apply V).
  now rewrite (danger_loop_short dist srt m maj hp h d Hs V D N C (h_refs h) (d_points d) [] (hp, mkH [] (strip data_empty), []) eq_refl Rd eq_refl (dinv_start dist srt m maj hp h d) ltac:(exists z, n; auto)).
Qed.
(** C105: with m at least the number of points there are never enough neighbours. *)
Lemma c105_many_refuted : forall (dist dist2 : list R -> list R -> R) (srt : list entry -> list entry) (al : nat -> R) m k perm (hp : heap R) (h : hdata R) (d : data R),
  sorts_by_distance srt -> view hp h = Ok d -> data_ok d -> NoDup (h_refs h) -> (Z.of_nat (length (d_points d)) < 2 ^ 63)%Z ->
  d_points d <> [] -> (forall x, dist x x = 0%R) -> length (d_points d) <= m -> borderline dist dist2 srt al m k perm hp h = UB.
Proof.
  intros dist dist2 srt al m k perm hp h d Hs V D N C Np Z0 Lm. destruct (d_points d) as [|z pts] eqn:Ep; [congruence|]. destruct (near_ok dist srt m (d_points d) (p_x z) Hs) as (_ & n & Dn & _).
  apply (c105_short_refuted dist dist2 srt al m k perm hp h d z n); auto; [now rewrite Ep|rewrite Ep; now left|]. destruct Dn as (vs & Nv & <- & Iv).
  assert (length vs <= length (map (fun p => dist (p_x z) (p_x p)) pts)) as L; [|rewrite map_length in L; cbn [length] in Lm; lia].
  apply NoDup_incl_length; [exact Nv|]. intros v Hv. apply Iv in Hv as [Hv Nz]. rewrite Ep in Hv. destruct Hv as [<-|Hv]; [rewrite Z0 in Nz; congruence|exact Hv].
Qed.
Definition hfront : hdata R := mkH (seq 0 5) (strip mfront).
Lemma hfront_view : view (d_points mfront) hfront = Ok mfront.
Proof. reflexivity. Qed.
Ltac rabs := unfold away, dist1; cbn [nth p_x mk1 mfront d_points]; unfold Rabs; repeat (destruct (Rcase_abs _)); lra.
Lemma dist1_self x : dist1 x x = 0%R.
Proof. unfold dist1. rewrite Rminus_diag_eq by auto. apply Rabs_R0. Qed.
Lemma front_enough z : In z (d_points mfront) -> exists n, distinct_nonzero (map (fun p => dist1 (p_x z) (p_x p)) (d_points mfront)) n /\ 1 <= n.
Proof.
  intro Iz. destruct (near_ok dist1 rsort 1 (d_points mfront) (p_x z) rsort_ok) as (_ & n & Dn & _). exists n. split; [exact Dn|]. destruct Dn as (vs & _ & <- & Iv).
  assert (exists p, In p (d_points mfront) /\ dist1 (p_x z) (p_x p) <> 0%R) as (p & Ip & Np).
  { cbn [d_points mfront] in Iz |- *. destruct Iz as [<-|[<-|[<-|[<-|[<-|[]]]]]]; [exists (mk1 12 2 2)|exists (mk1 10 2 1)|exists (mk1 10 2 1)|exists (mk1 10 2 1)|exists (mk1 10 2 1)]; (split; [cbn [In]; tauto|rabs]). }
  destruct vs; [|cbn; lia]. exfalso. apply (proj2 (Iv _) (conj (in_map (fun q => dist1 (p_x z) (p_x q)) _ _ Ip) Np)).
Qed.
Lemma nearest_one z ns i : nearest dist1 1 (d_points mfront) z ns -> i < 5 -> away dist1 (d_points mfront) z i <> 0%R -> exists j, ns = [j] /\ j < 5 /\ away dist1 (d_points mfront) z j <> 0%R /\ (away dist1 (d_points mfront) z j <= away dist1 (d_points mfront) z i)%R.
Proof.
  intros (L & A & _ & B) Hi Ni. destruct ns as [|j [|? ?]]; try discriminate. exists j. destruct (A j (or_introl eq_refl)) as [Lj Nj]. split; [auto|]. split; [exact Lj|]. split; [auto|]. destruct (Rle_dec (away dist1 (d_points mfront) z j) (away dist1 (d_points mfront) z i)) as [X|X]; [auto|].
  apply Rnot_le_lt in X. destruct (B i j Hi (or_introl eq_refl) Ni X) as (j' & [<-|[]] & E). lra.
Qed.
Lemma c105_borderline_ex : view (d_points mfront) hfront = Ok mfront /\ data_ok mfront /\ NoDup (h_refs hfront) /\
  (forall z, In z (d_points mfront) -> exists n, distinct_nonzero (map (fun p => dist1 (p_x z) (p_x p)) (d_points mfront)) n /\ 1 <= n) /\
  forall maj nb, most_frequent mfront maj -> (forall z, In z (d_points mfront) -> nearest dist1 1 (d_points mfront) (p_x z) (nb (p_x z))) ->
    map p_id (filter (fun z => dangerous (d_points mfront) maj 1 (nb (p_x z))) (d_points mfront)) = [1; 2]%Z.
Proof.
  split; [apply hfront_view|]. split; [apply mfront_ok|]. split; [apply seq_NoDup|]. split; [apply front_enough|]. intros maj nb Mf Nb.
  assert (maj = 1%Z) as ->. { destruct Mf as (b & a & E & A & B). cbn [d_classes mfront] in E. destruct b as [|x [|y b]]; cbn [app] in E; [|congruence|destruct b; discriminate]. injection E as <- <-. specialize (B 1%Z (or_introl eq_refl)). vm_compute in B. lia. }
  assert (forall z i b, In z (d_points mfront) -> i < 5 -> away dist1 (d_points mfront) (p_x z) i <> 0%R ->
    (forall j, j < 5 -> away dist1 (d_points mfront) (p_x z) j <> 0%R -> (away dist1 (d_points mfront) (p_x z) j <= away dist1 (d_points mfront) (p_x z) i)%R -> negb (Z.eqb (p_y (nth j (d_points mfront) (mkPoint [] 0%Z 0%Z 0%R))) 1) = b) ->
    dangerous (d_points mfront) 1 1 (nb (p_x z)) = b) as G.
  { intros z i b Iz Hi Ni H. destruct (nearest_one _ _ i (Nb z Iz) Hi Ni) as (j & -> & Lj & Nj & Le). rewrite <- (H j Lj Nj Le). unfold dangerous, votes. cbn [filter]. destruct (Z.eqb _ 1); reflexivity. }
  assert (forall z i b, In z (d_points mfront) -> i < 5 -> (away dist1 (d_points mfront) (p_x z) i <> 0%R) ->
    (forall j, (j = 0 \/ j = 1 \/ j = 2 \/ j = 3 \/ j = 4) -> away dist1 (d_points mfront) (p_x z) j <> 0%R -> (away dist1 (d_points mfront) (p_x z) j <= away dist1 (d_points mfront) (p_x z) i)%R -> negb (Z.eqb (p_y (nth j (d_points mfront) (mkPoint [] 0%Z 0%Z 0%R))) 1) = b) ->
    dangerous (d_points mfront) 1 1 (nb (p_x z)) = b) as G'.
  { intros z i b Iz Hi Ni H. apply (G z i b Iz Hi Ni). intros j Hj. apply H. lia. }
  change (d_points mfront) with [mk1 10 2 1; mk1 12 2 2; mk1 0 1 3; mk1 1 1 4; mk1 2 1 5] at 2. cbn [filter].
  Ltac fin := (cbn [d_points mfront In]; tauto) || lia || rabs || (intros j Hj; destruct Hj as [Hj|[Hj|[Hj|[Hj|Hj]]]]; subst j; first [intros; reflexivity | intros Hn Hle; exfalso; revert Hn Hle; rabs]).
  rewrite (G' (mk1 10 2 1) 1 true) by fin. rewrite (G' (mk1 12 2 2) 0 true) by fin. rewrite (G' (mk1 0 1 3) 3 false) by fin. rewrite (G' (mk1 1 1 4) 2 false) by fin. rewrite (G' (mk1 2 1 5) 3 false) by fin. reflexivity.
Qed.
Lemma c105_many_refuted_ex : borderline dist1 dist1 rsort half 5 1 [] (d_points mfront) hfront = UB.
Proof. apply (c105_many_refuted dist1 dist1 rsort half 5 1 [] (d_points mfront) hfront mfront rsort_ok hfront_view mfront_ok); [apply seq_NoDup|vm_compute; reflexivity|discriminate|exact dist1_self|cbn; lia]. Qed.
