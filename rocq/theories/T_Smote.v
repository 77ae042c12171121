(** Property lemmas for SMOTE: C63. *)
From Coq Require Import String ZArith Bool List Reals Lra Lia Permutation Sorted.
From Verif Require Import Base ListLib M_Data S_Data L_Data L_Data2 Loop T_Data M_Smote S_Smote.
Import ListNotations.
Local Open Scope R_scope.

(** *** entries of the neighbours *)
Notation entry := (nat * R)%type.
Definition eless (a b : entry) : Prop := snd a < snd b.
Lemma uniq_from_ok l : forall last, StronglySorted (fun a b => snd a <= snd b) (last :: l) -> NoDup (map fst (last :: l)) ->
  StronglySorted eless (last :: uniq_from last l) /\ incl (uniq_from last l) l /\ forall e, In e l -> exists e', In e' (last :: uniq_from last l) /\ snd e' = snd e.
Proof.
  induction l as [|x l IH]; intros last S N; cbn [uniq_from]; [split; [repeat constructor|]; split; [intros e []|intros e []]|].
  inversion S as [|? ? S1 F1]; subst. inversion S1 as [|? ? S2 F2]; subst. inversion F1 as [|? ? L1 F3]; subst. cbn [map] in N. inversion N as [|? ? A1 N1]; subst. inversion N1 as [|? ? A2 N2]; subst.
  unfold same_entry. destruct (Nat.eqb_spec (fst last) (fst x)) as [Q|_]; [elim A1; left; auto|]. rewrite orb_false_r. destruct (Req_EM_T (snd last) (snd x)) as [Q|Q].
  - destruct (IH last) as (B1 & B2 & B3); [constructor; auto|cbn [map]; constructor; [intro; apply A1; now right|auto]|]. split; [auto|]. split; [intros e He; right; auto|]. intros e [<-|He]; [exists last; split; [now left|auto]|auto].
  - destruct (IH x) as (B1 & B2 & B3); [constructor; auto|cbn [map]; constructor; auto|]. split; [|split].
    + constructor; [auto|]. constructor; [unfold eless; lra|]. inversion B1 as [|? ? _ B4]; subst. eapply Forall_impl; [|exact B4]. unfold eless. intros; lra.
    + intros e [<-|He]; [now left|right; auto].
    + intros e [<-|He]; [exists x; split; [right; now left|auto]|]. destruct (B3 e He) as (e' & [<-|H] & E); [exists x; split; [right; now left|auto]|exists e'; split; [right; right; auto|auto]].
Qed.
Lemma uniq_ok l : StronglySorted (fun a b => snd a <= snd b) l -> NoDup (map fst l) -> StronglySorted eless (uniq l) /\ incl (uniq l) l /\ forall e, In e l -> exists e', In e' (uniq l) /\ snd e' = snd e.
Proof.
  intros S N. destruct l as [|x l]; [split; [constructor|split; intros e []]|]. cbn [uniq]. destruct (uniq_from_ok l x S N) as (A & B & C). split; [auto|]. split; [intros e [<-|H]; [now left|right; auto]|].
  intros e [<-|H]; [exists x; split; [now left|auto]|auto].
Qed.
Lemma filter_sorted {A} (P : A -> A -> Prop) f l : StronglySorted P l -> StronglySorted P (filter f l).
Proof.
  induction 1 as [|x l S IH F]; cbn; [constructor|]. destruct (f x); [|auto]. constructor; [auto|]. apply Forall_forall. intros y Hy. apply filter_In in Hy as [Hy _]. rewrite Forall_forall in F. auto.
Qed.
Lemma firstn_in {A} (l : list A) k x : In x (firstn k l) -> In x l.
Proof. revert l. induction k as [|k IH]; intros [|y l]; cbn; try tauto. intros [->|H]; auto. Qed.
Lemma eless_before l k e : StronglySorted eless l -> In e (firstn k l) -> exists before : list entry, (length before < k)%nat /\ forall e', In e' l -> snd e' < snd e -> In (snd e') (map snd before).
Proof.
  revert l. induction k as [|k IH]; intros [|x l] S H; cbn [firstn] in H; try destruct H as [].
  - exists []. split; [cbn; lia|]. subst x. intros e' [<-|H'] L; [lra|]. inversion S as [|? ? _ F]; subst. rewrite Forall_forall in F. specialize (F _ H'). unfold eless in F. lra.
  - inversion S as [|? ? S' F]; subst. destruct (IH l S' H) as (b & Lb & P). exists (x :: b). split; [cbn; lia|]. intros e' [<-|H'] L; [left; auto|right; auto].
Qed.
Lemma eless_nodup l : StronglySorted eless l -> NoDup (map snd l).
Proof.
  induction 1 as [|x l S IH F]; cbn; constructor; auto. intro H. apply in_map_iff in H as (y & E & Hy). rewrite Forall_forall in F. specialize (F y Hy). unfold eless in F. lra.
Qed.
Lemma combine_fst {A B} (a : list A) (b : list B) : length a = length b -> map fst (combine a b) = a.
Proof. revert b. induction a as [|x a IH]; intros [|y b] H; try discriminate; cbn; f_equal; auto. Qed.
Lemma combine_snd {A B} (a : list A) (b : list B) : length a = length b -> map snd (combine a b) = b.
Proof. revert b. induction a as [|x a IH]; intros [|y b] H; try discriminate; cbn; f_equal; auto. Qed.
Lemma near_ok dist srt k Z z : sorts_by_distance srt ->
  (forall e, In e (near_entries dist srt k Z z) -> exists i p, fst e = S i /\ nth_error Z i = Some p /\ snd e = dist z (p_x p) /\ among_least k (map (fun p => dist z (p_x p)) Z) (snd e)) /\
  exists n, distinct_nonzero (map (fun p => dist z (p_x p)) Z) n /\ length (near_entries dist srt k Z z) = Nat.min k n.
Proof.
  intros Ss. unfold near_entries. set (vals := map (fun p => dist z (p_x p)) Z). set (ds := combine (seq 1 (length Z)) vals). destruct (Ss ds) as [P So].
  assert (length (seq 1 (length Z)) = length vals) as L by (unfold vals; now rewrite seq_length, map_length).
  assert (NoDup (map fst (srt ds))) as N. { eapply Permutation_NoDup; [apply Permutation_map, Permutation_sym, P|]. unfold ds. rewrite combine_fst by auto. apply seq_NoDup. }
  destruct (uniq_ok (srt ds) So N) as (A & B & C). set (nzf := fun e : entry => if Req_EM_T (snd e) 0 then false else true). assert (StronglySorted eless (filter nzf (uniq (srt ds)))) as Sf by now apply filter_sorted.
  assert (forall e, In e (filter nzf (uniq (srt ds))) <-> In e (uniq (srt ds)) /\ snd e <> 0) as Fi. { intro e. rewrite filter_In. unfold nzf. destruct (Req_EM_T (snd e) 0); intuition congruence. }
  assert (forall v, In v vals -> exists e, In e (uniq (srt ds)) /\ snd e = v) as Cov.
  { intros v Hv. assert (In v (map snd (srt ds))) as Hs. { eapply Permutation_in; [apply Permutation_map, Permutation_sym, P|]. unfold ds. now rewrite combine_snd. } apply in_map_iff in Hs as (e & <- & He). now apply C. }
  assert (forall e, In e (uniq (srt ds)) -> In e ds) as Dn by (intros e He; eapply Permutation_in; [exact P|auto]).
  split.
  - intros e He. pose proof (firstn_in _ _ _ He) as He'. apply Fi in He' as [Hu Nz]. apply Dn in Hu as Hd. apply In_nth_error in Hd as (i & Ei). assert (i < length ds)%nat as Li by (apply nth_error_Some; congruence).
    unfold ds in Li, Ei. rewrite combine_length, seq_length in Li. unfold vals in Li. rewrite map_length in Li. destruct (nth_error Z i) as [p|] eqn:Ep; [|apply nth_error_None in Ep; lia]. exists i, p.
    assert (e = (S i, dist z (p_x p))) as ->.
    { apply nth_error_nth with (d := (0%nat, 0)) in Ei. rewrite combine_nth in Ei by auto. rewrite seq_nth in Ei by lia. rewrite <- Ei. f_equal. apply nth_error_nth. unfold vals. now rewrite nth_error_map, Ep. }
    cbn [fst snd] in *. split; [reflexivity|]. split; [auto|]. split; [reflexivity|]. split; [unfold vals; apply in_map_iff; exists p; split; [auto|eapply nth_error_In; eauto]|]. split; [auto|].
    destruct (eless_before _ _ _ Sf He) as (b & Lb & Pb). exists (map snd b). split; [now rewrite map_length|]. intros u Hu' Nu Lu. destruct (Cov u Hu') as (e & He'' & <-). apply Pb; [|exact Lu]. apply Fi. auto.
  - exists (length (filter nzf (uniq (srt ds)))). split; [|now rewrite firstn_length]. exists (map snd (filter nzf (uniq (srt ds)))). split; [now apply eless_nodup|]. split; [apply map_length|]. intro v. rewrite in_map_iff. split.
    + intros (e & <- & He). apply Fi in He as [He Nz]. split; [|auto]. apply Dn in He. apply (in_map snd) in He. unfold ds in He. now rewrite combine_snd in He.
    + intros [Hv Nz]. destruct (Cov v Hv) as (e & He & <-). exists e. split; [auto|]. apply Fi. auto.
Qed.

(** *** generation *)
Lemma zmin_ok l : forall pre b bi, nth_error pre bi = Some b -> (forall i x, nth_error pre i = Some x -> (b <= x)%Z) -> (forall i x, (i < bi)%nat -> nth_error pre i = Some x -> (b < x)%Z) ->
  let j := zmin_from b bi (length pre) l in exists v, nth_error (pre ++ l) j = Some v /\ (forall i x, nth_error (pre ++ l) i = Some x -> (v <= x)%Z) /\ (forall i x, (i < j)%nat -> nth_error (pre ++ l) i = Some x -> (v < x)%Z).
Proof.
  induction l as [|x l IH]; intros pre b bi E A B; cbn [zmin_from].
  - rewrite app_nil_r. exists b. auto.
  - assert (bi < length pre)%nat as Lb by (apply nth_error_Some; congruence). replace (pre ++ x :: l) with ((pre ++ [x]) ++ l) by now rewrite <- app_assoc. replace (S (length pre)) with (length (pre ++ [x])) by (rewrite app_length; cbn; lia).
    assert (forall i y, nth_error (pre ++ [x]) i = Some y -> (i < length pre)%nat /\ nth_error pre i = Some y \/ i = length pre /\ y = x) as C.
    { intros i y Q. destruct (Nat.lt_ge_cases i (length pre)); [left; split; [auto|now rewrite nth_error_app1 in Q]|]. right. rewrite nth_error_app2 in Q by auto.
      destruct (i - length pre)%nat eqn:Z; [|cbn in Q; destruct n; discriminate]. injection Q as <-. split; [lia|auto]. }
    destruct (Z.ltb_spec x b) as [Q|Q]; apply IH.
    + rewrite nth_error_app2, Nat.sub_diag by auto. reflexivity.
    + intros i y Hi. destruct (C i y Hi) as [[_ Z]|[_ ->]]; [apply A in Z; lia|lia].
    + intros i y Hi Z. destruct (C i y Z) as [[_ Z']|[-> _]]; [apply A in Z'; lia|lia].
    + now rewrite nth_error_app1.
    + intros i y Hi. destruct (C i y Hi) as [[_ Z]|[_ ->]]; [apply A in Z; lia|lia].
    + intros i y Hi Z. destruct (C i y Z) as [[_ Z']|[-> _]]; [apply (B i); auto|lia].
Qed.
Lemma zmin_element_ok l : l <> [] -> exists v, nth_error l (zmin_element l) = Some v /\ (forall i x, nth_error l i = Some x -> (v <= x)%Z) /\ (forall i x, (i < zmin_element l)%nat -> nth_error l i = Some x -> (v < x)%Z).
Proof.
  destruct l as [|x l]; [congruence|]. intros _. apply (zmin_ok l [x] x 0); [reflexivity| |].
  - intros [|[|i]] y E; cbn in E; try discriminate; injection E as <-; lia.
  - intros i y Hi; lia.
Qed.
Lemma minority_ok d : data_ok d -> d_points d <> [] -> exists c, vget (d_classes d) (zmin_element (d_dist d)) = Ok c /\ least_frequent d c.
Proof.
  intros D N. pose proof (ok_class _ D) as C. assert (d_dist d <> []) as Nd.
  { intro Z. pose proof (co_len _ C) as L. rewrite Z in L. destruct (d_points d) as [|p l] eqn:E; [congruence|]. pose proof (co_listed _ C p ltac:(rewrite E; now left)) as I. destruct (d_classes d); [destruct I|discriminate]. }
  destruct (zmin_element_ok _ Nd) as (v & Ev & Le & Lt). set (m := zmin_element (d_dist d)) in *.
  assert (m < length (d_classes d))%nat as Lm by (rewrite <- (co_len _ C); apply nth_error_Some; congruence). destruct (nth_error (d_classes d) m) as [c|] eqn:Ec; [|apply nth_error_None in Ec; lia].
  exists c. split; [unfold vget; now rewrite Ec|]. destruct (nth_error_split _ _ Ec) as (b & a & Es & Lb). exists b, a. split; [auto|].
  assert (forall i c', nth_error (d_classes d) i = Some c' -> nth_error (d_dist d) i = Some (Z.of_nat (length (points_of d c')))) as Co.
  { intros i c' Ei. rewrite (co_count _ C i c' Ei). unfold points_of. now rewrite L_Split.label_count_filter. }
  pose proof (Co m c Ec) as Em. rewrite Ev in Em. injection Em as ->. split.
  - intros c' Hc. apply In_nth_error in Hc as (i & Ei). assert (i < length b)%nat as Li by (apply nth_error_Some; congruence). assert (nth_error (d_classes d) i = Some c') as E' by (rewrite Es, nth_error_app1; auto). specialize (Lt i _ ltac:(lia) (Co i c' E')). lia.
  - intros c' Hc. apply In_nth_error in Hc as (i & Ei). assert (nth_error (d_classes d) (length b + S i) = Some c') as E'. { rewrite Es, nth_error_app2 by lia. replace (length b + S i - length b)%nat with (S i) by lia. exact Ei. } specialize (Le _ _ (Co _ c' E')). lia.
Qed.
Lemma copied_minority d c : d_points (classesCopy data_empty d [c]) = points_of d c.
Proof.
  unfold classesCopy, points_of. cbn [d_points data_empty app]. rewrite (map_ext _ (fun p => p)) by (intros []; reflexivity). rewrite map_id. apply filter_ext. intro p. cbn [existsb]. apply orb_false_r.
Qed.
Section Gen.
Context (dist : list R -> list R -> R) (srt : list (nat * R) -> list (nat * R)) (al : nat -> R) (k : nat) (d : data R) (c : Z).
Hypothesis (Hs : sorts_by_distance srt) (Hd : data_ok d).
Let M := points_of d c.
Lemma minority_in p : In p M -> In p (d_points d).
Proof. unfold M, points_of. rewrite filter_In. tauto. Qed.
Lemma one_ok z s : In z M -> exists g, smote_one dist srt al k c d M s z = Ok (fst s ++ g, (snd s + length g)%nat) /\ Forall (fun q => smote_from al dist k d c z q /\ length (p_x q) = d_dim d /\ p_alpha q = 0) g /\
  exists n, distinct_nonzero (map (fun p => dist (p_x z) (p_x p)) M) n /\ length g = Nat.min k n.
Proof.
  intro Hz. unfold smote_one. destruct (near_ok dist srt k M (p_x z) Hs) as (A & n & Dn & L).
  assert (exists g, ofold (fun s e => let* w := vget (d_points d) (fst e - 1) in let* p := smote_point c (al (snd s)) (p_x z) (p_x w) in Ok (fst s ++ [p], S (snd s))) (near_entries dist srt k M (p_x z)) s = Ok (fst s ++ g, (snd s + length g)%nat) /\
    Forall (fun q => smote_from al dist k d c z q /\ length (p_x q) = d_dim d /\ p_alpha q = 0) g /\ length g = length (near_entries dist srt k M (p_x z))) as (g & E & F & Lg).
  2: { exists g. split; [exact E|]. split; [exact F|]. exists n. split; [auto|]. now rewrite Lg. }
  clear L. revert A s. induction (near_entries dist srt k M (p_x z)) as [|e l IH]; intros A s; cbn [ofold].
  - exists []. rewrite app_nil_r. cbn [length]. rewrite Nat.add_0_r. split; [destruct s; reflexivity|]. split; constructor.
  - destruct (A e (or_introl eq_refl)) as (i & near & Fe & En & Se & Al). rewrite Fe. replace (S i - 1)%nat with i by lia.
    assert (i < length (d_points d))%nat as Li. { assert (i < length M)%nat as X by (apply nth_error_Some; congruence). unfold M, points_of in X. pose proof (filter_length_le' (fun p => Z.eqb (p_y p) c) (d_points d)). lia. }
    destruct (nth_error (d_points d) i) as [w|] eqn:Ew; [|apply nth_error_None in Ew; lia]. unfold vget at 1. rewrite Ew. cbn [obind]. unfold smote_point at 1.
    assert (length (p_x z) = d_dim d) as Lz by (apply (ok_dim _ Hd), minority_in, Hz). assert (length (p_x w) = d_dim d) as Lw by (apply (ok_dim _ Hd); eapply nth_error_In; eauto). rewrite Lz, Lw, Nat.eqb_refl. cbn [obind].
    destruct (IH ltac:(intros; apply A; now right) (fst s ++ [mkPoint (beyond (p_x z) (p_x w) (al (snd s))) c 0%Z 0], S (snd s))) as (g & E & F & Lg). cbn [fst snd] in E. unfold beyond in E at 1. rewrite E.
    exists (mkPoint (beyond (p_x z) (p_x w) (al (snd s))) c 0%Z 0 :: g). split; [rewrite <- app_assoc; cbn [app length]; do 2 f_equal; lia|]. split; [|cbn [length]; now rewrite Lg].
    constructor; [|exact F]. cbn [p_x p_alpha]. split; [|split; [unfold beyond; rewrite map_length, combine_length; lia|reflexivity]]. exists i, near, w, (snd s). rewrite Se in Al. split; [exact En|]. split; [exact Al|]. split; [exact Ew|]. split; reflexivity.
Qed.
Lemma gen_ok zs : incl zs M -> forall s, exists groups, ofold (smote_one dist srt al k c d M) zs s = Ok (fst s ++ concat groups, (snd s + length (concat groups))%nat) /\
  Forall2 (fun z g => Forall (fun q => smote_from al dist k d c z q /\ length (p_x q) = d_dim d /\ p_alpha q = 0) g /\ exists n, distinct_nonzero (map (fun p => dist (p_x z) (p_x p)) M) n /\ length g = Nat.min k n) zs groups.
Proof.
  induction zs as [|z zs IH]; intros I s; cbn [ofold].
  - exists []. cbn. rewrite app_nil_r, Nat.add_0_r. split; [destruct s; reflexivity|constructor].
  - destruct (one_ok z s (I z (or_introl eq_refl))) as (g & E & F & Ln). rewrite E. cbn [obind]. destruct (IH ltac:(intros y Hy; apply I; now right) (fst s ++ g, (snd s + length g)%nat)) as (gs & E' & F'). rewrite E'. cbn [fst snd].
    exists (g :: gs). cbn [concat]. rewrite app_length, app_assoc, Nat.add_assoc. split; [reflexivity|]. constructor; auto.
Qed.
End Gen.
(** *** insertion *)
Lemma insert_all_ok pts : forall d : data R, data_ok d -> d_points d <> [] -> (forall p, In p pts -> length (p_x p) = d_dim d) -> (Z.of_nat (length (d_points d) + length pts) < 2 ^ 63)%Z ->
  exists d' new, ofold (fun d p => let* r := insertPoint d p false in Ok (fst r)) pts d = Ok d' /\ data_ok d' /\ d_points d' = d_points d ++ new /\ map content new = map content pts.
Proof.
  induction pts as [|p pts IH]; intros d D N L C; cbn [ofold].
  - exists d, []. rewrite app_nil_r. auto.
  - assert (dim d = d_dim d) as Ed. { unfold dim. destruct (d_points d) as [|q r] eqn:E; [congruence|]. apply (ok_dim _ D). rewrite E. now left. }
    destruct (insertPoint_accept d p false) as (d1 & E1 & P1 & _ & _ & _ & D1 & _); [right; rewrite Ed; apply L; now left|apply (ok_size _ D)|apply (co_len _ (ok_class _ D))|]. rewrite E1. cbn [obind fst].
    cbn [length] in C. assert (data_ok d1) as D1' by (eapply insertPoint_ok; [exact D| |exact E1]; lia).
    assert (d_dim d1 = d_dim d) as Q. { rewrite D1. destruct (Nat.eqb_spec (d_dim d) 0) as [Z|_]; [|auto]. apply L. now left. }
    destruct (IH d1 D1') as (d' & new & E & D' & P & Cn).
    + rewrite P1. destruct (d_points d); discriminate.
    + intros q Hq. rewrite Q. apply L. now right.
    + rewrite P1, app_length. cbn [length]. lia.
    + exists d', (with_id (Z.of_nat (S (length (d_points d)))) p :: new). split; [exact E|]. split; [auto|]. split; [rewrite P, P1, <- app_assoc; reflexivity|]. cbn [map]. rewrite Cn. reflexivity.
Qed.
(** *** theorems *)
Lemma Forall2_weaken {A B} (P Q : A -> B -> Prop) l l' : (forall a b, P a b -> Q a b) -> Forall2 P l l' -> Forall2 Q l l'.
Proof. induction 2; constructor; auto. Qed.
Lemma Forall2_in_right {A B} (P : A -> B -> Prop) l l' b : Forall2 P l l' -> In b l' -> exists a, In a l /\ P a b.
Proof. induction 1 as [|x y l l' Hp F IH]; intros I; [destruct I|]. destruct I as [<-|I]; [exists x; split; [now left|auto]|]. destruct (IH I) as (a & Ia & Pa). exists a. split; [now right|auto]. Qed.
(** C63: SMOTE keeps the points of the dataset, in place, and appends artificial points of the least frequent class only: for each point of it, one for each of its
    min(k, number of different non-zero distances) nearest points of that class. The other end is read from the whole dataset, and the point lies beyond the first end. *)
Lemma c63_smote : forall dist srt al k (d : data R), sorts_by_distance srt -> data_ok d -> d_points d <> [] ->
  exists c groups, least_frequent d c /\
    Forall2 (fun z g => Forall (smote_from al dist k d c z) g /\ exists n, distinct_nonzero (map (fun p => dist (p_x z) (p_x p)) (points_of d c)) n /\ length g = Nat.min k n) (points_of d c) groups /\
    forall perm, Permutation perm (seq 0 (length (concat groups))) -> (Z.of_nat (length (d_points d) + length (concat groups)) < 2 ^ 63)%Z ->
      exists d' new, smote dist srt al k perm d = Ok d' /\ data_ok d' /\ d_points d' = d_points d ++ new /\ Permutation (map content new) (map content (concat groups)).
Proof.
  intros dist srt al k d Hs D N. destruct (minority_ok d D N) as (c & Ec & Lf). destruct (gen_ok dist srt al k d c Hs D (points_of d c) ltac:(apply incl_refl) ([], 0%nat)) as (groups & E & F).
  exists c, groups. split; [auto|]. split.
  - eapply Forall2_weaken; [|exact F]. cbv beta. intros z g (A & B). split; [|exact B]. eapply Forall_impl; [|exact A]. cbv beta. tauto.
  - intros perm P C. unfold smote. rewrite Ec. cbn [obind]. rewrite copied_minority, E. cbn [obind fst app]. destruct (permute_perm (concat groups) perm P) as (new & En & Pn & _). rewrite En. cbn [obind].
    destruct (insert_all_ok new d D N) as (d' & ins & Ed & D' & Pd & Cd).
    + intros p Hp. apply (Permutation_in _ Pn), in_concat in Hp. destruct Hp as (g & Hg & Hp). destruct (Forall2_in_right _ _ _ _ F Hg) as (z & _ & A & _). rewrite Forall_forall in A. apply A. exact Hp.
    + rewrite (Permutation_length Pn). exact C.
    + exists d', ins. split; [exact Ed|]. split; [exact D'|]. split; [exact Pd|]. rewrite Cd. apply Permutation_map, Pn.
Qed.
(** C63: when the points of the least frequent class stand first in the dataset, the other end is the near point itself. *)
Lemma c63_front : forall al dist k (d : data R) c z s rest, d_points d = points_of d c ++ rest -> smote_from al dist k d c z s ->
  exists near t, In near (points_of d c) /\ among_least k (map (fun p => dist (p_x z) (p_x p)) (points_of d c)) (dist (p_x z) (p_x near)) /\ p_x s = beyond (p_x z) (p_x near) (al t) /\ p_y s = c.
Proof.
  intros al dist k d c z s rest E (i & near & other & t & En & A & Eo & X & Y). rewrite E, nth_error_app1 in Eo by (apply nth_error_Some; congruence). assert (other = near) as -> by congruence. exists near, t. split; [eapply nth_error_In; eauto|]. auto.
Qed.

(** *** witnesses *)
Definition dist1 (x y : list R) : R := Rabs (nth 0 x 0 - nth 0 y 0).
Definition rsort (l : list (nat * R)) : list (nat * R) := isort (fun a b => if Rle_dec (snd a) (snd b) then true else false) l.
Definition half : nat -> R := fun _ => / 2.
Definition mk1 (x : R) (c i : Z) : point R := mkPoint [x] c i 0.
Definition mfront : data R := mkData [mk1 10 2 1; mk1 12 2 2; mk1 0 1 3; mk1 1 1 4; mk1 2 1 5] [1]%Z [0; 1; 2; 3; 4]%Z ["2"; "1"]%string [2; 1]%Z [2; 3]%Z 5 1 false false false true.
Definition mback : data R := mkData [mk1 0 1 1; mk1 1 1 2; mk1 2 1 3; mk1 10 2 4; mk1 12 2 5] [1]%Z [0; 1; 2; 3; 4]%Z ["1"; "2"]%string [1; 2]%Z [3; 2]%Z 5 1 false false false true.
Lemma rsort_ok : sorts_by_distance rsort.
Proof.
  intro l. split; [apply isort_perm|]. unfold rsort. set (leb := fun a b : nat * R => if Rle_dec (snd a) (snd b) then true else false).
  assert (StronglySorted (fun a b => leb a b = true) (isort leb l)) as H. { apply isort_sorted; unfold leb; [intros a b|intros a b c]; repeat (destruct (Rle_dec _ _)); auto; try discriminate; lra. }
  induction H as [|a r _ IH F]; constructor; [auto|]. eapply Forall_impl; [|exact F]. intros b. unfold leb. destruct (Rle_dec _ _); [auto|discriminate].
Qed.
Ltac data5 := constructor; [reflexivity| |reflexivity|cbn; lia| |reflexivity| | |discriminate|cbn; lia];
  [constructor; [reflexivity|repeat constructor; cbn; intuition discriminate|intros p Hp; cbn in Hp; intuition (subst; cbn; auto)|reflexivity|intros [|[|[|i]]] c E; cbn in E; try discriminate; injection E as <-; reflexivity]
  |intros p Hp; cbn in Hp; intuition (subst; reflexivity)|repeat constructor|intros f [<-|[]]; lia].
Lemma mfront_ok : data_ok mfront.
Proof. data5. Qed.
Lemma mback_ok : data_ok mback.
Proof. data5. Qed.
Lemma front_class c : least_frequent mfront c -> c = 2%Z.
Proof.
  intros (b & a & E & A & B). cbn [d_classes mfront] in E. destruct b as [|x [|y b]]; cbn [app] in E; [congruence| |destruct b; discriminate]. injection E as <- <- <-. specialize (A 2%Z (or_introl eq_refl)). vm_compute in A. lia.
Qed.
Lemma back_class c : least_frequent mback c -> c = 2%Z.
Proof.
  intros (b & a & E & A & B). cbn [d_classes mback] in E. destruct b as [|x [|y b]]; cbn [app] in E; [|congruence|destruct b; discriminate]. injection E as <- <-. specialize (B 2%Z (or_introl eq_refl)). vm_compute in B. lia.
Qed.

(** The witnesses give one group per minority point, and a first artificial point. *)
Lemma some_new k (d : data R) c groups z g : points_of d c = z :: g -> (0 < k)%nat -> (exists p, In p (points_of d c) /\ dist1 (p_x z) (p_x p) <> 0) ->
  Forall2 (fun z g => Forall (smote_from half dist1 k d c z) g /\ exists n, distinct_nonzero (map (fun p => dist1 (p_x z) (p_x p)) (points_of d c)) n /\ length g = Nat.min k n) (points_of d c) groups ->
  exists s, In s (concat groups) /\ smote_from half dist1 k d c z s.
Proof.
  intros E K (p & Ip & Np) F. rewrite E in *. inversion F as [|? g1 ? gs (A & n & (vs & Nv & Lv & Iv) & L) F' Q1 Q2]; subst. destruct g1 as [|s g1].
  - exfalso. destruct vs as [|v vs]; [|cbn in L; lia]. apply (Iv (dist1 (p_x z) (p_x p))). split; [|auto]. apply in_map_iff. eauto.
  - exists s. split; [now left|]. inversion A; auto.
Qed.
Lemma few_new (P : point R -> list (point R) -> Prop) k l groups : Forall2 (fun z g => P z g /\ exists n, length g = Nat.min k n) l groups -> (length (concat groups) <= k * length l)%nat.
Proof. induction 1 as [|z g l gs (_ & n & L) F IH]; [cbn; lia|]. cbn [concat length]. rewrite app_length. nia. Qed.
Lemma seg1 z w x y : on_segment [z] [w] [x] -> (z <= y -> w <= y -> x <= y) /\ (y <= z -> y <= w -> y <= x).
Proof. intros (t & Ht & E). cbn in E. injection E as ->. split; intros; nra. Qed.
Lemma run_new (d : data R) z w rest : data_ok d -> d_points d <> [] -> length (d_points d) = 5%nat -> (forall c, least_frequent d c -> c = 2%Z) -> points_of d 2 = [z; w] -> rest = [z; w] -> dist1 (p_x z) (p_x w) <> 0 ->
  exists d' perm p s, least_frequent d 2%Z /\ smote dist1 rsort half 1 perm d = Ok d' /\ In p (d_points d') /\ content p = content s /\ smote_from half dist1 1 d 2 z s.
Proof.
  intros D N L5 Lc Ep _ Nz. destruct (c63_smote dist1 rsort half 1 d rsort_ok D N) as (c & groups & Lf & F & G). pose proof (Lc c Lf) as ->.
  destruct (some_new 1 d 2%Z groups z [w] Ep ltac:(lia)) as (s & Is & Fs); [exists w; split; [rewrite Ep; right; now left|auto]|exact F|].
  destruct (G (seq 0 (length (concat groups))) ltac:(reflexivity)) as (d' & new & E & _ & P & Q).
  { assert (length (concat groups) <= 1 * length (points_of d 2))%nat as X. { apply (few_new (fun _ _ => True)). eapply Forall2_weaken; [|exact F]. cbv beta. intros a b (_ & n & _ & X). split; [auto|]. eauto. } rewrite Ep in X. cbn [length] in X. lia. }
  apply (in_map content) in Is. apply (Permutation_in _ (Permutation_sym Q)), in_map_iff in Is. destruct Is as (p & Cp & Ip).
  exists d', (seq 0 (length (concat groups))), p, s. split; [auto|]. split; [auto|]. split; [rewrite P; apply in_or_app; now right|]. auto.
Qed.
Lemma from_two (d : data R) z w s : points_of d 2 = [z; w] -> dist1 (p_x z) (p_x z) = 0 -> smote_from half dist1 1 d 2 z s -> exists o, nth_error (d_points d) 1 = Some o /\ p_x s = beyond (p_x z) (p_x o) (/ 2) /\ p_y s = 2%Z.
Proof.
  intros Ep Z (i & near & other & t & En & (_ & A & _) & Eo & X & Y). rewrite Ep in En. destruct i as [|[|i]]; cbn in En; [injection En as <-; contradiction| |destruct i; discriminate]. exists other. auto.
Qed.
(** C63: the artificial points are not on the segments between minority points, even when the other end is the near point. *)
Lemma c63_segment_refuted : exists (d d' : data R) perm p, sorts_by_distance rsort /\ data_ok d /\ (exists rest, d_points d = points_of d 2 ++ rest) /\ least_frequent d 2%Z /\
  smote dist1 rsort half 1 perm d = Ok d' /\ In p (d_points d') /\ p_y p = 2%Z /\ forall z w, In z (points_of d 2) -> In w (points_of d 2) -> ~ on_segment (p_x z) (p_x w) (p_x p).
Proof.
  destruct (run_new mfront (mk1 10 2 1) (mk1 12 2 2) _ mfront_ok ltac:(discriminate) eq_refl front_class eq_refl eq_refl) as (d' & perm & p & s & Lf & E & Ip & Cp & Fs); [unfold dist1, mk1; cbn [p_x nth]; apply Rabs_no_R0; lra|].
  destruct (from_two mfront (mk1 10 2 1) (mk1 12 2 2) s eq_refl) as (o & Eo & X & Y); [unfold dist1; rewrite Rminus_diag_eq by auto; apply Rabs_R0|exact Fs|]. cbn in Eo. injection Eo as <-. injection Cp as Cx Cy _.
  exists mfront, d', perm, p. split; [apply rsort_ok|]. split; [apply mfront_ok|]. split; [eexists; reflexivity|]. split; [auto|]. split; [auto|]. split; [auto|]. split; [congruence|].
  intros a b Ia Ib S. rewrite Cx, X in S. assert (forall q, In q (points_of mfront 2) -> exists v, p_x q = [v] /\ 10 <= v) as V. { intros q Hq. cbn in Hq. destruct Hq as [<-|[<-|[]]]; cbn; eexists; split; [reflexivity|lra|reflexivity|lra]. }
  destruct (V a Ia) as (va & Ea & La). destruct (V b Ib) as (vb & Eb & Lb). rewrite Ea, Eb in S. cbn in S. destruct (seg1 _ _ _ 10 S) as (_ & Q). specialize (Q La Lb). lra.
Qed.
(** C63: an artificial point need not even be built from two minority points. *)
Lemma c63_neighbour_refuted : exists (d d' : data R) perm p, sorts_by_distance rsort /\ data_ok d /\ least_frequent d 2%Z /\
  smote dist1 rsort half 1 perm d = Ok d' /\ In p (d_points d') /\ p_y p = 2%Z /\ forall z w a, 0 <= a < 1 -> In z (points_of d 2) -> In w (points_of d 2) -> p_x p <> beyond (p_x z) (p_x w) a.
Proof.
  destruct (run_new mback (mk1 10 2 4) (mk1 12 2 5) _ mback_ok ltac:(discriminate) eq_refl back_class eq_refl eq_refl) as (d' & perm & p & s & Lf & E & Ip & Cp & Fs); [unfold dist1, mk1; cbn [p_x nth]; apply Rabs_no_R0; lra|].
  destruct (from_two mback (mk1 10 2 4) (mk1 12 2 5) s eq_refl) as (o & Eo & X & Y); [unfold dist1; rewrite Rminus_diag_eq by auto; apply Rabs_R0|exact Fs|]. cbn in Eo. injection Eo as <-. injection Cp as Cx Cy _.
  exists mback, d', perm, p. split; [apply rsort_ok|]. split; [apply mback_ok|]. split; [auto|]. split; [auto|]. split; [auto|]. split; [congruence|].
  intros a b t Ht Ia Ib S. rewrite Cx, X in S. cbn in Ia, Ib. destruct Ia as [<-|[<-|[]]]; destruct Ib as [<-|[<-|[]]]; cbn in S; injection S as S; lra.
Qed.
Lemma c63_smote_ex : sorts_by_distance rsort /\ data_ok mback /\ d_points mback <> [] /\ least_frequent mback 2%Z /\ length (points_of mback 2) = 2%nat.
Proof. split; [apply rsort_ok|]. split; [apply mback_ok|]. split; [discriminate|]. split; [|reflexivity]. exists [1%Z], []. split; [reflexivity|]. split; [intros c [<-|[]]; vm_compute; lia|intros c []]. Qed.
Lemma c63_front_ex : exists rest s, d_points mfront = points_of mfront 2 ++ rest /\ smote_from half dist1 1 mfront 2 (mk1 10 2 1) s.
Proof.
  eexists. exists (mkPoint (beyond [10] [12] (half 0)) 2%Z 0%Z 0). split; [reflexivity|]. destruct (run_new mfront (mk1 10 2 1) (mk1 12 2 2) _ mfront_ok ltac:(discriminate) eq_refl front_class eq_refl eq_refl) as (d' & perm & p & s & _ & _ & _ & _ & Fs); [unfold dist1, mk1; cbn [p_x nth]; apply Rabs_no_R0; lra|]. 
  exists 1%nat, (mk1 12 2 2), (mk1 12 2 2), 0%nat. split; [reflexivity|]. split; [|split; [reflexivity|split; [reflexivity|reflexivity]]].
  destruct Fs as (i & near & other & t & En & A & _). destruct i as [|[|i]]; cbn in En; [injection En as <-|injection En as <-; exact A|destruct i; discriminate]. destruct A as (_ & A & _). elim A. unfold dist1. rewrite Rminus_diag_eq by auto. apply Rabs_R0.
Qed.
