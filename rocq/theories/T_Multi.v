(** Property lemmas for the multi-class wrappers: C42, C43, C85. *)
From Coq Require Import ZArith Bool List Reals Lia Lra.
From Verif Require Import Base ListLib M_Data S_Data Loop M_Heap L_Heap M_Ens S_Ens T_Ens M_Multi S_Multi T_Data T_Heap.
Import ListNotations.
Local Open Scope nat_scope.

(** *** training sets *)
Lemma view_meta {T} hp (h : hdata T) d : view hp h = Ok d -> d_classes (h_meta h) = d_classes d.
Proof. intro V. apply view_ok in V as [_ E]. rewrite E. reflexivity. Qed.
Lemma copy_points {T} (d : data T) : d_points (copy d) = d_points d.
Proof. unfold copy. cbn [d_points]. rewrite <- (map_id (d_points d)) at 2. apply map_ext. now intros []. Qed.
Lemma copy_any {T} hp (s : hdata T) d : view hp s = Ok d -> exists hp1 cp, h_copy hp s = Ok (hp1, cp) /\ hp1 = hp ++ d_points d /\ h_refs cp = seq (length hp) (length (d_points d)) /\ view hp1 cp = Ok (copy d) /\ h_meta cp = strip (copy d).
Proof.
  intro V. unfold h_copy. rewrite V. cbn [obind]. unfold alloc. rewrite copy_points. do 2 eexists. split; [reflexivity|]. split; [auto|]. split; [auto|]. split; [|auto]. apply view_strip. rewrite copy_points. apply reads_fresh.
Qed.
Lemma firstn_upd {A} (f : A -> A) l : forall i a, nth_error l i = Some a -> vupd i f (map f (firstn i l) ++ skipn i l) = Ok (map f (firstn (S i) l) ++ skipn (S i) l).
Proof.
  unfold vupd. induction l as [|x l IH]; intros [|i] a E; try discriminate; [reflexivity|]. cbn [firstn map skipn app upd]. specialize (IH i a E). destruct (upd i f _) as [r|]; [|discriminate]. injection IH as ->. reflexivity.
Qed.
Lemma relabel_ok {T} hp (h : hdata T) pts c : reads hp (h_refs h) pts -> NoDup (h_refs h) ->
  exists hp', relabel_all hp h c = Ok hp' /\ reads hp' (h_refs h) (map (binary c) pts) /\ length hp' = length hp /\ (forall j, ~ In j (h_refs h) -> nth_error hp' j = nth_error hp j).
Proof.
  intros R ND. unfold relabel_all.
  destruct (ofold_seq (fun hp j => h_write hp h j (binary c)) (fun i hp' => reads hp' (h_refs h) (map (binary c) (firstn i pts) ++ skipn i pts) /\ length hp' = length hp /\ (forall j, ~ In j (h_refs h) -> nth_error hp' j = nth_error hp j)) (length (h_refs h)) hp) as (hp' & E & R' & L & K).
  - cbn. auto.
  - intros i t Hi (Rt & Lt & Kt). unfold h_write. rewrite (reads_len _ _ _ R) in Hi. destruct (nth_error pts i) as [p|] eqn:Ep; [|apply nth_error_None in Ep; lia].
    destruct (upd_reads _ _ _ i (binary c) _ Rt ND (firstn_upd (binary c) pts i p Ep)) as (r & t' & E1 & I & E2 & R2 & L2 & K2). rewrite E1. cbn [obind]. exists t'. split; [auto|]. split; [auto|]. split; [congruence|]. intros j N. rewrite K2, Kt; auto. intros ->. contradiction.
  - exists hp'. split; [auto|]. split; [|auto]. rewrite (reads_len _ _ _ R), firstn_all, skipn_all, app_nil_r in R'. auto.
Qed.
Lemma one_against_ok {T} c (pts : list (point T)) : Forall2 (one_against c) pts (map (binary c) pts).
Proof. induction pts as [|p ps IH]; constructor; auto. unfold one_against, binary. cbn. destruct (Z.eqb_spec (p_y p) c); repeat split; congruence. Qed.
(** the datasets that exist keep what they read *)
Definition same_reads {T} (hp hp' : heap T) : Prop := forall (o : hdata T) do, view hp o = Ok do -> view hp' o = Ok do.
Lemma same_trans {T} (a b c : heap T) : same_reads a b -> same_reads b c -> same_reads a c.
Proof. unfold same_reads. auto. Qed.
Lemma same_app {T} (hp tl : heap T) : same_reads hp (hp ++ tl).
Proof. intros o do V. apply view_ok in V as [R E]. apply view_ok. split; [now apply reads_app|auto]. Qed.
Lemma same_fresh {T} (hp hp1 hp2 : heap T) refs : same_reads hp hp1 -> (forall r, In r refs -> length hp <= r) -> (forall j, ~ In j refs -> nth_error hp2 j = nth_error hp1 j) -> same_reads hp hp2.
Proof.
  intros S F K o do V. eapply view_frame; [apply S, V|]. intros r p I E. rewrite K; [auto|]. intro J. specialize (F r J). apply view_ok in V as [R _]. eapply reads_lt in I; eauto. lia.
Qed.
Definition binary_set {T} (c : Z) (pts : list (point T)) (d v : data T) : Prop :=
  Forall2 (one_against c) pts (d_points v) /\ d_size v = length pts /\ d_classes v = [-1; 1]%Z /\ d_fnames v = d_fnames d /\ d_index v = d_index d.
Lemma relabelled {T} hp hp1 (t : hdata T) pts d c : same_reads hp hp1 -> reads hp1 (h_refs t) pts -> NoDup (h_refs t) -> (forall r, In r (h_refs t) -> length hp <= r) ->
  d_fnames (h_meta t) = d_fnames d -> d_index (h_meta t) = d_index d ->
  exists hp2 hp' h v, relabel_all hp1 (h_setClasses t [-1; 1]%Z) c = Ok hp2 /\ h_copy hp2 (h_setClasses t [-1; 1]%Z) = Ok (hp', h) /\ view hp' h = Ok v /\ binary_set c pts d v /\ same_reads hp hp'.
Proof.
  intros Sm R ND F Fn Ix. destruct (relabel_ok hp1 (h_setClasses t [-1; 1]%Z) pts c R ND) as (hp2 & E & R2 & L & K). set (w := with_points (map (binary c) pts) (h_meta (h_setClasses t [-1; 1]%Z))).
  assert (view hp2 (h_setClasses t [-1; 1]%Z) = Ok w) as V2 by (apply view_ok; split; [exact R2|reflexivity]). destruct (copy_any _ _ _ V2) as (hp' & cp & Ec & -> & Er & Vc & _).
  do 3 eexists. exists (copy w). split; [exact E|]. split; [exact Ec|]. split; [exact Vc|]. split.
  - split; [rewrite copy_points; apply one_against_ok|]. split; [unfold copy, size; cbn; now rewrite map_length|]. auto.
  - eapply same_trans; [|apply same_app]. eapply same_fresh; [exact Sm|exact F|]. intros j N. apply K. exact N.
Qed.
Lemma ova_set_ok {T} hp (s : hdata T) d c : view hp s = Ok d -> exists hp' h v, ova_set hp s c = Ok (hp', h) /\ view hp' h = Ok v /\ binary_set c (d_points d) d v /\ same_reads hp hp'.
Proof.
  intro V. unfold ova_set. destruct (copy_any hp s d V) as (hp1 & t & Ec & -> & Er & Vt & Em). rewrite Ec. cbn [obind]. cbv zeta.
  destruct (relabelled hp (hp ++ d_points d) t (d_points d) d c) as (hp2 & hp' & h & v & E2 & E3 & V3 & B & S).
  - apply same_app.
  - rewrite Er. apply reads_fresh.
  - rewrite Er. apply seq_NoDup.
  - rewrite Er. intros r I. apply in_seq in I. lia.
  - rewrite Em. reflexivity.
  - rewrite Em. reflexivity.
  - rewrite E2. cbn [obind]. exists hp', h, v. auto.
Qed.
Lemma ovo_set_ok {T} hp (s : hdata T) d ci cj : view hp s = Ok d ->
  exists hp' h v, ovo_set hp s ci cj = Ok (hp', h) /\ view hp' h = Ok v /\ binary_set ci (filter (fun p => Z.eqb (p_y p) ci || Z.eqb (p_y p) cj) (d_points d)) d v /\ same_reads hp hp'.
Proof.
  intro V. unfold ovo_set, h_classesCopy. rewrite V. change (view hp (mkH [] (strip data_empty))) with (Ok (@data_empty T)). cbn [obind h_refs length skipn]. set (r := classesCopy data_empty d [ci; cj]). cbv zeta.
  assert (d_points r = filter (fun p => Z.eqb (p_y p) ci || Z.eqb (p_y p) cj) (d_points d)) as P.
  { unfold r, classesCopy. cbn [d_points data_empty app]. rewrite <- (map_id (filter (fun p => Z.eqb (p_y p) ci || Z.eqb (p_y p) cj) (d_points d))). rewrite (filter_ext (fun p => existsb (Z.eqb (p_y p)) [ci; cj]) (fun p => Z.eqb (p_y p) ci || Z.eqb (p_y p) cj)).
    - apply map_ext. now intros [].
    - intro p. cbn. now rewrite orb_false_r. }
  cbn [app]. destruct (relabelled hp (hp ++ d_points r) (mkH (seq (length hp) (length (d_points r))) (strip r)) (d_points r) d ci) as (hp2 & hp' & h & v & E2 & E3 & V3 & B & S).
  - apply same_app.
  - apply reads_fresh.
  - apply seq_NoDup.
  - cbn [h_refs]. intros k I. apply in_seq in I. lia.
  - reflexivity.
  - reflexivity.
  - rewrite E2. cbn [obind]. exists hp', h, v. rewrite <- P. auto.
Qed.
Lemma sets_ok {T C} (mk : heap T -> C -> outcome (heap T * hdata T)) (good : C -> data T -> Prop) (s : hdata T) d cs hp :
  (forall hp c, view hp s = Ok d -> exists hp' h v, mk hp c = Ok (hp', h) /\ view hp' h = Ok v /\ good c v /\ same_reads hp hp') -> view hp s = Ok d ->
  exists hp' sets, ofold (fun st c => let* (hp', h) := mk (fst st) c in Ok (hp', snd st ++ [h])) cs (hp, []) = Ok (hp', sets) /\ Forall2 (fun c h => exists v, view hp' h = Ok v /\ good c v) cs sets /\ same_reads hp hp'.
Proof.
  intros M V. destruct (ofold_list (fun st c => let* (hp', h) := mk (fst st) c in Ok (hp', snd st ++ [h])) (fun done st => Forall2 (fun c h => exists v, view (fst st) h = Ok v /\ good c v) done (snd st) /\ same_reads hp (fst st)) cs (hp, [])) as ([hp' sets] & E & F & S).
  - split; [constructor|intros o do; auto].
  - intros done c r [h1 ss] E [F S]. cbn [fst snd] in *. destruct (M h1 c) as (h2 & h & v & E2 & V2 & G & S2); [apply S, V|]. rewrite E2. cbn [obind]. eexists. split; [reflexivity|]. cbn [fst snd]. split.
    + apply Forall2_app; [|constructor; [eauto|constructor]]. clear -F S2. induction F as [|a b la lb (w & W1 & W2) F IH]; constructor; [exists w; split; [now apply S2|auto]|auto].
    + eapply same_trans; eauto.
  - exists hp', sets. auto.
Qed.
(** C43: learner i is trained on all the points, labelled +1 for class i and -1 otherwise, and no dataset that existed before is changed. *)
Lemma c43_train : forall (T : Type) (hp : heap T) (s : hdata T) (d : data T), view hp s = Ok d ->
  exists hp' sets, ova_train hp s = Ok (hp', sets) /\
    Forall2 (fun c h => exists v, view hp' h = Ok v /\ Forall2 (one_against c) (d_points d) (d_points v) /\ d_size v = length (d_points d) /\ d_classes v = [-1; 1]%Z /\ d_fnames v = d_fnames d /\ d_index v = d_index d) (d_classes d) sets /\
    forall other do, view hp other = Ok do -> view hp' other = Ok do.
Proof.
  intros T hp s d V. unfold ova_train. rewrite (view_meta _ _ _ V). apply (sets_ok (fun hp c => ova_set hp s c) (fun c v => binary_set c (d_points d) d v) s d); [|auto]. intros. now apply ova_set_ok.
Qed.
Lemma c43_train_ex : view hp3 h3 = Ok ex3 /\ d_classes ex3 = [1; -1]%Z.
Proof. split; [apply view3|vm_compute; reflexivity]. Qed.
(** C42: the learner of ci against cj is trained on the points of these two classes, labelled +1 for ci and -1 for cj; there is one for every ordered pair of different classes. *)
Lemma ovo_pairs_in classes ci cj : In (ci, cj) (ovo_pairs classes) <-> In ci classes /\ In cj classes /\ ci <> cj.
Proof.
  unfold ovo_pairs. rewrite in_flat_map. split.
  - intros (x & Ix & I). apply in_map_iff in I as (y & E & Iy). injection E as -> ->. apply filter_In in Iy as [Iy N]. destruct (Z.eqb_spec ci cj); [discriminate|auto].
  - intros (A & B & N). exists ci. split; [auto|]. apply in_map_iff. exists cj. split; [auto|]. apply filter_In. split; [auto|]. destruct (Z.eqb_spec ci cj); [contradiction|auto].
Qed.
Lemma c42_train : forall (T : Type) (hp : heap T) (s : hdata T) (d : data T), view hp s = Ok d ->
  exists hp' pairs sets, ovo_train hp s = Ok (hp', sets) /\ (forall ci cj, In (ci, cj) pairs <-> In ci (d_classes d) /\ In cj (d_classes d) /\ ci <> cj) /\
    Forall2 (fun c h => exists v, view hp' h = Ok v /\ Forall2 (one_against (fst c)) (filter (fun p => Z.eqb (p_y p) (fst c) || Z.eqb (p_y p) (snd c)) (d_points d)) (d_points v) /\ d_classes v = [-1; 1]%Z /\ d_fnames v = d_fnames d) pairs sets /\
    forall other do, view hp other = Ok do -> view hp' other = Ok do.
Proof.
  intros T hp s d V. unfold ovo_train. rewrite (view_meta _ _ _ V).
  destruct (sets_ok (fun hp c => ovo_set hp s (fst c) (snd c)) (fun c v => binary_set (fst c) (filter (fun p => Z.eqb (p_y p) (fst c) || Z.eqb (p_y p) (snd c)) (d_points d)) d v) s d (ovo_pairs (d_classes d)) hp) as (hp' & sets & E & F & S); [intros; now apply ovo_set_ok|auto|].
  exists hp', (ovo_pairs (d_classes d)), sets. split; [exact E|]. split; [apply ovo_pairs_in|]. split; [|exact S]. clear -F. induction F as [|a b la lb (v & A & B) F IH]; constructor; [|auto]. exists v. destruct B as (B1 & B2 & B3 & B4 & B5). auto.
Qed.
Lemma c42_train_ex : view hp3 h3 = Ok ex3 /\ ovo_pairs (d_classes ex3) = [(1, -1); (-1, 1)]%Z.
Proof. split; [apply view3|vm_compute; reflexivity]. Qed.
(** C85: the counts of a one-against-all set are those of the first two classes of the dataset, whatever its labels became; those of a pairwise set are 0. *)
Definition counts_are {T} (l : list Z) (v : data T) : Prop := d_classes v = [-1; 1]%Z /\ d_dist v = l.
Lemma relabel_counts {T} hp1 (t : hdata T) c hp2 hp' h v : relabel_all hp1 (h_setClasses t [-1; 1]%Z) c = Ok hp2 -> h_copy hp2 (h_setClasses t [-1; 1]%Z) = Ok (hp', h) -> view hp' h = Ok v ->
  counts_are (vresize 0%Z 2 (d_dist (h_meta t))) v.
Proof.
  intros _ E V. unfold h_copy in E. destruct (view hp2 (h_setClasses t [-1; 1]%Z)) as [w| |] eqn:Vw; [|discriminate|discriminate]. cbn [obind] in E.
  destruct (copy_any _ _ _ Vw) as (hp3 & cp & Ec & _ & _ & Vc & _). unfold h_copy in Ec. rewrite Vw in Ec. cbn [obind] in Ec. rewrite E in Ec. injection Ec as <- <-. rewrite V in Vc. injection Vc as ->.
  apply view_ok in Vw as [_ Ew]. rewrite Ew. split; reflexivity.
Qed.
Lemma c85_ova_refuted : forall (T : Type) (hp hp' : heap T) s d sets, view hp s = Ok d -> ova_train hp s = Ok (hp', sets) ->
  forall h v, In h sets -> view hp' h = Ok v -> counts_are (vresize 0%Z 2 (d_dist d)) v.
Proof.
  intros T hp hp' s d sets V E h v I W. unfold ova_train in E. rewrite (view_meta _ _ _ V) in E.
  destruct (sets_ok (fun hp c => ova_set hp s c) (fun c v => counts_are (vresize 0%Z 2 (d_dist d)) v) s d (d_classes d) hp) as (hp2 & sets2 & E2 & F & _).
  - clear -V. intros hp0 c V0. destruct (ova_set_ok hp0 s d c V0) as (hp' & h & v & E & Vh & _ & S). exists hp', h, v. split; [auto|]. split; [auto|]. split; [|auto].
    unfold ova_set in E. destruct (copy_any hp0 s d V0) as (hp1 & t & Ec & -> & Er & Vt & Em). rewrite Ec in E. cbn [obind] in E. cbv zeta in E. destruct (relabel_all _ _ c) as [hp2| |] eqn:E2; [|discriminate|discriminate]. cbn [obind] in E.
    pose proof (relabel_counts _ _ _ _ _ _ _ E2 E Vh) as Q. rewrite Em in Q. exact Q.
  - exact V.
  - rewrite E in E2. injection E2 as <- <-. clear -F I W. induction F as [|c h0 cs hs (v0 & V0 & Q) F IH]; [destruct I|]. destruct I as [->|I]; [|auto]. rewrite W in V0. injection V0 as ->. exact Q.
Qed.
Lemma c85_ova_refuted_ex : exists hp' sets, view hp3 h3 = Ok ex3 /\ ova_train hp3 h3 = Ok (hp', sets) /\ d_dist ex3 = [2; 1]%Z /\ length sets = 2.
Proof. do 2 eexists. split; [apply c43_train_ex|]. split; [vm_compute; reflexivity|]. split; reflexivity. Qed.
Lemma c85_ovo_refuted : forall (T : Type) (hp hp' : heap T) s d sets, view hp s = Ok d -> ovo_train hp s = Ok (hp', sets) ->
  forall h v, In h sets -> view hp' h = Ok v -> counts_are [0; 0]%Z v.
Proof.
  intros T hp hp' s d sets V E h v I W. unfold ovo_train in E. rewrite (view_meta _ _ _ V) in E.
  destruct (sets_ok (fun hp c => ovo_set hp s (fst c) (snd c)) (fun c v => counts_are [0; 0]%Z v) s d (ovo_pairs (d_classes d)) hp) as (hp2 & sets2 & E2 & F & _).
  - clear -V. intros hp0 [ci cj] V0. cbn [fst snd]. destruct (ovo_set_ok hp0 s d ci cj V0) as (hp' & h & v & E & Vh & _ & S). exists hp', h, v. split; [auto|]. split; [auto|]. split; [|auto].
    unfold ovo_set in E. destruct (h_classesCopy hp0 (mkH [] (strip data_empty)) s [ci; cj]) as [[hp1 t]| |] eqn:Ec; [|discriminate|discriminate]. cbn [obind] in E. cbv zeta in E. destruct (relabel_all _ _ ci) as [hp2| |] eqn:E2; [|discriminate|discriminate]. cbn [obind] in E.
    pose proof (relabel_counts _ _ _ _ _ _ _ E2 E Vh) as Q. unfold h_classesCopy in Ec. rewrite V0 in Ec. change (view hp0 (mkH [] (strip data_empty))) with (Ok (@data_empty T)) in Ec. cbn [obind] in Ec. injection Ec as _ <-. exact Q.
  - exact V.
  - rewrite E in E2. injection E2 as <- <-. clear -F I W. induction F as [|c h0 cs hs (v0 & V0 & Q) F IH]; [destruct I|]. destruct I as [->|I]; [|auto]. rewrite W in V0. injection V0 as ->. exact Q.
Qed.
Lemma c85_ovo_refuted_ex : exists hp' sets, view hp3 h3 = Ok ex3 /\ ovo_train hp3 h3 = Ok (hp', sets) /\ length sets = 2.
Proof. do 2 eexists. split; [apply c43_train_ex|]. split; [vm_compute; reflexivity|reflexivity]. Qed.
(** C85: the class counts of the sets are those of the whole data under its own class list, cut to two: they do not fit the new labels. *)
Lemma c85_counts_refuted : exists (hp hp' : heap Z) s d sets h v, view hp s = Ok d /\ data_ok d /\ ova_train hp s = Ok (hp', sets) /\ nth_error sets 0 = Some h /\ view hp' h = Ok v /\ ~ class_ok v.
Proof.
  exists hp3. do 1 eexists. exists h3, ex3. do 3 eexists. split; [apply view3|]. split; [apply c02_history_ex|]. split; [vm_compute; reflexivity|]. split; [vm_compute; reflexivity|]. split; [vm_compute; reflexivity|].
  intro C. pose proof (co_count _ C 0 (-1)%Z ltac:(vm_compute; reflexivity)) as Q. vm_compute in Q. discriminate.
Qed.

(** *** answers *)
(** C43: the class of the learner with the largest value. *)
Lemma c43_evaluate : forall classes values, classes <> [] -> length values = length classes ->
  exists i c v, ova_evaluate classes values = Ok c /\ nth_error classes i = Some c /\ nth_error values i = Some v /\ (forall j x, nth_error values j = Some x -> (x <= v)%R) /\ (forall j x, j < i -> nth_error values j = Some x -> (x < v)%R).
Proof.
  intros classes values NE L. destruct (max_element_ok values) as (v & E & A & B); [intro; subst; destruct classes; [congruence|discriminate]|]. unfold ova_evaluate. set (i := max_element values) in *. unfold vget.
  destruct (nth_error classes i) as [c|] eqn:Ec; [|apply nth_error_None in Ec; assert (i < length values) by (apply nth_error_Some; congruence); lia]. exists i, c, v. auto.
Qed.
Lemma c43_evaluate_ex : [1; 2]%Z <> [] /\ length [1; 3]%R = length [1; 2]%Z.
Proof. split; [discriminate|reflexivity]. Qed.

(** counting votes *)
Fixpoint nsum (n : nat) (f : nat -> nat) : nat := match n with 0 => 0 | S k => nsum k f + f k end.
Lemma nsum_ext n f g : (forall i, i < n -> f i = g i) -> nsum n f = nsum n g.
Proof. induction n as [|n IH]; intro H; cbn; [auto|]. rewrite IH, (H n) by auto. auto. Qed.
Lemma nsum_add n f g : nsum n (fun i => f i + g i) = nsum n f + nsum n g.
Proof. induction n as [|n IH]; cbn; lia. Qed.
Lemma nsum_at n k f : k < n -> nsum n (fun i => if Nat.eqb i k then f i else 0) = f k.
Proof.
  induction n as [|n IH]; intro H; [lia|]. cbn [nsum]. destruct (Nat.eqb_spec n k) as [->|N].
  - assert (nsum k (fun i => if Nat.eqb i k then f i else 0) = 0) as ->; [|lia]. clear. assert (forall m, m <= k -> nsum m (fun i => if Nat.eqb i k then f i else 0) = 0) as Q; [|auto]. induction m as [|m IH]; intro H; cbn; [auto|]. rewrite IH by lia. destruct (Nat.eqb_spec m k); lia.
  - rewrite IH by lia. lia.
Qed.
Lemma nsum_filter n p : length (filter p (seq 0 n)) = nsum n (fun i => if p i then 1 else 0).
Proof. induction n as [|n IH]; [reflexivity|]. rewrite seq_S, filter_app, app_length, IH. cbn. destruct (p n); cbn; lia. Qed.
(** what the duel of i and j adds to k *)
Definition duel (says : nat -> nat -> bool) (i j k : nat) : nat := if Nat.eqb i j then 0 else if says i j then (if Nat.eqb i k then 1 else 0) else (if Nat.eqb j k then 1 else 0).
Lemma duel_same says i k : duel says i i k = 0.
Proof. unfold duel. now rewrite Nat.eqb_refl. Qed.
Lemma duel_yes says i j k : i <> j -> says i j = true -> duel says i j k = if Nat.eqb i k then 1 else 0.
Proof. intros N E. unfold duel. apply Nat.eqb_neq in N. now rewrite N, E. Qed.
Lemma duel_no says i j k : i <> j -> says i j = false -> duel says i j k = if Nat.eqb j k then 1 else 0.
Proof. intros N E. unfold duel. apply Nat.eqb_neq in N. now rewrite N, E. Qed.
Lemma wins_sum n says k : k < n -> nsum n (fun i => nsum n (fun j => duel says i j k)) = wins n says k.
Proof.
  intro H. unfold wins. rewrite !nsum_filter. rewrite (nsum_ext n (fun i => nsum n (fun j => duel says i j k)) (fun i => (if Nat.eqb i k then nsum n (fun j => if negb (Nat.eqb k j) && says k j then 1 else 0) else 0) + (if negb (Nat.eqb k i) && negb (says i k) then 1 else 0))).
  - rewrite nsum_add, (nsum_at n k (fun _ => _)) by auto. reflexivity.
  - intros i Hi. rewrite <- (nsum_at n k (fun j => if negb (Nat.eqb j i) && negb (says i j) then 1 else 0)) by auto.
    destruct (Nat.eqb_spec i k) as [->|N].
    + rewrite <- nsum_add. apply nsum_ext. intros j Hj. unfold duel. rewrite Nat.eqb_refl. rewrite (Nat.eqb_sym j k). destruct (Nat.eqb_spec k j) as [->|]; cbn; [reflexivity|]. destruct (says k j); reflexivity.
    + cbn [Nat.add]. apply nsum_ext. intros j Hj. unfold duel. destruct (Nat.eqb_spec i k); [contradiction|]. destruct (Nat.eqb_spec i j) as [->|]; cbn.
      * rewrite Nat.eqb_refl. cbn. now destruct (Nat.eqb j k).
      * destruct (Nat.eqb_spec j i); [congruence|]. cbn. destruct (says i j); cbn; now destruct (Nat.eqb j k).
Qed.
Lemma map_seq_upd n i (g h : nat -> nat) : i < n -> (forall k, k < n -> h k = if Nat.eqb i k then S (g k) else g k) -> vupd i S (map g (seq 0 n)) = Ok (map h (seq 0 n)).
Proof.
  intros Hi H. assert (seq 0 n = seq 0 i ++ i :: seq (S i) (n - S i)) as E by (change (i :: seq (S i) (n - S i)) with (seq (0 + i) (S (n - S i))); rewrite <- seq_app; f_equal; lia). rewrite E, !map_app. cbn [map]. unfold vupd.
  assert (upd i S (map g (seq 0 i) ++ g i :: map g (seq (S i) (n - S i))) = Some (map g (seq 0 i) ++ S (g i) :: map g (seq (S i) (n - S i)))) as ->.
  { assert (forall (a : list nat) x b, upd (length a) S (a ++ x :: b) = Some (a ++ S x :: b)) as Q by (induction a as [|y a IH]; intros x b; cbn; [reflexivity|now rewrite IH]). specialize (Q (map g (seq 0 i)) (g i) (map g (seq (S i) (n - S i)))). rewrite map_length, seq_length in Q. exact Q. }
  f_equal. f_equal; [|f_equal].
  - apply map_ext_in. intros k I. apply in_seq in I. rewrite H by lia. destruct (Nat.eqb_spec i k); [lia|auto].
  - rewrite H by auto. now rewrite Nat.eqb_refl.
  - apply map_ext_in. intros k I. apply in_seq in I. rewrite H by lia. destruct (Nat.eqb_spec i k); [lia|auto].
Qed.
Lemma votes_wins classes says : NoDup classes -> ovo_votes classes says = Ok (map (wins (length classes) says) (seq 0 (length classes))).
Proof.
  intro ND. unfold ovo_votes. set (n := length classes).
  match goal with |- ofold ?f _ _ = _ => destruct (ofold_seq f (fun I v => v = map (fun k => nsum I (fun i => nsum n (fun j => duel says i j k))) (seq 0 n)) n (repeat 0 n)) as (t & -> & ->) end.
  - cbn [nsum]. assert (forall m s, repeat 0 m = map (fun _ => 0) (seq s m)) as Q by (induction m as [|m IH]; intro s; cbn; [reflexivity|now rewrite <- IH]). apply Q.
  - intros i t Hi ->.
    match goal with |- exists t', ofold ?f _ ?s = _ /\ _ => destruct (ofold_seq f (fun J v => v = map (fun k => nsum i (fun i => nsum n (fun j => duel says i j k)) + nsum J (fun j => duel says i j k)) (seq 0 n)) n s) as (t & -> & ->) end.
    + apply map_ext. intro k. cbn. lia.
    + intros j t Hj ->. destruct (nth_error classes i) as [ci|] eqn:Ei; [|apply nth_error_None in Ei; fold n in Ei; lia]. destruct (nth_error classes j) as [cj|] eqn:Ej; [|apply nth_error_None in Ej; fold n in Ej; lia]. unfold vget. rewrite Ei, Ej. cbn [obind].
      assert (Z.eqb ci cj = Nat.eqb i j) as ->. { destruct (Z.eqb_spec ci cj) as [->|N], (Nat.eqb_spec i j) as [->|M]; auto; [|congruence]. exfalso. apply M. apply (proj1 (NoDup_nth_error classes) ND); [exact Hi|congruence]. }
      cbn [nsum]. destruct (Nat.eqb_spec i j) as [->|N].
      * eexists. split; [reflexivity|]. apply map_ext. intro k. rewrite duel_same. lia.
      * destruct (says i j) eqn:Sa.
        -- eexists. split; [apply map_seq_upd; [exact Hi|reflexivity]|]. apply map_ext. intro k. rewrite (duel_yes says i j k N Sa). destruct (Nat.eqb i k); lia.
        -- eexists. split; [apply map_seq_upd; [exact Hj|reflexivity]|]. apply map_ext. intro k. rewrite (duel_no says i j k N Sa). destruct (Nat.eqb j k); lia.
    + eexists. split; [reflexivity|]. reflexivity.
  - f_equal. apply map_ext_in. intros k I. apply in_seq in I. apply wins_sum. lia.
Qed.
(** C42: the answer is the first class with the most duels won. *)
Lemma c42_evaluate : forall classes says, NoDup classes -> classes <> [] ->
  exists i c, ovo_evaluate classes says = Ok c /\ nth_error classes i = Some c /\ (forall j, j < length classes -> wins (length classes) says j <= wins (length classes) says i) /\ (forall j, j < i -> wins (length classes) says j < wins (length classes) says i).
Proof.
  intros classes says ND NE. unfold ovo_evaluate. rewrite votes_wins by auto. cbn [obind]. set (n := length classes). set (vs := map INR (map (wins n says) (seq 0 n))).
  assert (length vs = n) as Lv by (unfold vs; now rewrite !map_length, seq_length). assert (0 < n) as Pn by (unfold n; destruct classes; [congruence|cbn; lia]).
  destruct (max_element_ok vs) as (v & E & A & B); [intro Q; rewrite Q in Lv; cbn in Lv; lia|]. set (i := max_element vs) in *. assert (i < n) as Hi by (rewrite <- Lv; apply nth_error_Some; congruence).
  assert (forall j, j < n -> nth_error vs j = Some (INR (wins n says j))) as G. { intros j Hj. unfold vs. rewrite !nth_error_map. assert (nth_error (seq 0 n) j = Some j) as -> by (rewrite (nth_error_nth' _ 0) by (rewrite seq_length; auto); now rewrite seq_nth). reflexivity. }
  rewrite G in E by auto. injection E as <-. destruct (nth_error classes i) as [c|] eqn:Ec; [|apply nth_error_None in Ec; fold n in Ec; lia]. exists i, c. unfold vget. rewrite Ec. split; [auto|]. split; [auto|]. split.
  - intros j Hj. apply INR_le. apply (A j). auto.
  - intros j Hj. apply INR_lt. apply (B j); [auto|]. apply G. lia.
Qed.
Lemma c42_evaluate_ex : NoDup [4; 7; 1]%Z /\ [4; 7; 1]%Z <> [].
Proof. split; [repeat constructor; cbn; lia|discriminate]. Qed.
(** C42: a class that wins all its duels is returned. *)
Lemma filter_two n p i k : i < n -> k < n -> i <> k -> p i = false -> p k = false -> length (filter p (seq 0 n)) + 2 <= n.
Proof.
  intros Hi Hk N A B. assert (length (i :: k :: filter p (seq 0 n)) <= length (seq 0 n)) as Q; [|rewrite seq_length in Q; cbn in Q; lia]. apply NoDup_incl_length.
  - constructor; [intros [->|I]; [contradiction|apply filter_In in I as [_ I]; congruence]|]. constructor; [intro I; apply filter_In in I as [_ I]; congruence|]. apply NoDup_filter, seq_NoDup.
  - intros x [<-|[<-|I]]; [apply in_seq; lia|apply in_seq; lia|]. now apply filter_In in I.
Qed.
Lemma filter_one n p i : i < n -> (forall j, j < n -> j <> i -> p j = true) -> n <= length (filter p (seq 0 n)) + 1.
Proof.
  intros Hi H. assert (length (seq 0 n) <= length (i :: filter p (seq 0 n))) as Q; [|rewrite seq_length in Q; cbn in Q; lia]. apply NoDup_incl_length; [apply seq_NoDup|].
  intros x I. destruct (Nat.eq_dec x i) as [->|N]; [now left|]. right. apply filter_In. split; [auto|]. apply in_seq in I. apply H; lia.
Qed.
Lemma c42_undefeated : forall classes says i c, NoDup classes -> nth_error classes i = Some c -> (forall j, j < length classes -> j <> i -> says i j = true /\ says j i = false) -> ovo_evaluate classes says = Ok c.
Proof.
  intros classes says i c ND Ei H. assert (i < length classes) as Hi by (apply nth_error_Some; congruence). destruct (c42_evaluate classes says ND) as (k & c' & E & Ek & A & _); [intro; subst; destruct i; discriminate|]. set (n := length classes) in *.
  destruct (Nat.eq_dec k i) as [->|N]; [congruence|]. exfalso. assert (k < n) as Hk by (apply nth_error_Some; congruence). specialize (A i Hi). unfold wins in A.
  pose proof (filter_one n (fun j => negb (Nat.eqb i j) && says i j) i Hi) as F1. pose proof (filter_one n (fun j => negb (Nat.eqb i j) && negb (says j i)) i Hi) as F2.
  pose proof (filter_two n (fun j => negb (Nat.eqb k j) && says k j) k i Hk Hi N) as F3. pose proof (filter_two n (fun j => negb (Nat.eqb k j) && negb (says j k)) k i Hk Hi N) as F4.
  destruct (H k Hk N) as [Q1 Q2]. cbv beta in F1, F2, F3, F4. rewrite Nat.eqb_refl in F3, F4. rewrite Q2, andb_false_r in F3. rewrite Q1, andb_false_r in F4. specialize (F3 eq_refl eq_refl). specialize (F4 eq_refl eq_refl).
  assert (forall j, j < n -> j <> i -> negb (Nat.eqb i j) && says i j = true) as G1. { intros j Hj Nj. destruct (H j Hj Nj) as [-> _]. destruct (Nat.eqb_spec i j); [congruence|reflexivity]. }
  assert (forall j, j < n -> j <> i -> negb (Nat.eqb i j) && negb (says j i) = true) as G2. { intros j Hj Nj. destruct (H j Hj Nj) as [_ ->]. destruct (Nat.eqb_spec i j); [congruence|reflexivity]. }
  specialize (F1 G1). specialize (F2 G2). lia.
Qed.
Lemma c42_undefeated_ex : NoDup [4; 7; 1]%Z /\ nth_error [4; 7; 1]%Z 1 = Some 7%Z /\ (forall j, j < length [4; 7; 1]%Z -> j <> 1 -> (fun i _ => Nat.eqb i 1) 1 j = true /\ (fun i _ : nat => Nat.eqb i 1) j 1 = false).
Proof. split; [repeat constructor; cbn; lia|]. split; [reflexivity|]. intros j Hj N. split; [reflexivity|]. now apply Nat.eqb_neq. Qed.
(** C42: every duel gives one vote. *)
Lemma vupd_total i v v' : vupd i S v = Ok v' -> list_sum v' = S (list_sum v).
Proof. intro E. apply vupd_Ok, upd_split in E as (a & x & b & -> & -> & _). rewrite !list_sum_app. cbn. lia. Qed.
Lemma c42_total : forall (classes : list Z) says, NoDup classes -> exists votes, ovo_votes classes says = Ok votes /\ (forall i, i < length classes -> nth_error votes i = Some (wins (length classes) says i)) /\ list_sum votes = length classes * (length classes - 1).
Proof.
  intros classes says ND. exists (map (wins (length classes) says) (seq 0 (length classes))). split; [now apply votes_wins|]. split. { intros i Hi. rewrite nth_error_map, (nth_error_nth' _ 0) by (rewrite seq_length; auto). now rewrite seq_nth. } pose proof (votes_wins classes says ND) as E. set (n := length classes) in *. unfold ovo_votes in E. fold n in E.
  match type of E with ofold ?f _ _ = _ => destruct (ofold_seq f (fun I v => length v = n /\ list_sum v = I * (n - 1)) n (repeat 0 n)) as (t & Et & Lt & St) end.
  - split; [apply repeat_length|]. clear. induction n; cbn; auto.
  - intros i t Hi [Lt St].
    match goal with |- exists t', ofold ?f _ ?s = _ /\ _ => destruct (ofold_seq f (fun J v => length v = n /\ list_sum v = i * (n - 1) + (J - (if Nat.ltb i J then 1 else 0))) n s) as (t1 & -> & L1 & S1) end.
    + cbn. split; [auto|lia].
    + intros j v Hj [Lv Sv]. destruct (nth_error classes i) as [ci|] eqn:Ei; [|apply nth_error_None in Ei; fold n in Ei; lia]. destruct (nth_error classes j) as [cj|] eqn:Ej; [|apply nth_error_None in Ej; fold n in Ej; lia]. unfold vget. rewrite Ei, Ej. cbn [obind].
      destruct (Z.eqb_spec ci cj) as [Q|Q].
      * assert (i = j) as <- by (apply (proj1 (NoDup_nth_error classes) ND); [exact Hi|congruence]). eexists. split; [reflexivity|]. split; [auto|]. rewrite Sv. destruct (Nat.ltb_spec i i), (Nat.ltb_spec i (S i)); lia.
      * assert (i <> j) as N by (intros ->; congruence). destruct (says i j).
        -- destruct (vupd_lt i S v) as (v' & U & ->); [lia|]. eexists. split; [reflexivity|]. split; [rewrite (upd_length _ _ _ _ U); auto|]. apply vupd_Ok in U. rewrite (vupd_total _ _ _ U), Sv. destruct (Nat.ltb_spec i j), (Nat.ltb_spec i (S j)); lia.
        -- destruct (vupd_lt j S v) as (v' & U & ->); [lia|]. eexists. split; [reflexivity|]. split; [rewrite (upd_length _ _ _ _ U); auto|]. apply vupd_Ok in U. rewrite (vupd_total _ _ _ U), Sv. destruct (Nat.ltb_spec i j), (Nat.ltb_spec i (S j)); lia.
    + eexists. split; [reflexivity|]. split; [auto|]. rewrite S1. destruct (Nat.ltb_spec i n); [|lia]. cbn [Nat.mul]. lia.
  - rewrite E in Et. injection Et as <-. exact St.
Qed.
Lemma c42_total_ex : NoDup [4; 7; 1]%Z.
Proof. repeat constructor; cbn; lia. Qed.
