(** Property lemmas for bagging: C108. *)
From Coq Require Import ZArith Bool List Permutation Reals Lia.
From Verif Require Import Base ListLib M_Data S_Data L_Data L_Insert L_Split L_Valid Loop M_Heap L_Heap M_Sampling S_Sampling T_Data T_Heap T_Sampling M_Ens S_Ens T_Ens M_Bag.
Import ListNotations.
Local Open Scope nat_scope.

Section Drawn.
Context {T : Type}.
Implicit Types (d : data T).
Lemma drawn_in {A} rnd : in_range rnd -> forall qs (gs : list (list A)) t x, In (Some x) (drawn rnd t qs gs) -> exists i q g, nth_error qs i = Some q /\ nth_error gs i = Some g /\ In x (firstn q g).
Proof.
  intro Hr. induction qs as [|q qs IH]; intros [|g gs] t x I; cbn [drawn] in I; try destruct I. apply in_app_or in I as [I|I].
  - apply in_map_iff in I as (j & E & I). apply in_seq in I. exists 0, q, g. split; [auto|]. split; [auto|]. pose proof (Hr (t + j) (q - 1)) as B. apply (nth_error_In _ (rnd (t + j) (q - 1))). rewrite <- E. rewrite <- (firstn_skipn q g) at 2.
    assert (rnd (t + j) (q - 1) < length g) by (apply nth_error_Some; congruence). rewrite nth_error_app1; [reflexivity|]. rewrite firstn_length. lia.
  - destruct (IH gs (t + q) x I) as (i & q' & g' & A1 & A2 & A3). exists (S i), q', g'. auto.
Qed.
Lemma sample_in rnd d m cs x : in_range rnd -> sample_of rnd d m cs -> In x cs -> exists c, In c (d_classes d) /\ In x (firstn (share d m c) (class_contents d c)).
Proof.
  intros Hr E I. apply (in_map Some) in I. unfold sample_of in E. rewrite E in I. destruct (drawn_in rnd Hr _ _ _ _ I) as (i & q & g & A1 & A2 & A3). rewrite nth_error_map in A1, A2.
  destruct (nth_error (d_classes d) i) as [c|] eqn:Ec; [|discriminate]. injection A1 as <-. injection A2 as <-. exists c. split; [eapply nth_error_In; eauto|auto].
Qed.
Lemma sample_det rnd d m cs cs' : sample_of rnd d m cs -> sample_of rnd d m cs' -> cs = cs'.
Proof. unfold sample_of. intros A B. apply some_inj. congruence. Qed.
Lemma drawn_len {A} rnd : forall qs (gs : list (list A)) t, length qs = length gs -> length (drawn rnd t qs gs) = list_sum qs.
Proof. induction qs as [|q qs IH]; intros [|g gs] t E; cbn [drawn]; try discriminate; [reflexivity|]. rewrite app_length, map_length, seq_length, IH by (cbn in E; lia). reflexivity. Qed.
Lemma sample_len rnd d m cs : sample_of rnd d m cs -> length cs = list_sum (map (share d m) (d_classes d)).
Proof. intro E. apply (f_equal (@length _)) in E. rewrite map_length in E. rewrite E. apply drawn_len. now rewrite !map_length. Qed.
Lemma shares_le d m : data_ok d -> (forall c, In c (d_classes d) -> In c (labels (d_points d))) -> m <= length (d_points d) -> list_sum (map (share d m) (d_classes d)) <= m + length (d_classes d).
Proof.
  intros D Hc Hm. destruct (Nat.eq_dec (length (d_points d)) 0) as [N|N].
  { destruct (d_points d) eqn:E; [|discriminate]. destruct (d_classes d) as [|c cs]; [cbn; lia|]. destruct (Hc c (or_introl eq_refl)). }
  pose proof (counts_le (d_classes d) (labels (d_points d)) (co_nodup _ (ok_class _ D))) as Q. unfold labels at 2 in Q. rewrite map_length in Q. set (n := length (d_points d)) in *.
  assert (forall l, list_sum (map (share d m) l) <= list_sum (map (fun c => count_occ Z.eq_dec (labels (d_points d)) c * m / n) l) + length l) as H1.
  { induction l as [|c l IH]; cbn [map length]; [reflexivity|]. rewrite !sum_cons. unfold share at 1. rewrite class_len. fold n. lia. }
  assert (forall l, list_sum (map (fun c => count_occ Z.eq_dec (labels (d_points d)) c * m / n) l) <= list_sum (map (count_occ Z.eq_dec (labels (d_points d))) l) * m / n) as H2.
  { induction l as [|c l IH]; cbn [map]; [cbn; lia|]. rewrite !sum_cons, Nat.mul_add_distr_r.
    set (a := count_occ _ _ _ * m) in *. set (b := list_sum (map (count_occ Z.eq_dec (labels (d_points d))) l) * m) in *. assert (a / n + b / n <= (a + b) / n); [|lia].
    apply Nat.div_le_lower_bound; [auto|]. pose proof (Nat.mul_div_le a n N). pose proof (Nat.mul_div_le b n N). lia. }
  specialize (H1 (d_classes d)). specialize (H2 (d_classes d)). set (s := list_sum (map (count_occ Z.eq_dec (labels (d_points d))) (d_classes d))) in *.
  assert (s * m / n <= m) by (apply Nat.div_le_upper_bound; [auto|]; nia). lia.
Qed.

Lemma copy_above hp hp1 (src cp : hdata T) v o (do : data T) : view hp src = Ok v -> h_copy hp src = Ok (hp1, cp) -> view hp o = Ok do -> apart o cp.
Proof.
  intros V E Vo r I J. unfold h_copy in E. rewrite V in E. cbn [obind] in E. unfold alloc in E. injection E as _ <-. cbn [h_refs] in J. apply in_seq in J. apply view_ok in Vo as [R _]. eapply reads_lt in I; eauto. lia.
Qed.

(** The members so far. *)
Record bagged (gen : nat -> nat -> nat -> nat) (s m : nat) (src : hdata T) d (hp0 hp : heap T) (ms : list (member (T := T))) (i : nat) : Prop := {
  bg_len : length ms = i;
  bg_keep : forall (o : hdata T) do, view hp0 o = Ok do -> view hp o = Ok do;
  bg_mem : forall j, j < i -> exists h v, nth_error ms j = Some (s + j, h) /\ view hp h = Ok v /\ data_ok v /\ NoDup (h_refs h) /\ sample_of (gen (s + j)) d m (map content (d_points v)) /\ (forall o do, view hp0 o = Ok do -> apart o h);
  bg_apart : forall a b ha hb, a < b -> nth_error (map snd ms) a = Some ha -> nth_error (map snd ms) b = Some hb -> apart ha hb }.
Lemma bag_loop gen devs s m (src : hdata T) d hp : s <> 0 -> (forall s, in_range (gen s)) -> view hp src = Ok d -> data_ok d -> (forall c, In c (d_classes d) -> In c (labels (d_points d))) -> 0 < m <= length (d_points d) ->
  forall k, exists hp' ms, ofold (bag_member gen devs s m src) (seq 0 k) (Some (hp, [])) = Ok (Some (hp', ms)) /\ bagged gen s m src d hp hp' ms k.
Proof.
  intros Hs Hg V D Hc Hm. induction k as [|k (hp1 & ms & E & B)].
  { exists hp, []. split; [reflexivity|]. split; [auto|auto|intros j L; lia|intros a b ha hb _ Ea; destruct a; discriminate]. }
  rewrite seq_S, ofold_app, E. cbn [obind ofold Nat.add]. unfold bag_member, bag_salt. destruct (Nat.eqb_spec s 0) as [?|_]; [contradiction|].
  destruct (c16_replacement T (gen (s + k)) 0 hp1 src d m (Hg _) (bg_keep _ _ _ _ _ _ _ _ _ B _ _ V) D Hc Hm) as (hp2 & smp & v & picks & -> & Vv & Dv & Cv & _ & Sm & K). cbn [obind].
  destruct (copy_fresh hp2 smp v Vv Dv) as (hp3 & cp & Ec & Vc & _ & Nc & _ & K3). rewrite Ec. cbn [obind fst snd]. do 2 eexists. split; [reflexivity|].
  assert (forall (o : hdata T) do, view hp1 o = Ok do -> apart o cp) as Ap by (intros o do Vo; eapply copy_above; [exact Vv|exact Ec|eauto]).
  destruct B as [L Kp M A]. split.
  - rewrite app_length, L. cbn. lia.
  - eauto.
  - intros j Lj. destruct (Nat.eq_dec j k) as [->|Nj].
    + exists cp, v. split; [rewrite nth_error_app2, L, Nat.sub_diag by lia; reflexivity|]. split; [auto|]. split; [auto|]. split; [auto|]. split; [rewrite Cv; auto|]. eauto.
    + destruct (M j ltac:(lia)) as (h & w & A1 & A2 & A3). exists h, w. split; [rewrite nth_error_app1 by lia; auto|]. split; [eauto|auto].
  - intros a b ha hb Lab Ea Eb. assert (b <= k) as Lb. { assert (b < length (map snd (ms ++ [(s + k, cp)]))) by (apply nth_error_Some; congruence). rewrite map_length, app_length, L in *. cbn in *. lia. }
    rewrite map_app in Ea, Eb. rewrite nth_error_app1 in Ea by (rewrite map_length; lia). destruct (Nat.eq_dec b k) as [->|Nb].
    + rewrite nth_error_app2 in Eb by (rewrite map_length; lia). rewrite map_length, L, Nat.sub_diag in Eb. injection Eb as <-. destruct (M a ltac:(lia)) as (h & w & A1 & A2 & _). rewrite nth_error_map, A1 in Ea. injection Ea as <-. eauto.
    + rewrite nth_error_app1 in Eb by (rewrite map_length; lia). eapply A; eauto.
Qed.
Lemma bag_spec gen devs seed k (hp : heap T) src d : bag_seed devs seed <> 0 -> (forall s, in_range (gen s)) -> view hp src = Ok d -> data_ok d -> (forall c, In c (d_classes d) -> In c (labels (d_points d))) -> 1 <= k <= length (d_points d) ->
  exists hp' ms, bag_train gen devs seed k hp src = Ok (Some (bag_seed devs seed, hp', ms)) /\ bagged gen (bag_seed devs seed) (length (d_points d) / k) src d hp hp' ms k.
Proof.
  intros Hs Hg V D Hc Hk. unfold bag_train. rewrite V. cbn [obind]. destruct (Nat.eqb_spec k 0) as [?|_]; [lia|]. unfold size.
  destruct (bag_loop gen devs (bag_seed devs seed) (length (d_points d) / k) src d hp Hs Hg V D Hc) with (k := k) as (hp' & ms & -> & B).
  - split; [apply Nat.div_str_pos; lia|]. apply Nat.div_le_upper_bound; [lia|]. nia.
  - cbn [obind]. exists hp', ms. auto.
Qed.
End Drawn.

(** C108: training gives every member its own sample of n/k points, drawn by the generator seeded by the seed plus its number; the samples of the ensemble are unchanged and no two
    members share points with one another or with any dataset that existed before. *)
Lemma c108_train : forall (T : Type) (gen : nat -> nat -> nat -> nat) (devs : nat -> nat) seed k (hp : heap T) (src : hdata T) (d : data T) s, s = (if Nat.eqb seed 0 then devs 0 else seed) -> s <> 0 ->
  (forall s, in_range (gen s)) -> view hp src = Ok d -> data_ok d -> (forall c, In c (d_classes d) -> In c (labels (d_points d))) -> 1 <= k <= length (d_points d) ->
  exists hp' ms, bag_train gen devs seed k hp src = Ok (Some (s, hp', ms)) /\ length ms = k /\ view hp' src = Ok d /\
    (forall i, i < k -> exists h v, nth_error ms i = Some (s + i, h) /\ view hp' h = Ok v /\ data_ok v /\ sample_of (gen (s + i)) d (length (d_points d) / k) (map content (d_points v)) /\
       NoDup (h_refs h) /\ apart src h /\ (forall j h', nth_error (map snd ms) j = Some h' -> j <> i -> apart h h')).
Proof.
  intros T gen devs seed k hp src d s -> Hs Hg V D Hc Hk. destruct (bag_spec gen devs seed k hp src d Hs Hg V D Hc Hk) as (hp' & ms & E & [L Kp M A]). exists hp', ms. split; [exact E|]. split; [auto|]. split; [eauto|].
  intros i Li. destruct (M i Li) as (h & v & A1 & A2 & A3 & A4 & A5 & A6). exists h, v. split; [exact A1|]. split; [auto|]. split; [auto|]. split; [auto|]. split; [auto|]. split; [eauto|].
  intros j h' Ej Nj. pose proof (map_nth_error snd i ms A1) as Ei. cbn [snd] in Ei. destruct (Nat.lt_total i j) as [Lt|[->|Lt]]; [eapply A; eauto|congruence|]. intros r I J. eapply (A j i h' h); eauto.
Qed.
(** C108: the samples all come from the same n/k points, or one more per class: the rest of the data reaches no member, whatever the seed. *)
Lemma c108_reach_refuted : forall (T : Type) (d : data T) k, data_ok d -> (forall c, In c (d_classes d) -> In c (labels (d_points d))) -> 1 <= k <= length (d_points d) ->
  exists reached, length reached <= length (d_points d) / k + length (d_classes d) /\ incl reached (map content (d_points d)) /\
    forall (gen : nat -> nat -> nat -> nat) (devs : nat -> nat) seed (hp : heap T) (src : hdata T) s hp' ms m h v, s <> 0 -> (forall s, in_range (gen s)) -> view hp src = Ok d ->
      bag_train gen devs seed k hp src = Ok (Some (s, hp', ms)) -> In (m, h) ms -> view hp' h = Ok v -> incl (map content (d_points v)) reached.
Proof.
  intros T d k D Hc Hk. set (m := length (d_points d) / k). assert (m <= length (d_points d)) as Hm by (apply Nat.div_le_upper_bound; [lia|]; nia).
  exists (concat (map (fun c => firstn (share d m c) (class_contents d c)) (d_classes d))). split.
  - eapply Nat.le_trans; [|apply (shares_le d m D Hc Hm)]. generalize (d_classes d). induction l as [|c l IH]; cbn [map concat]; [reflexivity|]. rewrite app_length, sum_cons, firstn_length. lia.
  - split.
    + intros x I. apply in_concat in I as (l & I & J). apply in_map_iff in I as (c & <- & I). assert (In x (class_contents d c)) as K by (rewrite <- (firstn_skipn (share d m c) (class_contents d c)); apply in_or_app; auto).
      unfold class_contents in K. apply in_map_iff in K as (p & <- & K). apply filter_In in K as [K _]. now apply in_map.
    + intros gen devs seed hp src s hp' ms n h v Hs Hg V E I Vh x J. assert (s = bag_seed devs seed) as Es. { unfold bag_train in E. rewrite V in E. cbn [obind] in E. destruct (Nat.eqb k 0); [discriminate|]. destruct (ofold _ _ _) as [[[? ?]|]| |]; cbn [obind] in E; try discriminate. injection E as E _ _. now symmetry. }
      rewrite Es in *. destruct (bag_spec gen devs seed k hp src d Hs Hg V D Hc Hk) as (hp2 & ms2 & E2 & [L Kp M A]). rewrite E in E2. injection E2 as <- <-.
      apply In_nth_error in I as (i & Ei). unfold member in *. assert (i < k) as Li by (rewrite <- L; apply nth_error_Some; congruence). destruct (M i Li) as (h2 & v2 & A1 & A2 & A3 & A4 & A5 & A6). rewrite Ei in A1. injection A1 as -> ->. rewrite Vh in A2. injection A2 as <-.
      destruct (sample_in _ _ _ _ _ (Hg _) A5 J) as (c & Ic & Jc). apply in_concat. eexists. split; [apply in_map_iff; exists c; split; [reflexivity|auto]|auto].
Qed.
(** C108: ensembles of consecutive seeds share all samples but one. *)
Lemma c108_seeds_refuted : forall (T : Type) (gen : nat -> nat -> nat -> nat) (devs devs' : nat -> nat) seed k (hp hp' : heap T) (src src' : hdata T) (d : data T), seed <> 0 ->
  (forall s, in_range (gen s)) -> view hp src = Ok d -> view hp' src' = Ok d -> data_ok d -> (forall c, In c (d_classes d) -> In c (labels (d_points d))) -> 1 <= k <= length (d_points d) ->
  exists h1 ms h2 ms', bag_train gen devs seed k hp src = Ok (Some (seed, h1, ms)) /\ bag_train gen devs' (S seed) k hp' src' = Ok (Some (S seed, h2, ms')) /\
    forall i, S i < k -> exists a b u v, nth_error ms (S i) = Some a /\ nth_error ms' i = Some b /\ fst a = fst b /\ view h1 (snd a) = Ok u /\ view h2 (snd b) = Ok v /\ map content (d_points u) = map content (d_points v).
Proof.
  intros T gen devs devs' seed k hp hp' src src' d Hs Hg V V' D Hc Hk. assert (bag_seed devs seed = seed) as E1 by (unfold bag_seed; destruct (Nat.eqb_spec seed 0); [contradiction|auto]).
  destruct (bag_spec gen devs seed k hp src d ltac:(congruence) Hg V D Hc Hk) as (h1 & ms & Ea & [L Kp M A]). destruct (bag_spec gen devs' (S seed) k hp' src' d ltac:(discriminate) Hg V' D Hc Hk) as (h2 & ms' & Eb & [L' Kp' M' A']).
  rewrite E1 in *. change (bag_seed devs' (S seed)) with (S seed) in *. exists h1, ms, h2, ms'. split; [exact Ea|]. split; [exact Eb|]. intros i Li.
  destruct (M (S i) Li) as (a & u & A1 & A2 & _ & _ & A3 & _). destruct (M' i ltac:(lia)) as (b & v & B1 & B2 & _ & _ & B3 & _). exists (seed + S i, a), (S seed + i, b), u, v. split; [auto|]. split; [auto|]. cbn [fst snd]. split; [lia|]. split; [auto|]. split; [auto|].
  replace (S seed + i) with (seed + S i) in B3 by lia. eapply sample_det; eauto.
Qed.
(** C108: with no members, or with more members than points, training is undefined. *)
Lemma c108_sizes_refuted : forall (T : Type) (gen : nat -> nat -> nat -> nat) (devs : nat -> nat) seed k (hp : heap T) (src : hdata T) (d : data T), view hp src = Ok d -> data_ok d -> d_points d <> [] ->
  k = 0 \/ length (d_points d) < k -> bag_train gen devs seed k hp src = UB.
Proof.
  intros T gen devs seed k hp src d V D NE Hk. unfold bag_train. rewrite V. cbn [obind]. destruct (Nat.eqb_spec k 0) as [?|Nk]; [auto|]. unfold size. rewrite Nat.div_small by lia. destruct k as [|k]; [lia|]. cbn [seq ofold]. unfold bag_member at 1.
  unfold sampling. rewrite V. cbn [obind]. change (Nat.ltb (size d) 0) with false. cbv iota. rewrite (co_len _ (ok_class _ D)), Nat.ltb_irrefl, Nat.sub_diag. cbn [repeat]. rewrite app_nil_r. destruct (splitByClasses_spec d false D) as (parts & -> & L & H). cbn [obind].
  destruct (d_points d) as [|p ps] eqn:Ep; [contradiction|]. assert (In (p_y p) (d_classes d)) as Ip by (apply (co_listed _ (ok_class _ D)); rewrite Ep; now left).
  pose proof (co_len _ (ok_class _ D)) as Ld. destruct (d_dist d) as [|z zs]; [destruct (d_classes d); [destruct Ip|discriminate]|]. cbn [map_outcome]. unfold quota at 1. rewrite Nat.mul_0_r. cbn [Nat.eqb]. destruct (Nat.eqb (size d) 0); reflexivity.
Qed.
(** C108: evaluation answers the first of the labels most members answer, if every member answers a label of its sample. *)
Lemma c108_evaluate : forall (T : Type) (gen : nat -> nat -> nat -> nat) (devs : nat -> nat) seed k (hp hp' : heap T) (src : hdata T) (d : data T) s ms (fit : nat -> data T -> point T -> Z) p, s <> 0 ->
  (forall s, in_range (gen s)) -> view hp src = Ok d -> data_ok d -> (forall c, In c (d_classes d) -> In c (labels (d_points d))) -> 1 <= k <= length (d_points d) ->
  bag_train gen devs seed k hp src = Ok (Some (s, hp', ms)) -> (forall n v, d_points v <> [] -> In (fit n v p) (labels (d_points v))) ->
  exists preds c, Forall2 (fun m y => exists v, view hp' (snd m) = Ok v /\ y = fit (fst m) v p) ms preds /\ bag_evaluate fit hp' src ms p = Ok c /\ first_largest (d_classes d) (fun x => INR (ballots preds x)) c.
Proof.
  intros T gen devs seed k hp hp' src d s ms fit p Hs Hg V D Hc Hk E Hf. assert (s = bag_seed devs seed) as Es. { unfold bag_train in E. rewrite V in E. cbn [obind] in E. destruct (Nat.eqb k 0); [discriminate|]. destruct (ofold _ _ _) as [[[? ?]|]| |]; cbn [obind] in E; try discriminate. injection E as E _ _. now symmetry. }
  rewrite Es in *. destruct (bag_spec gen devs seed k hp src d Hs Hg V D Hc Hk) as (hp2 & ms2 & E2 & [L Kp M A]). rewrite E in E2. injection E2 as <- <-.
  assert (d_classes d <> []) as NC. { destruct (d_points d) as [|q qs] eqn:Eq; [cbn in Hk; lia|]. pose proof (co_listed _ (ok_class _ D) q) as I. rewrite Eq in I. intro N. rewrite N in I. destruct I. now left. }
  assert (forall m, In m ms -> exists v, view hp' (snd m) = Ok v /\ In (fit (fst m) v p) (d_classes d)) as Q.
  { intros m I. apply In_nth_error in I as (i & Ei). unfold member in *. assert (i < k) as Li by (rewrite <- L; apply nth_error_Some; congruence). destruct (M i Li) as (h & v & A1 & A2 & A3 & A4 & A5 & A6). rewrite Ei in A1. injection A1 as ->. cbn [fst snd]. exists v. split; [auto|].
    assert (d_points v <> []) as NV. { intro N. pose proof (sample_len _ _ _ _ A5) as Ls. rewrite N in Ls. destruct (d_classes d) as [|c cs]; [congruence|]. cbn [map length] in Ls. rewrite sum_cons in Ls. unfold share in Ls at 1. lia. }
    specialize (Hf (bag_seed devs seed + i) v NV). set (y := fit _ _ _) in *. unfold labels in Hf. apply in_map_iff in Hf as (q & Ey & Iq). apply (in_map content) in Iq. destruct (sample_in _ _ _ _ _ (Hg _) A5 Iq) as (c & Ic & Jc).
    assert (In (content q) (class_contents d c)) as K by (rewrite <- (firstn_skipn (share d (length (d_points d) / k) c) (class_contents d c)); apply in_or_app; auto).
    unfold class_contents in K. apply in_map_iff in K as (q' & Eq & K). apply filter_In in K as [_ K]. apply Z.eqb_eq in K. unfold content in Eq. injection Eq as _ Ey' _. congruence. }
  assert (exists preds, map_outcome (fun m => let* v := view hp' (snd m) in Ok (fit (fst m) v p)) ms = Ok preds /\ Forall2 (fun m y => exists v, view hp' (snd m) = Ok v /\ y = fit (fst m) v p) ms preds /\ incl preds (d_classes d)) as (preds & Em & F & I).
  { clear -Q. induction ms as [|m ms IH]; [exists []; split; [reflexivity|]; split; [constructor|intros x []]|]. destruct (Q m (or_introl eq_refl)) as (v & Vm & Im). destruct IH as (preds & E & F & I); [intros; apply Q; now right|].
    exists (fit (fst m) v p :: preds). cbn [map_outcome]. rewrite Vm. cbn [obind]. rewrite E. split; [reflexivity|]. split; [constructor; eauto|]. intros x [<-|J]; auto. }
  destruct (c52_committee (d_classes d) preds (co_nodup _ (ok_class _ D)) NC I) as (c & Ec & Fc). exists preds, c. split; [auto|]. split; [|auto]. unfold bag_evaluate. rewrite (Kp src d V). cbn [obind]. rewrite Em. cbn [obind]. auto.
Qed.
(** The hypotheses are met: three points of two classes, two members. *)
Lemma c108_train_ex : 7 = (if Nat.eqb 7 0 then 0 else 7) /\ (forall s : nat, in_range ((fun _ => all_zero) s)) /\ view hp3 h3 = Ok ex3 /\ data_ok ex3 /\ (forall c, In c (d_classes ex3) -> In c (labels (d_points ex3))) /\ 1 <= 2 <= length (d_points ex3).
Proof. destruct c16_replacement_ex as (A & B & C & D & _). split; [reflexivity|]. split; [intro; exact A|]. split; [exact B|]. split; [exact C|]. split; [exact D|]. vm_compute. lia. Qed.
Lemma c108_sizes_refuted_ex : view hp3 h3 = Ok ex3 /\ data_ok ex3 /\ d_points ex3 <> [] /\ length (d_points ex3) < 4.
Proof. destruct c108_train_ex as (_ & _ & A & B & _). split; [exact A|]. split; [exact B|]. split; [intro N; apply (f_equal (@length _)) in N; vm_compute in N; discriminate N|]. vm_compute. lia. Qed.
Lemma c108_evaluate_ex : exists hp' ms, bag_train (fun _ => all_zero) (fun _ => 0) 7 2 hp3 h3 = Ok (Some (7, hp', ms)) /\ length ms = 2 /\ forall n (v : data Z), d_points v <> [] -> In ((fun (_ : nat) (w : data Z) => hd 0%Z (labels (d_points w))) n v) (labels (d_points v)).
Proof.
  destruct c108_train_ex as (A0 & A & B & C & D & E). destruct (c108_train Z (fun _ => all_zero) (fun _ => 0) 7 2 hp3 h3 ex3 7 A0 ltac:(lia) A B C D E) as (hp' & ms & R & L & _). exists hp', ms. split; [exact R|]. split; [exact L|].
  intros n v NE. destruct (d_points v); [contradiction|]. now left.
Qed.
