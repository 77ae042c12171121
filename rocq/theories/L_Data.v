(** Lemmas about the Data model: class bookkeeping, insertion, removal. *)
From Coq Require Import ZArith Bool String Sorted Permutation Lia List.
From Verif Require Import Base ListLib M_Data S_Data.
Import ListNotations.
Open Scope Z_scope.

(** ** counting on label lists *)
Definition count_ok (classes dist ys : list Z) : Prop :=
  NoDup classes /\ length dist = length classes /\ (forall y, In y ys -> In y classes) /\
  (forall i c, nth_error classes i = Some c -> nth_error dist i = Some (Z.of_nat (count_occ Z.eq_dec ys c))).

Lemma count_ok_perm classes dist ys ys' : Permutation ys ys' -> count_ok classes dist ys -> count_ok classes dist ys'.
Proof.
  intros P (H1 & H2 & H3 & H4). repeat split; auto.
  - intros y Hy. apply H3. eapply Permutation_in; [symmetry; eauto|auto].
  - intros i c Hi. rewrite (H4 _ _ Hi). do 2 f_equal.
    apply Permutation_count_occ. auto.
Qed.

Lemma count_ok_bump classes dist ys y dist' :
  count_ok classes dist ys -> In y classes -> Z.of_nat (length ys) + 1 < 2 ^ 64 ->
  upd (find_pos y classes) (fun c => wrap64 (c + 1)) dist = Some dist' ->
  count_ok classes dist' (y :: ys).
Proof.
  intros (H1 & H2 & H3 & H4) Hy Hc Hu. repeat split; auto.
  - apply upd_length in Hu. congruence.
  - intros z [<-|Hz]; auto.
  - intros i c Hi. simpl. destruct (Z.eq_dec y c) as [->|N].
    + assert (find_pos c classes = i) as E by (eapply find_pos_unique; eauto).
      rewrite E in Hu. rewrite (upd_nth_same _ _ _ _ Hu), (H4 _ _ Hi). simpl. f_equal.
      rewrite wrap64_id; [lia|]. generalize (count_occ_bound Z.eq_dec c ys). lia.
    + rewrite (upd_nth_other _ i _ _ _ Hu); auto.
      intro E. subst i. rewrite find_pos_nth in Hi by auto. congruence.
Qed.

Lemma count_ok_new classes dist ys y :
  count_ok classes dist ys -> ~ In y classes -> count_ok (classes ++ [y]) (dist ++ [1]) (y :: ys).
Proof.
  intros (H1 & H2 & H3 & H4) Hy. repeat split.
  - apply NoDup_app_comm || idtac.
    eapply Permutation_NoDup; [apply Permutation_cons_append|]. constructor; auto.
  - rewrite !app_length. simpl. lia.
  - intros z [<-|Hz]; apply in_or_app; [right; left; auto|left; auto].
  - intros i c Hi. destruct (Nat.lt_ge_cases i (length classes)) as [L|L].
    + rewrite nth_error_app1 in Hi by auto. rewrite nth_error_app1 by lia.
      rewrite (H4 _ _ Hi). simpl. destruct (Z.eq_dec y c) as [->|N]; auto.
      exfalso. apply Hy. eapply nth_error_In; eauto.
    + rewrite nth_error_app2 in Hi by auto. rewrite nth_error_app2 by lia.
      rewrite H2. destruct (i - length classes)%nat eqn:E; simpl in *.
      * injection Hi as <-. destruct (Z.eq_dec y y); [|congruence].
        rewrite (proj1 (count_occ_not_In Z.eq_dec ys y)); auto.
      * destruct n; discriminate.
Qed.

Lemma count_ok_drop classes dist ys y dist' :
  count_ok classes dist (y :: ys) -> Z.of_nat (length ys) + 1 < 2 ^ 64 ->
  upd (find_pos y classes) (fun c => wrap64 (c - 1)) dist = Some dist' ->
  count_ok classes dist' ys.
Proof.
  intros (H1 & H2 & H3 & H4) Hc Hu. repeat split; auto.
  - apply upd_length in Hu. congruence.
  - intros z Hz. apply H3. right; auto.
  - intros i c Hi. specialize (H4 _ _ Hi). simpl in H4. revert H4. destruct (Z.eq_dec y c) as [->|N]; intro H4.
    + assert (find_pos c classes = i) as E by (eapply find_pos_unique; eauto).
      rewrite E in Hu. rewrite (upd_nth_same _ _ _ _ Hu), H4. cbn [option_map]. f_equal.
      rewrite wrap64_id; [lia|]. generalize (count_occ_bound Z.eq_dec c ys). lia.
    + rewrite (upd_nth_other _ i _ _ _ Hu); auto.
      intro E. subst i. rewrite find_pos_nth in Hi by (apply H3; left; auto). congruence.
Qed.

Section D.
Context {T : Type}.
Implicit Types d : data T.
Implicit Types p q : point T.

Lemma class_ok_iff d :
  class_ok d <-> (d_class d = true /\ count_ok (d_classes d) (d_dist d) (labels (d_points d))).
Proof.
  split.
  - intros [A B C D E]. split; auto. repeat split; auto.
    intros y Hy. unfold labels in Hy. apply in_map_iff in Hy. destruct Hy as (p & <- & Hp). auto.
  - intros (A & B & C & D & E). constructor; auto.
    intros p Hp. apply D. unfold labels. apply in_map. auto.
Qed.

Lemma labels_app (a b : list (point T)) : labels (a ++ b) = labels a ++ labels b.
Proof. apply map_app. Qed.

Lemma iota_length a n : length (iota a n) = n.
Proof. unfold iota. rewrite map_length, seq_length. reflexivity. Qed.

Lemma iota_sorted a n : StronglySorted Z.lt (iota a n).
Proof.
  unfold iota. generalize 0%nat. induction n as [|n IH]; intro s; simpl; constructor; auto.
  rewrite Forall_forall. intros x Hx. apply in_map_iff in Hx. destruct Hx as (i & <- & Hi).
  apply in_seq in Hi. lia.
Qed.

Lemma iota_pos n f : In f (iota 1 n) -> 0 < f.
Proof. unfold iota. intro H. apply in_map_iff in H. destruct H as (i & <- & _). lia. Qed.

(** What insertion does when the point is accepted. *)
Definition accepts d p : Prop := d_points d = [] \/ length (p_x p) = dim d.

Lemma insertPoint_reject d p k : ~ accepts d p -> insertPoint d p k = Ok (d, false).
Proof.
  unfold accepts, insertPoint, size. intro H.
  destruct (d_points d) as [|q r] eqn:E; [exfalso; auto|].
  destruct (Nat.eqb_spec (length (p_x p)) (dim d)) as [e|n]; [exfalso; auto|]. reflexivity.
Qed.

Definition new_classes d y := if memZ y (d_classes d) then d_classes d else d_classes d ++ [y].

Lemma memZ_In x l : memZ x l = true <-> In x l.
Proof.
  unfold memZ. rewrite existsb_exists. split.
  - intros (y & Hy & E). apply Z.eqb_eq in E. congruence.
  - intro H. exists x. split; auto. apply Z.eqb_refl.
Qed.
Lemma memZ_notIn x l : memZ x l = false <-> ~ In x l.
Proof. rewrite <- memZ_In. destruct (memZ x l); split; congruence. Qed.

Lemma insertPoint_accept d p k :
  accepts d p -> d_size d = length (d_points d) -> length (d_dist d) = length (d_classes d) ->
  exists d', insertPoint d p k = Ok (d', true) /\
    d_points d' = d_points d ++ [if k then p else with_id (Z.of_nat (S (length (d_points d)))) p] /\
    d_size d' = S (length (d_points d)) /\
    d_index d' = d_index d ++ [Z.of_nat (length (d_points d))] /\
    d_fnames d' = (match p_x p with [] => d_fnames d | _ => iota 1 (length (p_x p)) end) /\
    d_dim d' = (if Nat.eqb (d_dim d) 0 then length (p_x p) else d_dim d) /\
    d_class d' = d_class d /\ d_cdist d' = d_cdist d /\ d_normalized d' = d_normalized d /\ d_isempty d' = false /\
    (d_class d = false -> d_classes d' = d_classes d /\ d_dist d' = d_dist d /\ d_cnames d' = d_cnames d) /\
    (d_class d = true -> In (p_y p) (d_classes d) ->
        d_classes d' = d_classes d /\ d_cnames d' = d_cnames d /\
        upd (find_pos (p_y p) (d_classes d)) (fun c => wrap64 (c + 1)) (d_dist d) = Some (d_dist d')) /\
    (d_class d = true -> ~ In (p_y p) (d_classes d) ->
        d_classes d' = d_classes d ++ [p_y p] /\ d_dist d' = d_dist d ++ [1] /\
        d_cnames d' = d_cnames d ++ [string_of_Z (p_y p)]).
Proof.
  intros Ha Hs Hl. unfold insertPoint.
  assert ((Nat.ltb 0 (size d) && negb (Nat.eqb (length (p_x p)) (dim d)))%bool = false) as ->.
  { unfold size. destruct Ha as [->| ->]; simpl; auto. rewrite Nat.eqb_refl, andb_false_r. auto. }
  replace (S (d_size d) - 1)%nat with (length (d_points d)) by lia.
  assert (vget (d_points d ++ [p]) (length (d_points d)) = Ok p) as Hv by (apply vget_Ok, nth_error_last).
  cbn [d_class d_classes d_points]. rewrite Hv. cbn [obind].
  assert (forall f, vupd (length (d_points d)) f (d_points d ++ [p]) = Ok (d_points d ++ [f p])) as Hw.
  { intro f. apply vupd_Ok, upd_last. }
  rewrite Hw. rewrite app_length. simpl length.
  assert (forall n, Z.of_nat (n + 1) - 1 = Z.of_nat n) as Hz by (intro; lia). rewrite Hz.
  rewrite Hs.
  assert ((if k then Ok (d_points d ++ [p])
           else Ok (d_points d ++ [{| p_x := p_x p; p_y := p_y p; p_id := Z.of_nat (S (length (d_points d)));
                                      p_alpha := p_alpha p |}])) =
          Ok (d_points d ++ [if k then p else with_id (Z.of_nat (S (length (d_points d)))) p])) as Hk by (destruct k; reflexivity).
  rewrite Hk. clear Hk.
  destruct (d_class d) eqn:Ec.
  - unfold count_class. cbn [d_classes].
    destruct (Nat.eqb (find_pos (p_y p) (d_classes d)) (length (d_classes d))) eqn:E.
    + assert (~ In (p_y p) (d_classes d)) as NI by (apply find_pos_eqb_true; auto).
      cbn [obind]. eexists. split; [reflexivity|]. cbn.
      repeat (split; [try reflexivity; try tauto; try congruence|]); intros; try tauto; try congruence; auto.
    + assert (In (p_y p) (d_classes d)) as HI by (apply find_pos_eqb; auto).
      destruct (vupd_lt (find_pos (p_y p) (d_classes d)) (fun c => wrap64 (c + 1)) (d_dist d)) as (r & Hr & Hr').
      { rewrite Hl. apply find_pos_In; auto. }
      cbn [d_dist]. rewrite Hr'. cbn [obind]. eexists. split; [reflexivity|]. cbn.
      repeat (split; [try reflexivity; try tauto; try congruence|]); intros; try tauto; try congruence; auto.
  - cbn [obind]. eexists. split; [reflexivity|]. cbn.
    repeat (split; [try reflexivity; try tauto; try congruence|]); intros; try tauto; try congruence; auto.
Qed.

Lemma accepts_dec d p : {accepts d p} + {~ accepts d p}.
Proof.
  unfold accepts. destruct (d_points d); [left; auto|].
  destruct (Nat.eq_dec (length (p_x p)) (dim d)); [left; auto|right; intros [X|X]; congruence].
Defined.

Lemma insertPoint_ok d p k d' b :
  data_ok d -> Z.of_nat (length (d_points d)) + 1 < 2 ^ 63 -> insertPoint d p k = Ok (d', b) -> data_ok d'.
Proof.
  intros Hd Hcap H.
  destruct (accepts_dec d p) as [Ha|Hn].
  2: { rewrite insertPoint_reject in H by auto. injection H as <- <-. auto. }
  destruct Hd as [Hs Hcl Hn Hi Hdm Hf Hso Hfp He Hc].
  pose proof (proj1 (class_ok_iff d) Hcl) as (A & CO).
  assert (length (d_dist d) = length (d_classes d)) as HL0 by apply CO.
  destruct (insertPoint_accept d p k Ha Hs HL0)
    as (d1 & Hi1 & Hp & Hsz & Hidx & Hfn & Hdim & Hcc & Hcd & Hno & Hie & _ & Hin & Hnin).
  rewrite Hi1 in H; injection H as -> <-.
  assert (labels (d_points d') = labels (d_points d) ++ [p_y p]) as HL
    by (rewrite Hp, labels_app; destruct k; reflexivity).
  assert (count_ok (d_classes d') (d_dist d') (labels (d_points d')) /\ length (d_cnames d') = length (d_classes d')) as (CO' & HN').
  { destruct (in_dec Z.eq_dec (p_y p) (d_classes d)) as [I|NI].
    - destruct (Hin A I) as (X & Y & Z). rewrite X, Y, HL. split; [|auto].
      apply count_ok_perm with (ys := p_y p :: labels (d_points d)); [apply Permutation_cons_append|].
      eapply count_ok_bump; eauto. unfold labels. rewrite map_length. lia.
    - destruct (Hnin A NI) as (X & Y & Z). rewrite X, Y, Z, HL. split; [|rewrite !app_length; simpl; lia].
      apply count_ok_perm with (ys := p_y p :: labels (d_points d)); [apply Permutation_cons_append|].
      apply count_ok_new; auto. }
  assert (d_dim d' = length (p_x p)) as HD.
  { rewrite Hdim. destruct (Nat.eqb_spec (d_dim d) 0); auto.
    destruct Ha as [Ha|Ha]; [rewrite He in *; auto; lia|].
    rewrite Ha. unfold dim. destruct (d_points d) as [|q r]; [rewrite He in *; auto; lia|].
    symmetry. apply Hdm. left; auto. }
  assert (d_points d <> [] -> d_dim d = length (p_x p)) as HD2.
  { intro N. destruct Ha as [Ha|Ha]; [congruence|]. rewrite Ha. unfold dim.
    destruct (d_points d) as [|q r]; [congruence|]. symmetry. apply Hdm. left; auto. }
  constructor.
  - rewrite Hsz, Hp, app_length. simpl. lia.
  - apply class_ok_iff. rewrite Hcc. auto.
  - auto.
  - rewrite Hidx, Hp, !app_length. simpl. lia.
  - rewrite Hp, HD. intros z Hz. apply in_app_or in Hz. destruct Hz as [Hz|[<-|[]]].
    + rewrite Hdm by auto. apply HD2. intro X. rewrite X in Hz. destruct Hz.
    + destruct k; auto.
  - rewrite Hfn, HD. destruct (p_x p) as [|x xs] eqn:Ex; [|apply iota_length].
    rewrite Hf. destruct (d_points d) as [|q r] eqn:Ep; [apply He; auto|]. apply HD2. discriminate.
  - rewrite Hfn. destruct (p_x p); auto. apply iota_sorted.
  - rewrite Hfn. destruct (p_x p); auto. apply iota_pos.
  - rewrite Hp. intro X. symmetry in X. apply app_cons_not_nil in X. tauto.
  - rewrite Hp, app_length. simpl. lia.
Qed.

(** ** removePoint *)
Lemma shift_fold_ok pid js l :
  1 <= pid -> (forall j, In j js -> (j < length l)%nat) ->
  exists r, fold_left (shift_step pid) js (Ok l) = Ok r /\ length r = length l.
Proof.
  intro Hp. revert l. induction js as [|j js IH]; intros l H; cbn [fold_left]; [eauto|].
  assert (exists r, shift_step pid (Ok l) j = Ok r /\ length r = length l) as (r & Hr & Lr).
  { unfold shift_step. cbn [obind]. destruct (Z.leb_spec pid (Z.of_nat j)); [|eauto].
    destruct j as [|j']; [lia|].
    destruct (vget_lt l (S j')) as (v & _ & Hv); [apply H; left; auto|]. rewrite Hv. cbn [obind].
    destruct (vupd_lt j' (fun _ => v - 1) l) as (r & Hr & Hr'); [specialize (H (S j') (or_introl eq_refl)); lia|].
    exists r. split; auto. eapply upd_length; eauto. }
  rewrite Hr.
  destruct (IH r) as (r' & H1 & H2); [intros; rewrite Lr; apply H; right; auto|].
  exists r'. split; auto. congruence.
Qed.

Lemma vresize_length {A} (a : A) n l : length (vresize a n l) = n.
Proof. unfold vresize. rewrite app_length, firstn_length, repeat_length. lia. Qed.

Lemma shift_index_ok pid n l :
  1 <= pid -> exists r, shift_index pid n l = Ok r /\ (l = [] -> r = []) /\ (l <> [] -> length r = n).
Proof.
  intro Hp. unfold shift_index. destruct l as [|x l]; [exists []; intuition congruence|].
  destruct (shift_fold_ok pid (seq 0 n) (vresize 0 n (x :: l))) as (r & H & L); auto.
  - intros j Hj. apply in_seq in Hj. rewrite vresize_length. lia.
  - exists r. rewrite vresize_length in L. intuition congruence.
Qed.

Lemma find_id_spec pid (l : list (point T)) :
  match find_id pid (length l) l with
  | Ok None => forall q, In q l -> p_id q <> pid
  | Ok (Some (i, q)) => exists a b, l = a ++ q :: b /\ length a = i /\ p_id q = pid /\ (forall r, In r a -> p_id r <> pid)
  | _ => False
  end.
Proof.
  induction l as [|x l IH]; simpl; [intros q []|].
  destruct (Z.eqb_spec (p_id x) pid) as [e|n].
  - exists [], l. simpl. intuition.
  - destruct (find_id pid (length l) l) as [[[i q]|]| |]; simpl; auto.
    + destruct IH as (a & b & -> & <- & Hq & Ha). exists (x :: a), b.
      repeat split; auto. intros r [<-|Hr]; auto.
    + intros q [<-|Hq]; auto.
Qed.

Lemma removePoint_inv d pid d' b :
  data_ok d -> removePoint d pid = Ok (d', b) ->
  (b = false /\ d' = d) \/
  (b = true /\ (2 <= length (d_points d))%nat /\ 0 < pid /\
   exists a q c, d_points d = a ++ q :: c /\ p_id q = pid /\ (forall r, In r a -> p_id r <> pid) /\
     d_points d' = a ++ c /\ d_size d' = (d_size d - 1)%nat /\
     d_fnames d' = d_fnames d /\ d_cnames d' = d_cnames d /\ d_classes d' = d_classes d /\
     d_dim d' = d_dim d /\ d_class d' = d_class d /\
     (length (d_points d') <= length (d_index d'))%nat /\
     upd (find_pos (p_y q) (d_classes d)) (fun c => wrap64 (c - 1)) (d_dist d) = Some (d_dist d')).
Proof.
  intros Hd. unfold removePoint.
  destruct (Nat.eqb_spec (d_size d) 1) as [e|n]; [intro H; injection H as <- <-; left; auto|].
  destruct (d_size d) as [|k] eqn:Es; [discriminate|].
  destruct (vget (d_points d) k) as [lp| |] eqn:El; cbn [obind]; try discriminate.
  destruct (Z.ltb (p_id lp) pid || Z.leb pid 0)%bool eqn:Eb; [intro H; injection H as <- <-; left; auto|].
  apply orb_false_iff in Eb. destruct Eb as (E1 & E2). apply Z.leb_gt in E2.
  pose proof (ok_size _ Hd) as Hs. rewrite Es in Hs.
  destruct (shift_index_ok pid (S k) (d_index d)) as (idx & Hi & Hi1 & Hi2); [lia|].
  rewrite Hi. cbn [obind]. rewrite Hs.
  pose proof (find_id_spec pid (d_points d)) as F.
  destruct (find_id pid (length (d_points d)) (d_points d)) as [[[i q]|]| |]; cbn [obind]; try discriminate.
  destruct F as (a & c & Ha & Hl & Hq & Hno).
  destruct (vupd (find_pos (p_y q) (d_classes d)) (fun c => wrap64 (c - 1)) (d_dist d)) as [dist| |] eqn:Ed;
    cbn [obind]; try discriminate.
  intro H. injection H as <- <-. right. repeat split; auto; try lia.
  assert (remove_at i (d_points d) = a ++ c) as Hrm by (rewrite Ha, <- Hl; apply remove_at_split).
  exists a, q, c. cbn [d_points d_size d_fnames d_cnames d_classes d_dim d_class d_index d_dist].
  rewrite Hrm. repeat split; auto; try lia.
  - pose proof (ok_index _ Hd) as Hx. rewrite Ha, app_length in Hs, Hx. simpl in Hs, Hx.
    rewrite app_length. rewrite Hi2; [lia|]. intro X. rewrite X in Hx. simpl in Hx. lia.
  - apply vupd_Ok. auto.
Qed.

Lemma removePoint_ok d pid d' b : data_ok d -> removePoint d pid = Ok (d', b) -> data_ok d'.
Proof.
  intros Hd H. destruct (removePoint_inv _ _ _ _ Hd H) as [(-> & ->)|(-> & Hs & Hp & a & q & c & Ha & Hq & Hno & Hp' & Hs' & Hf & Hcn & Hcl & Hdm & Hc & Hi & Hu)]; auto.
  destruct Hd as [As Acl An Ai Adm Af Aso Afp Ae Ac].
  pose proof (proj1 (class_ok_iff d) Acl) as (A & CO).
  constructor; rewrite ?Hs', ?Hf, ?Hcn, ?Hcl, ?Hdm, ?Hp'; auto.
  - rewrite As, Ha, !app_length. simpl. lia.
  - apply class_ok_iff. rewrite Hc, Hcl, Hp'. split; auto.
    eapply count_ok_drop with (y := p_y q); [|  |exact Hu].
    + eapply count_ok_perm; [|exact CO]. rewrite Ha, !labels_app. simpl. symmetry. apply Permutation_middle.
    + unfold labels. rewrite map_length. rewrite Ha, app_length in Ac. simpl in Ac. rewrite app_length. lia.
  - rewrite <- Hp'. auto.
  - intros z Hz. apply Adm. rewrite Ha. apply in_app_or in Hz. apply in_or_app. simpl. tauto.
  - intro X. rewrite Ha, app_length in Hs. apply app_eq_nil in X. destruct X as (-> & ->). simpl in Hs. lia.
  - rewrite Ha, app_length in Ac. simpl in Ac. rewrite app_length. lia.
Qed.

(** Success of removePoint on a listed id, when ids grow along the dataset. *)
Lemma sorted_last_max (l : list Z) x z : StronglySorted Z.lt (l ++ [x]) -> In z (l ++ [x]) -> z <= x.
Proof.
  induction l as [|y l IH]; simpl; intros H I.
  - destruct I as [->|[]]. lia.
  - inversion H; subst. destruct I as [<-|I]; auto.
    rewrite Forall_forall in H3. specialize (H3 x). assert (In x (l ++ [x])) by (apply in_or_app; simpl; auto). specialize (H3 H0). lia.
Qed.

Lemma filter_id_split (a c : list (point T)) q pid :
  p_id q = pid -> NoDup (map p_id (a ++ q :: c)) ->
  filter (fun p => negb (Z.eqb (p_id p) pid)) (a ++ q :: c) = a ++ c.
Proof.
  intros Hq ND. rewrite map_app in ND. simpl in ND. apply NoDup_remove in ND. destruct ND as (_ & NI).
  rewrite filter_app. simpl. rewrite Hq, Z.eqb_refl. simpl. f_equal; apply filter_all; intros x Hx;
  destruct (Z.eqb_spec (p_id x) pid) as [e|]; auto; exfalso; apply NI; rewrite Hq, <- e;
  apply in_or_app; [left|right]; apply in_map; auto.
Qed.

Lemma sorted_lt_NoDup l : StronglySorted Z.lt l -> NoDup l.
Proof.
  induction 1 as [|a l Hs IH Hf]; constructor; auto. intro I. rewrite Forall_forall in Hf. specialize (Hf _ I). lia.
Qed.

Lemma removePoint_present d pid :
  data_ok d -> (2 <= length (d_points d))%nat -> StronglySorted Z.lt (map p_id (d_points d)) ->
  0 < pid -> In pid (map p_id (d_points d)) ->
  exists d', removePoint d pid = Ok (d', true) /\
    d_points d' = filter (fun p => negb (Z.eqb (p_id p) pid)) (d_points d).
Proof.
  intros Hd Hs Hso Hp Hin.
  assert (exists d', removePoint d pid = Ok (d', true)) as (d' & H).
  { unfold removePoint. pose proof (ok_size _ Hd) as Hz.
    destruct (Nat.eqb_spec (d_size d) 1) as [e|n]; [lia|].
    destruct (d_size d) as [|k] eqn:Es; [lia|].
    destruct (vget_lt (d_points d) k) as (lp & Hl & Hv); [lia|]. rewrite Hv. cbn [obind].
    assert (pid <= p_id lp).
    { destruct (exists_last (l := d_points d)) as (l & x & El); [intro X; rewrite X in Hs; simpl in Hs; lia|].
      rewrite El in *. rewrite map_app in *. simpl in *. rewrite app_length in Hz. simpl in Hz.
      replace k with (length l) in Hl by lia. rewrite nth_error_last in Hl. injection Hl as <-.
      eapply sorted_last_max; eauto. }
    destruct (Z.ltb_spec (p_id lp) pid); [lia|]. destruct (Z.leb_spec pid 0); [lia|]. cbn [orb].
    destruct (shift_index_ok pid (S k) (d_index d)) as (idx & Hi & _); [lia|]. rewrite Hi. cbn [obind].
    rewrite Hz. pose proof (find_id_spec pid (d_points d)) as F.
    destruct (find_id pid (length (d_points d)) (d_points d)) as [[[i q]|]| |]; cbn [obind]; try contradiction.
    - destruct F as (a & c & Ha & _). pose proof (ok_class _ Hd) as [_ _ L Dl _].
      destruct (vupd_lt (find_pos (p_y q) (d_classes d)) (fun c => wrap64 (c - 1)) (d_dist d)) as (dist & _ & E).
      { rewrite Dl. apply find_pos_In, L. rewrite Ha. apply in_or_app. right. left. auto. }
      rewrite E. cbn [obind]. eauto.
    - exfalso. apply in_map_iff in Hin. destruct Hin as (q & Hq & Iq). eapply F; eauto. }
  exists d'. split; auto.
  destruct (removePoint_inv _ _ _ _ Hd H) as [(X & _)|(_ & _ & _ & a & q & c & Ha & Hq & _ & Hp' & _)]; [discriminate|].
  rewrite Hp', Ha. symmetry. apply filter_id_split; auto. rewrite <- Ha. apply sorted_lt_NoDup; auto.
Qed.
End D.
