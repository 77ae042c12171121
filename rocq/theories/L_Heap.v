(** Lemmas about datasets that share points through a heap. *)
From Coq Require Import ZArith Bool String List Lia Permutation.
From Verif Require Import Base ListLib M_Data M_Hist Loop L_Valid L_Dll M_Heap.
Import ListNotations.
Local Open Scope nat_scope.

Section Heap.
Context {T : Type}.
Implicit Types (hp : heap T) (h : hdata T) (d : data T).

Definition reads hp (refs : list nat) (pts : list (point T)) : Prop := Forall2 (fun r p => nth_error hp r = Some p) refs pts.
Lemma reads_len hp refs pts : reads hp refs pts -> length refs = length pts.
Proof. induction 1; cbn; congruence. Qed.
Lemma reads_get hp refs pts : map_outcome (vget hp) refs = Ok pts <-> reads hp refs pts.
Proof.
  split.
  - revert pts. induction refs as [|r rs IH]; intros pts E; cbn in E; [injection E as <-; constructor|]. destruct (vget hp r) as [p| |] eqn:Ep; try discriminate. cbn [obind] in E. destruct (map_outcome (vget hp) rs) as [ps| |]; try discriminate. injection E as <-.
    constructor; [|now apply IH]. unfold vget in Ep. destruct (nth_error hp r); congruence.
  - induction 1 as [|r p rs ps E F IH]; cbn; [reflexivity|]. unfold vget at 1. rewrite E. cbn [obind]. now rewrite IH.
Qed.
Lemma view_ok hp h d : view hp h = Ok d <-> reads hp (h_refs h) (d_points d) /\ d = with_points (d_points d) (h_meta h).
Proof.
  unfold view. split.
  - destruct (map_outcome (vget hp) (h_refs h)) as [pts| |] eqn:E; try discriminate. cbn [obind]. intro Q. injection Q as <-. apply reads_get in E. cbn [with_points d_points]. auto.
  - intros [R E]. apply reads_get in R. rewrite R. cbn [obind]. now rewrite <- E.
Qed.
Lemma view_strip hp refs d : reads hp refs (d_points d) -> view hp (mkH refs (strip d)) = Ok d.
Proof. intro R. apply view_ok. cbn [h_refs h_meta]. split; [auto|]. destruct d; reflexivity. Qed.
Lemma reads_app hp refs pts tl : reads hp refs pts -> reads (hp ++ tl) refs pts.
Proof. induction 1 as [|r p rs ps E F IH]; constructor; [|auto]. rewrite nth_error_app1; [auto|]. apply nth_error_Some. congruence. Qed.
Lemma reads_frame hp hp' refs pts : reads hp refs pts -> (forall r p, In r refs -> nth_error hp r = Some p -> nth_error hp' r = Some p) -> reads hp' refs pts.
Proof. induction 1 as [|r p rs ps E F IH]; intro H; constructor; [apply H; [now left|auto]|]. apply IH. intros. apply H; [now right|auto]. Qed.
Lemma reads_fresh hp pts : reads (hp ++ pts) (seq (length hp) (length pts)) pts.
Proof.
  revert hp. induction pts as [|p ps IH]; intro hp; cbn [length seq]; constructor; [rewrite nth_error_app2, Nat.sub_diag by auto; reflexivity|].
  specialize (IH (hp ++ [p])). rewrite <- app_assoc in IH. cbn [app] in IH. rewrite app_length in IH. cbn [length] in IH. now rewrite Nat.add_1_r in IH.
Qed.
Lemma reads_lt hp refs pts r : reads hp refs pts -> In r refs -> r < length hp.
Proof. induction 1 as [|x p rs ps E F IH]; intros []; [subst; apply nth_error_Some; congruence|auto]. Qed.
Lemma reads_nth hp refs pts i p : reads hp refs pts -> nth_error pts i = Some p -> exists r, nth_error refs i = Some r /\ nth_error hp r = Some p.
Proof. intro R. revert i. induction R as [|x q rs ps E F IH]; intros [|i] H; cbn in *; try discriminate; [injection H as <-; eauto|auto]. Qed.

(** A dataset without a repeated pointer. *)
Definition distinct h : Prop := NoDup (h_refs h).
(** [hp'], [h'] come from [hp], [h] by writing only points of [h] and adding new ones. *)
Record frame hp h hp' h' : Prop := {
  fr_len : length hp <= length hp';
  fr_keep : forall r p, ~ In r (h_refs h) -> nth_error hp r = Some p -> nth_error hp' r = Some p;
  fr_refs : forall r, In r (h_refs h') -> In r (h_refs h) \/ length hp <= r;
  fr_distinct : distinct h' }.

Lemma upd_reads hp refs pts i f pts' : reads hp refs pts -> NoDup refs -> vupd i f pts = Ok pts' ->
  exists r hp', vget refs i = Ok r /\ In r refs /\ vupd r f hp = Ok hp' /\ reads hp' refs pts' /\ length hp' = length hp /\ (forall j, j <> r -> nth_error hp' j = nth_error hp j).
Proof.
  intros R ND E. apply vupd_Ok in E. pose proof (upd_Some_lt _ _ _ _ E) as L. destruct (nth_error pts i) as [p|] eqn:Ep; [|apply nth_error_None in Ep; lia].
  destruct (reads_nth _ _ _ _ _ R Ep) as (r & Er & Eh). assert (r < length hp) as Lr by (apply nth_error_Some; congruence). destruct (vupd_lt r f hp Lr) as (hp' & U & V).
  exists r, hp'. unfold vget. rewrite Er. split; [auto|]. split; [eapply nth_error_In; eauto|]. split; [auto|]. split; [|split; [eapply upd_length; eauto|intros j N; eapply upd_nth_other; eauto]].
  pose proof (upd_nth_same _ _ _ _ U) as Sm. rewrite Eh in Sm. cbn in Sm.
  clear V L Lr. revert i pts' Er Ep E ND. induction R as [|x q rs ps Ex F IH]; intros [|i] pts' Er Ep E ND; cbn in Er, Ep; try discriminate.
  - injection Er as ->. injection Ep as ->. cbn in E. injection E as <-. inversion ND; subst. constructor; [auto|]. eapply reads_frame; [exact F|]. intros r' p' I Q. rewrite (upd_nth_other _ r' _ _ _ U); [auto|]. intro; subst; contradiction.
  - cbn in E. destruct (upd i f ps) as [ps'|] eqn:Eu; [|discriminate]. injection E as <-. inversion ND; subst. constructor; [|now apply (IH i)]. rewrite (upd_nth_other _ x _ _ _ U); [auto|]. intro; subst. apply H1. eapply nth_error_In; eauto.
Qed.

(** *** what the operations do to the list of points *)
Lemma insert_points d p k d' b : insertPoint d p k = Ok (d', b) -> (b = false /\ d' = d) \/ (b = true /\
  if k then d_points d' = d_points d ++ [p] else vupd (S (d_size d) - 1) (fun q => mkPoint (p_x q) (p_y q) (Z.of_nat (S (d_size d))) (p_alpha q)) (d_points d ++ [p]) = Ok (d_points d')).
Proof.
  unfold insertPoint. destruct (_ && _); [intro E; injection E as <- <-; auto|]. cbv zeta.
  match goal with |- context [obind (if d_class ?d1 then _ else _) _] => destruct (if d_class d1 then _ else _) as [d2| |]; cbn [obind]; try discriminate end.
  destruct k; cbn [obind].
  - intro E. injection E as <- <-. right. auto.
  - destruct (vupd _ _ _) as [pts'| |]; cbn [obind]; try discriminate. intro E. injection E as <- <-. right. auto.
Qed.
Lemma permute_reads hp refs pts perm pts' : reads hp refs pts -> permute perm pts = Ok pts' -> exists refs', permute perm refs = Ok refs' /\ reads hp refs' pts' /\ map (nth_error refs) perm = map Some refs'.
Proof.
  intros R. revert pts'. unfold permute. induction perm as [|i perm IH]; intros pts' E; cbn [fold_right map] in *; [injection E as <-; exists []; split; [auto|split; [constructor|auto]]|].
  destruct (fold_right _ _ perm) as [ps| |] eqn:Ef in E; cbn [obind] in E; try discriminate. destruct (vget pts i) as [p| |] eqn:Ep; cbn [obind] in E; try discriminate. injection E as <-. rewrite Ef in IH.
  destruct (IH _ eq_refl) as (rs & -> & Rr & Er). unfold vget in Ep. destruct (nth_error pts i) as [p'|] eqn:Q; [|discriminate]. injection Ep as ->. destruct (reads_nth _ _ _ _ _ R Q) as (r & E1 & E2). cbn [obind]. unfold vget. rewrite E1. cbn [obind].
  exists (r :: rs). split; [auto|]. split; [constructor; auto|]. cbn. congruence.
Qed.
Lemma some_inj {A} (l l' : list A) : map Some l = map Some l' -> l = l'.
Proof. revert l'. induction l as [|a l IH]; intros [|b l'] E; cbn in E; try discriminate; [auto|]. injection E as -> E. f_equal. auto. Qed.
Lemma picked_nodup (refs refs' perm : list nat) : NoDup refs -> NoDup perm -> map (nth_error refs) perm = map Some refs' -> NoDup refs' /\ incl refs' refs.
Proof.
  intros ND. revert refs'. induction perm as [|i perm IH]; intros [|r rs] NP E; cbn in E; try discriminate; [split; [constructor|intros x []]|]. injection E as E1 E2. inversion NP; subst. destruct (IH rs H2 E2) as [A B]. split.
  - constructor; [|auto]. intro I. apply In_nth_error in I as (j & Ej). assert (nth_error (map (nth_error refs) perm) j = Some (Some r)) as Q by (rewrite E2, nth_error_map, Ej; reflexivity).
    rewrite nth_error_map in Q. destruct (nth_error perm j) as [k|] eqn:Ek; [|discriminate]. cbn in Q. injection Q as Q. assert (i = k); [|subst; apply H1; eapply nth_error_In; eauto].
    apply (proj1 (NoDup_nth_error refs) ND); [apply nth_error_Some; congruence|congruence].
  - intros x [<-|I]; [eapply nth_error_In; eauto|auto].
Qed.
Lemma remove_at_reads hp refs pts i : reads hp refs pts -> reads hp (remove_at i refs) (remove_at i pts).
Proof.
  intro R. revert i. induction R as [|r p rs ps E F IH]; intro i; [destruct i; constructor|]. destruct i as [|i]; [exact F|]. unfold remove_at. cbn. constructor; [auto|]. apply IH.
Qed.
Lemma remove_at_sub {A} i (l : list A) : incl (remove_at i l) l.
Proof. unfold remove_at. intros x I. rewrite <- (firstn_skipn i l). apply in_app_or in I as [I|I]; apply in_or_app; [auto|]. right. clear -I. revert l I. induction i as [|i IH]; intros [|a l] I; cbn in *; auto. Qed.
Lemma remove_at_nodup {A} i (l : list A) : NoDup l -> NoDup (remove_at i l).
Proof.
  unfold remove_at. revert i. induction l as [|a l IH]; intros [|i] ND; cbn; auto; [inversion ND; auto|]. inversion ND; subst. constructor; [|apply (IH i); auto]. intro I. apply H1. now apply (remove_at_sub i).
Qed.
Lemma rp_reads hp ids classes pts : forall refs s pts' s', reads hp refs pts -> rp_loop ids classes pts s = Ok (pts', s') -> reads hp (rp_refs ids pts refs (rp_size s)) pts'.
Proof.
  induction pts as [|po rest IH]; intros refs s pts' s' R E; cbn [rp_loop] in E; [injection E as <- <-; inversion R; constructor|]. inversion R as [|r p rs ps Er F]; subst. cbn [rp_refs].
  destruct (Nat.eqb (find_pos (p_id po) ids) (length ids)).
  - destruct (rp_loop ids classes rest s) as [[q sq]| |] eqn:El; cbn [obind] in E; try discriminate. injection E as <- <-. cbn [fst]. constructor; [auto|]. now apply (IH rs s q sq).
  - destruct (vupd _ _ (rp_notfound s)); cbn [obind] in E; try discriminate. destruct (shift_index _ _ _); cbn [obind] in E; try discriminate. destruct (Nat.eqb_spec (rp_size s) 1) as [Q|Q]; [injection E as <- <-; auto|].
    destruct (vupd _ _ (rp_dist s)); cbn [obind] in E; try discriminate. destruct (rp_size s) as [|k] eqn:Es; [discriminate|]. cbn [Nat.sub]. rewrite Nat.sub_0_r. now apply (IH rs (mkRp a0 a1 k a) pts' s').
Qed.
Lemma rp_refs_sub ids (pts : list (point T)) : forall refs n, incl (rp_refs ids pts refs n) refs /\ (NoDup refs -> NoDup (rp_refs ids pts refs n)).
Proof.
  induction pts as [|po rest IH]; intros refs n; cbn [rp_refs]; [split; [intros x []|constructor]|]. destruct refs as [|r rs]; [split; [intros x []|auto]|]. destruct (Nat.eqb _ _).
  - destruct (IH rs n) as [A B]. split; [intros x [<-|I]; [now left|right; auto]|]. intro ND. inversion ND; subst. constructor; auto.
  - destruct (Nat.eqb n 1); [split; [intros x I; now right|intro ND; now inversion ND]|]. destruct (IH rs (n - 1)) as [A B]. split; [intros x I; right; auto|intro ND; inversion ND; auto].
Qed.
Lemma removeFeatures_points d fs d' b : removeFeatures d fs = Ok (d', b) -> length (d_points d') = length (d_points d).
Proof.
  unfold removeFeatures. destruct fs; [intro E; injection E as <- <-; auto|]. destruct (Nat.eqb _ 1); [intro E; injection E as <- <-; auto|]. destruct (exist_flags _ _ _); cbn [obind]; try discriminate.
  destruct (map_outcome _ (d_points d)) as [pts| |] eqn:E; cbn [obind]; try discriminate. destruct (rf_names _ _ _). intro Q. injection Q as <- <-. cbn [d_points]. clear -E. revert pts E. generalize (d_points d). induction l as [|p l IH]; intros pts E; cbn in E; [injection E as <-; auto|].
  destruct (rf_point _ _ _); cbn [obind] in E; try discriminate. destruct (map_outcome _ l) as [q| |]; cbn [obind] in E; try discriminate. injection E as <-. cbn. f_equal. now apply IH.
Qed.
Lemma store_ok refs : forall hp (pts : list (point T)), NoDup refs -> (forall r, In r refs -> r < length hp) -> length refs = length pts ->
  exists hp', store hp (combine refs pts) = Ok hp' /\ reads hp' refs pts /\ length hp' = length hp /\ (forall j, ~ In j refs -> nth_error hp' j = nth_error hp j).
Proof.
  unfold store. induction refs as [|r rs IH]; intros hp [|p ps] ND L E; try discriminate; cbn [combine ofold].
  - exists hp. split; [auto|]. split; [constructor|]. auto.
  - inversion ND; subst. cbn [fst snd]. destruct (vupd_lt r (fun _ => p) hp) as (h1 & U & V); [apply L; now left|]. rewrite V. pose proof (upd_length _ _ _ _ U) as L1.
    destruct (IH h1 ps H2) as (hp' & E' & R & Ln & K); [intros x I; rewrite L1; apply L; now right|cbn in E; lia|]. exists hp'. split; [exact E'|]. split; [|split; [congruence|]].
    + constructor; [|auto]. rewrite K by auto. rewrite (upd_nth_same _ _ _ _ U). destruct (nth_error hp r) eqn:Q; [reflexivity|]. apply nth_error_None in Q. specialize (L r (or_introl eq_refl)). lia.
    + intros j N. rewrite K by (intro; apply N; now right). eapply upd_nth_other; eauto. intro; subst. apply N. now left.
Qed.
Lemma updatePoint_points d i v d' b : updatePointValue d i v = Ok (d', b) -> (b = false /\ d' = d) \/ (b = true /\ vupd i (fun p => mkPoint (p_x p) v (p_id p) (p_alpha p)) (d_points d) = Ok (d_points d')).
Proof.
  unfold updatePointValue. destruct (Nat.leb _ _); [intro E; injection E as <- <-; auto|]. destruct (vget _ _); cbn [obind]; try discriminate. cbv zeta. destruct (vupd i _ _) as [pts| |]; cbn [obind]; try discriminate.
  destruct (d_class d); [|intro E; injection E as <- <-; auto]. destruct (Nat.eqb _ _); [discriminate|]. destruct (vupd _ _ (d_dist d)); cbn [obind]; try discriminate. destruct (vupd _ _ a0); cbn [obind]; try discriminate. destruct (vget a1 _); cbn [obind]; try discriminate.
  destruct (Z.eqb _ _); [destruct (_ && _); [|discriminate]|]; intro E; injection E as <- <-; auto.
Qed.
Lemma shuffle_points perm d d' : shuffle perm d = Ok d' -> permute perm (d_points d) = Ok (d_points d').
Proof. unfold shuffle. destruct (permute _ _) as [pts| |]; cbn [obind]; try discriminate. destruct (reset_prefix _ _); cbn [obind]; try discriminate. intro E. injection E as <-. reflexivity. Qed.
Lemma recount_points d d' : computeClassesDistribution d = Ok d' -> d_points d' = d_points d.
Proof. unfold computeClassesDistribution. destruct (d_cdist d); [intro E; injection E as <-; auto|]. destruct (tally _ _ _); cbn [obind]; try discriminate. intro E. injection E as <-. reflexivity. Qed.
Lemma remove_points d i d' b : removePoint d i = Ok (d', b) -> (b = false /\ d' = d) \/ (b = true /\ exists k q, find_id i (d_size d) (d_points d) = Ok (Some (k, q)) /\ d_points d' = remove_at k (d_points d)).
Proof.
  unfold removePoint. destruct (Nat.eqb _ 1); [intro E; injection E as <- <-; auto|]. destruct (match d_size d with O => _ | S k => _ end); cbn [obind]; try discriminate. destruct (_ || _); [intro E; injection E as <- <-; auto|].
  destruct (shift_index _ _ _); cbn [obind]; try discriminate. destruct (find_id _ _ _) as [[[k q]|]| |]; cbn [obind]; try discriminate. destruct (vupd _ _ _); cbn [obind]; try discriminate. intro E. injection E as <- <-. right. split; [auto|]. exists k, q. auto.
Qed.

(** *** one call: the heap version does what the value version does, and touches nothing else *)
Lemma step_ok hp h o d d' : distinct h -> view hp h = Ok d -> step d o = Ok d' -> (forall perm, o = ShuffleOp perm -> NoDup perm) ->
  exists hp' h', h_step hp h o = Ok (hp', h') /\ view hp' h' = Ok d' /\ frame hp h hp' h'.
Proof.
  intros ND V E NP. pose proof V as V0. apply view_ok in V0 as [R Em]. destruct o; cbn [h_step step] in *.
  - destruct (insertPoint d p keepIndex) as [[d1 b]| |] eqn:EI; cbn [obind fst] in E; try discriminate. injection E as ->. unfold h_insert. assert (vget (hp ++ [p]) (length hp) = Ok p) as G by (unfold vget; rewrite nth_error_app2, Nat.sub_diag by auto; reflexivity). rewrite G. cbn [obind].
    assert (view (hp ++ [p]) h = Ok d) as V1 by (apply view_ok; split; [now apply reads_app|auto]). rewrite V1. cbn [obind]. rewrite EI. cbn [obind snd fst].
    assert (NoDup (h_refs h ++ [length hp])) as ND1. { apply Permutation_NoDup with (l := length hp :: h_refs h); [apply Permutation_cons_append|]. constructor; [|auto]. intro I. eapply reads_lt in I; eauto. lia. }
    assert (reads (hp ++ [p]) (h_refs h ++ [length hp]) (d_points d ++ [p])) as R1. { apply Forall2_app; [now apply reads_app|]. constructor; [|constructor]. rewrite nth_error_app2, Nat.sub_diag by auto. reflexivity. }
    destruct (insert_points _ _ _ _ _ EI) as [[-> ->]|[-> P]].
    + do 2 eexists. split; [reflexivity|]. cbn [fst snd]. split; [auto|]. split; [rewrite app_length; lia| |auto|auto]. intros r q _ Hq. rewrite nth_error_app1; [auto|]. apply nth_error_Some. congruence.
    + destruct keepIndex.
      * do 2 eexists. split; [reflexivity|]. split; [apply view_strip; now rewrite P|]. split; [rewrite app_length; lia| | |exact ND1].
        -- intros r q _ Hq. rewrite nth_error_app1; [auto|]. apply nth_error_Some. congruence.
        -- cbn [h_refs]. intros r I. apply in_app_or in I as [I|[<-|[]]]; [now left|right; lia].
      * destruct (upd_reads _ _ _ _ _ _ R1 ND1 P) as (r & hp' & E1 & I1 & E2 & R2 & L2 & K). unfold h_write. cbn [h_refs]. rewrite E1. cbn [obind]. rewrite E2. cbn [obind fst].
        do 2 eexists. split; [reflexivity|]. split; [now apply view_strip|]. split; [rewrite L2, app_length; lia| | |exact ND1].
        -- intros j q N Hq. assert (j < length hp) by (apply nth_error_Some; congruence). rewrite K; [rewrite nth_error_app1; auto|]. intros ->. apply in_app_or in I1 as [I1|[<-|[]]]; [contradiction|lia].
        -- cbn [h_refs]. intros j I. apply in_app_or in I as [I|[<-|[]]]; [now left|right; lia].
  - destruct (removePoint d id) as [[d1 b]| |] eqn:EI; cbn [obind fst] in E; try discriminate. injection E as ->. rewrite V. cbn [obind]. rewrite EI. cbn [obind snd fst]. destruct (remove_points _ _ _ _ EI) as [[-> ->]|(-> & k & q & F & P)].
    + do 2 eexists. split; [reflexivity|]. split; [auto|]. split; auto.
    + rewrite F. cbn [obind]. do 2 eexists. split; [reflexivity|]. split; [apply view_strip; rewrite P; now apply remove_at_reads|]. split; cbn [h_refs]; [lia|auto|intros r I; left; eapply remove_at_sub; eauto|now apply remove_at_nodup].
  - destruct (removePoints d ids) as [[d1 b]| |] eqn:EI; cbn [obind fst] in E; try discriminate. injection E as ->. rewrite V. cbn [obind]. rewrite EI. cbn [obind snd fst]. do 2 eexists. split; [reflexivity|].
    assert (reads hp (rp_refs (isort Z.leb ids) (d_points d) (h_refs h) (d_size d)) (d_points d')) as P.
    { unfold removePoints in EI. cbv zeta in EI. destruct (rp_loop _ _ _ _) as [[pts s]| |] eqn:El; cbn [obind] in EI; try discriminate. injection EI as <- <-. cbn [fst d_points]. apply (rp_reads hp _ _ _ _ _ _ _ R) in El. exact El. }
    destruct (rp_refs_sub (isort Z.leb ids) (d_points d) (h_refs h) (d_size d)) as [A B]. split; [now apply view_strip|]. split; cbn [h_refs]; [lia|auto|intros r I; left; auto|now apply B].
  - rewrite V. cbn [obind]. rewrite E. cbn [obind]. apply shuffle_points in E. destruct (permute_reads _ _ _ _ _ R E) as (refs' & -> & R' & M). cbn [obind]. destruct (picked_nodup _ _ _ ND (NP perm eq_refl) M) as [N1 N2].
    do 2 eexists. split; [reflexivity|]. split; [now apply view_strip|]. split; cbn [h_refs]; [lia|auto|intros r I; left; auto|auto].
  - destruct (removeFeatures d feats) as [[d1 b]| |] eqn:EI; cbn [obind fst] in E; try discriminate. injection E as ->. rewrite V. cbn [obind]. rewrite EI. cbn [obind snd fst]. apply removeFeatures_points in EI.
    destruct (store_ok (h_refs h) hp (d_points d') ND) as (hp' & -> & R' & L' & K); [intros r I; eapply reads_lt; eauto|rewrite EI; eapply reads_len; eauto|]. cbn [obind]. do 2 eexists. split; [reflexivity|]. split; [now apply view_strip|]. split; auto; [lia|]. intros r p N Hp. now rewrite K.
  - destruct (updatePointValue d i v) as [[d1 b]| |] eqn:EI; cbn [obind fst] in E; try discriminate. injection E as ->. rewrite V. cbn [obind]. rewrite EI. cbn [obind snd fst]. destruct (updatePoint_points _ _ _ _ _ EI) as [[-> ->]|[-> P]].
    + do 2 eexists. split; [reflexivity|]. split; [auto|]. split; auto.
    + destruct (upd_reads _ _ _ _ _ _ R ND P) as (r & hp' & E1 & I1 & E2 & R2 & L2 & K). unfold h_write. rewrite E1. cbn [obind]. rewrite E2. cbn [obind]. do 2 eexists. split; [reflexivity|]. split; [now apply view_strip|]. split; auto; [lia|]. intros j q N Hq. rewrite K; [auto|]. intros ->. contradiction.
  - rewrite V. cbn [obind]. rewrite E. cbn [obind]. apply recount_points in E. do 2 eexists. split; [reflexivity|]. split; [apply view_strip; now rewrite E|]. split; auto.
  - injection E as <-. rewrite V. cbn [obind]. do 2 eexists. split; [reflexivity|]. split; [now apply view_strip|]. split; auto.
Qed.
(** two datasets without a common point *)
Definition apart h1 h2 : Prop := forall r, In r (h_refs h1) -> In r (h_refs h2) -> False.
Lemma view_frame hp hp' h d : view hp h = Ok d -> (forall r p, In r (h_refs h) -> nth_error hp r = Some p -> nth_error hp' r = Some p) -> view hp' h = Ok d.
Proof. intros V K. apply view_ok in V as [R E]. apply view_ok. split; [|auto]. eapply reads_frame; eauto. Qed.
Lemma step_other hp h hp' h' o do : frame hp h hp' h' -> apart h o -> view hp o = Ok do -> view hp' o = Ok do /\ apart h' o.
Proof.
  intros F A V. split.
  - eapply view_frame; [exact V|]. intros r p I E. apply (fr_keep _ _ _ _ F); [|auto]. intro J. eapply A; eauto.
  - intros r I J. destruct (fr_refs _ _ _ _ F r I) as [K|K]; [eapply A; eauto|]. apply view_ok in V as [R _]. eapply reads_lt in J; eauto. lia.
Qed.
End Heap.
