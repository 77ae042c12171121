(** Properties of the balanced perceptron. *)
From Coq Require Import ZArith Bool List Lia Reals Lra Psatz Permutation.
From Verif Require Import Base ListLib M_Data L_Data2 M_Point L_Point L_Vec M_Kernel S_Kernel L_Kernel M_Perc S_Perc T_Perc S_Ima M_Balanced.
Import ListNotations.
Local Open Scope R_scope.

Lemma sign_ok n w b p : length w = n -> length (p_x p) = n -> bp_sign w b p = Ok (if Rle_dec 0 (inner n w (p_x p) + b) then 1%Z else (-1)%Z).
Proof. intros Hw Hp. unfold bp_sign. rewrite pdot_ok by lia. cbn [obind]. rewrite Hw. reflexivity. Qed.
Lemma bp_add_length c : forall w x, length (bp_add c w x) = length w.
Proof. induction w as [|a w IH]; intros [|v x]; cbn; auto. Qed.
Lemma bp_add_nz c : forall w x j, length w = length x -> nz (bp_add c w x) j = nz w j + c * nz x j.
Proof.
  induction w as [|a w IH]; intros [|v x] j H; try discriminate.
  - cbn. unfold nz. destruct j; cbn; ring.
  - cbn [bp_add]. destruct j as [|j]; [reflexivity|]. unfold nz in *. cbn [nth]. apply IH. cbn in H. lia.
Qed.
Lemma bp_add_inner n c w x u : length w = length x -> inner n (bp_add c w x) u = inner n w u + c * inner n x u.
Proof. intro H. unfold inner. rewrite <- sumn_scal, <- sumn_add. apply sumn_ext. intros i Hi. rewrite bp_add_nz by auto. ring. Qed.
Lemma inner_sym n x y : inner n x y = inner n y x.
Proof. unfold inner. apply sumn_ext. intros. ring. Qed.

Section Train.
Variable rate : R.
Variable max_up : nat.
Variable n : nat.
Variable ps : list (point R).
Hypothesis HL : forall p, In p ps -> length (p_x p) = n.
(** The label the weights give without a bias. *)
Definition side (w : vec) (p : point R) : Z := if Rle_dec 0 (inner n w (p_x p)) then 1%Z else (-1)%Z.
Variable Q : vec -> nat -> Prop.
Hypothesis HQ : forall w k p, In p ps -> length w = n -> p_y p <> side w p -> Q w k -> Q (bp_add (rate * IZR (p_y p)) w (p_x p)) (S k).

Lemma bp_pass_spec : forall l s, incl l ps -> length (b_w s) = n -> b_b s = 0 -> (b_ite s <= max_up)%nat -> Q (b_w s) (b_ite s) ->
  exists s' stop, bp_pass rate max_up l s = Ok (s', stop) /\ length (b_w s') = n /\ b_b s' = 0 /\ Q (b_w s') (b_ite s') /\
    (b_ite s' + b_err s = b_ite s + b_err s')%nat /\ (b_ite s <= b_ite s')%nat /\ (b_ite s' <= S max_up)%nat /\ stop = Nat.ltb max_up (b_ite s') /\
    (b_err s' = b_err s -> s' = s /\ forall p, In p l -> p_y p = side (b_w s) p).
Proof using HL HQ.
  induction l as [|p r IH]; intros s HI Lw B0 Hi Qs.
  - exists s, false. split; [reflexivity|]. do 3 (split; [assumption|]). split; [lia|]. split; [lia|]. split; [lia|]. split; [symmetry; apply Nat.ltb_ge; lia|]. intros _. split; [reflexivity|]. intros p [].
  - cbn [bp_pass]. assert (In p ps) as Ip by (apply HI; left; reflexivity). rewrite (sign_ok n) by auto. cbn [obind]. rewrite B0, Rplus_0_r. fold (side (b_w s) p).
    destruct (Z.eqb_spec (p_y p) (side (b_w s) p)) as [E|E].
    + cbv zeta. assert (Nat.ltb max_up (b_ite s) = false) as -> by (apply Nat.ltb_ge; lia).
      destruct (IH s) as (s' & stop & Ep & A1 & A2 & A3 & A4 & A5 & A6 & A7 & A8); auto; [intros x Hx; apply HI; right; auto|]. exists s', stop. split; [exact Ep|]. do 7 (split; [assumption|]).
      intro Er. destruct (A8 Er) as (-> & C). split; [reflexivity|]. intros x [<-|Hx]; auto.
    + cbv zeta. cbn [b_ite]. set (s1 := mkB (bp_add (rate * IZR (p_y p)) (b_w s) (p_x p)) (0 + rate * 0) (S (b_ite s)) (S (b_err s))).
      assert (length (b_w s1) = n) as L1 by (cbn; rewrite bp_add_length; auto). assert (b_b s1 = 0) as B1 by (cbn; ring). assert (Q (b_w s1) (b_ite s1)) as Q1 by (apply HQ; auto).
      destruct (Nat.ltb_spec max_up (S (b_ite s))) as [LT|LT].
      * exists s1, true. split; [reflexivity|]. do 3 (split; [assumption|]). cbn [s1 b_ite b_err]. split; [lia|]. split; [lia|]. split; [lia|]. split; [symmetry; apply Nat.ltb_lt; lia|]. intro; lia.
      * destruct (IH s1) as (s' & stop & Ep & A1 & A2 & A3 & A4 & A5 & A6 & A7 & A8); auto; [intros x Hx; apply HI; right; auto|]. exists s', stop. split; [exact Ep|]. do 3 (split; [assumption|]). cbn [s1 b_ite b_err] in *. split; [lia|]. split; [lia|]. split; [lia|]. split; [exact A7|]. intro; lia.
Qed.

Lemma bp_loop_spec late : forall left epoch s, length (b_w s) = n -> b_b s = 0 -> (b_ite s <= max_up)%nat -> Q (b_w s) (b_ite s) ->
  exists s', bp_loop rate max_up late ps left epoch s = Ok s' /\ length (b_w s') = n /\ b_b s' = 0 /\ Q (b_w s') (b_ite s') /\ (b_ite s' <= S max_up)%nat /\
    (left = 0%nat -> s' = s) /\ ((0 < left)%nat -> b_err s' = 0%nat -> forall p, In p ps -> p_y p = side (b_w s') p) /\
    (forall K, (forall e, late e = false) -> (forall w k, Q w k -> (k <= K)%nat) -> (K <= max_up)%nat -> (K < b_ite s + left)%nat -> b_err s' = 0%nat).
Proof using HL HQ.
  induction left as [|l IH]; intros epoch s Lw B0 Hi Qs; cbn [bp_loop].
  - exists s. split; [reflexivity|]. do 3 (split; [assumption|]). split; [lia|]. split; [auto|]. split; [lia|]. intros K _ HK _ HB. specialize (HK _ _ Qs). lia.
  - destruct (bp_pass_spec ps (mkB (b_w s) (b_b s) (b_ite s) 0) (incl_refl _) Lw B0 Hi Qs) as (s1 & stop & -> & A1 & A2 & A3 & A4 & A5 & A6 & A7 & A8). cbn [obind b_ite b_err b_w] in *.
    destruct (stop || late (S epoch) || Nat.eqb (b_err s1) 0) eqn:ST.
    + exists s1. split; [reflexivity|]. do 4 (split; [assumption|]). split; [discriminate|]. split.
      * intros _ E0. destruct (A8 E0) as (-> & C). exact C.
      * intros K HLt HK HM HB. apply orb_true_iff in ST. destruct ST as [ST|ST]; [|apply Nat.eqb_eq; exact ST]. rewrite HLt, orb_false_r in ST. rewrite A7 in ST. apply Nat.ltb_lt in ST. specialize (HK _ _ A3). lia.
    + apply orb_false_iff in ST. destruct ST as [ST E0]. apply orb_false_iff in ST. destruct ST as [ST _]. rewrite A7 in ST. apply Nat.ltb_ge in ST. apply Nat.eqb_neq in E0.
      destruct (IH (S epoch) s1 A1 A2 ST A3) as (s' & -> & C1 & C2 & C3 & C4 & C0 & C5 & C6). exists s'. split; [reflexivity|]. do 4 (split; [assumption|]). split; [discriminate|]. split.
      * intros _ Ez. destruct l as [|l]; [|apply C5; auto; lia]. rewrite (C0 eq_refl) in Ez. contradiction.
      * intros K HLt HK HM HB. apply (C6 K); auto. lia.
Qed.

(** The smallest values of the two classes. *)
Lemma gammas_spec w b : length w = n -> forall l g, incl l ps -> exists g1 g2, bp_gammas w b l g = Ok (g1, g2) /\ g1 <= fst g /\ g2 <= snd g /\
  (forall p, In p l -> p_y p = 1%Z -> g1 <= inner n w (p_x p) + b) /\ (forall p, In p l -> p_y p = (-1)%Z -> g2 <= - (inner n w (p_x p) + b)) /\
  (g1 = fst g \/ exists p, In p l /\ p_y p = 1%Z /\ g1 = inner n w (p_x p) + b) /\ (g2 = snd g \/ exists p, In p l /\ p_y p = (-1)%Z /\ g2 = - (inner n w (p_x p) + b)).
Proof using HL.
  clear HQ. intro Lw. induction l as [|p r IH]; intros g HI.
  - exists (fst g), (snd g). split; [destruct g; reflexivity|]. split; [lra|]. split; [lra|]. split; [intros p []|]. split; [intros p []|]. auto.
  - cbn [bp_gammas]. assert (length (p_x p) = n) as Lp by (apply HL, HI; left; reflexivity). rewrite pdot_ok by lia. rewrite Lw. cbn [obind]. fold (inner n w (p_x p)). set (v := inner n w (p_x p) + b).
    match goal with |- context [bp_gammas w b r ?x] => set (g' := x) end.
    destruct (IH g') as (g1 & g2 & E & A1 & A2 & A3 & A4 & A5 & A6); [intros x Hx; apply HI; right; auto|]. exists g1, g2. split; [exact E|].
    assert (fst g' <= fst g /\ (p_y p = 1%Z -> fst g' <= v) /\ (fst g' = fst g \/ (p_y p = 1%Z /\ fst g' = v))) as (F1 & F2 & F3).
    { unfold g'. cbn [fst]. destruct (Z.eqb_spec (p_y p) 1) as [e|e]; [rewrite e; rewrite Rmult_1_l; destruct (Rlt_dec v (fst g)) as [L|L]; [|apply Rnot_lt_le in L]|].
      - split; [lra|]. split; [lra|auto]. - split; [lra|]. split; [lra|auto]. - split; [lra|]. split; [contradiction|auto]. }
    assert (snd g' <= snd g /\ (p_y p = (-1)%Z -> snd g' <= - v) /\ (snd g' = snd g \/ (p_y p = (-1)%Z /\ snd g' = - v))) as (G1 & G2 & G3).
    { unfold g'. cbn [snd]. destruct (Z.eqb_spec (p_y p) (-1)) as [e|e]; [rewrite e; replace (-1 * v) with (- v) by ring; destruct (Rlt_dec (- v) (snd g)) as [L|L]; [|apply Rnot_lt_le in L]|].
      - split; [lra|]. split; [lra|auto]. - split; [lra|]. split; [lra|auto]. - split; [lra|]. split; [contradiction|auto]. }
    split; [lra|]. split; [lra|]. split; [|split; [|split]].
    + intros q [<-|Hq] Y; [specialize (F2 Y); unfold v in F2; lra|auto].
    + intros q [<-|Hq] Y; [specialize (G2 Y); unfold v in G2; lra|auto].
    + destruct A5 as [A5|(q & Hq & A5)]; [|right; exists q; split; [right; auto|auto]]. destruct F3 as [F3|(Y & F3)]; [left; lra|right; exists p; split; [left; reflexivity|split; [exact Y|unfold v in F3; lra]]].
    + destruct A6 as [A6|(q & Hq & A6)]; [|right; exists q; split; [right; auto|auto]]. destruct G3 as [G3|(Y & G3)]; [left; lra|right; exists p; split; [left; reflexivity|split; [exact Y|unfold v in G3; lra]]].
Qed.
End Train.

Section Whole.
Variable d : data R.
Variable perm : list nat.
Hypothesis HR : rect d.
Hypothesis HI : (d_size d <= length (d_index d))%nat.
Hypothesis HP : Permutation perm (seq 0 (size d)).
Local Notation n := (dim d).

(** The whole training, with an invariant of the weights and the number of updates. *)
Lemma train_spec (Q : vec -> nat -> Prop) big rate max_epoch max_up late w0 : length w0 = n -> Q w0 0%nat ->
  (forall w k p, In p (d_points d) -> length w = n -> p_y p <> side n w p -> Q w k -> Q (bp_add (rate * IZR (p_y p)) w (p_x p)) (S k)) ->
  exists w b k ok g1 g2, bp_train big rate max_epoch max_up late w0 perm d = Ok (w, b, k, ok) /\ length w = n /\ (k <= S max_up)%nat /\ Q w k /\ b = bp_shift 0 (g1, g2) /\
    ((0 < max_epoch)%nat -> ok = true -> forall p, In p (d_points d) -> p_y p = side n w p) /\
    (forall K, (forall e, late e = false) -> (forall w k, Q w k -> (k <= K)%nat) -> (K <= max_up)%nat -> (K < max_epoch)%nat -> ok = true) /\
    g1 <= big /\ g2 <= big /\ (forall p, In p (d_points d) -> p_y p = 1%Z -> g1 <= inner n w (p_x p)) /\ (forall p, In p (d_points d) -> p_y p = (-1)%Z -> g2 <= - inner n w (p_x p)) /\
    (g1 = big \/ exists p, In p (d_points d) /\ p_y p = 1%Z /\ g1 = inner n w (p_x p)) /\ (g2 = big \/ exists p, In p (d_points d) /\ p_y p = (-1)%Z /\ g2 = - inner n w (p_x p)).
Proof using HR HI HP.
  intros Lw Q0 HQ. unfold bp_train. destruct (shuffle_spec d perm HI HP) as (d' & -> & P & _). cbn [obind].
  assert (forall p, In p (d_points d') <-> In p (d_points d)) as IP by (intro p; split; intro H; [eapply Permutation_in; [exact P|exact H]|eapply Permutation_in; [symmetry; exact P|exact H]]).
  destruct (bp_loop_spec rate max_up n (d_points d') ltac:(intros p Hp; apply HR, IP; auto) Q ltac:(intros w k p Hp; apply HQ, IP; auto) late max_epoch 0 (mkB w0 0 0 0) Lw eq_refl (Nat.le_0_l _) Q0) as (s & -> & A1 & A2 & A3 & A4 & _ & A5 & A6). cbn [obind].
  destruct (gammas_spec n (d_points d') ltac:(intros p Hp; apply HR, IP; auto) (b_w s) (b_b s) A1 (d_points d') (big, big) (incl_refl _)) as (g1 & g2 & -> & G1 & G2 & G3 & G4 & G5 & G6). cbn [obind fst snd] in *.
  rewrite A2 in *. eexists _, _, _, _, g1, g2. split; [reflexivity|]. split; [exact A1|]. split; [exact A4|]. split; [exact A3|]. split; [reflexivity|].
  split; [intros H1 H2 p Hp; apply A5; [exact H1|apply Nat.eqb_eq; exact H2|apply IP; exact Hp]|]. split; [intros K H1 H2 H3 H4; apply Nat.eqb_eq; apply (A6 K); auto|].
  split; [exact G1|]. split; [exact G2|].
  split; [intros p Hp Y; rewrite <- (Rplus_0_r (inner _ _ _)); apply G3; auto; apply IP; auto|]. split; [intros p Hp Y; rewrite <- (Rplus_0_r (inner _ _ _)); apply G4; auto; apply IP; auto|].
  split; [destruct G5 as [G5|(p & Hp & Y & G5)]; [left; auto|right; exists p; rewrite Rplus_0_r in G5; split; [apply IP; auto|auto]]|destruct G6 as [G6|(p & Hp & Y & G6)]; [left; auto|right; exists p; rewrite Rplus_0_r in G6; split; [apply IP; auto|auto]]].
Qed.
End Whole.

(** C95: training ends without an access outside an array and after at most one update more than allowed. *)
Lemma c95_total : forall (big rate : R) (max_epoch max_up : nat) (late : nat -> bool) (w0 : vec) (perm : list nat) (d : data R),
  rect d -> (d_size d <= length (d_index d))%nat -> Permutation perm (seq 0 (size d)) -> length w0 = dim d ->
  exists w b k ok, bp_train big rate max_epoch max_up late w0 perm d = Ok (w, b, k, ok) /\ length w = dim d /\ (k <= S max_up)%nat.
Proof.
  intros big rate me mu late w0 perm d HR HI HP Lw. destruct (train_spec d perm HR HI HP (fun _ _ => True) big rate me mu late w0 Lw I) as (w & b & k & ok & g1 & g2 & E & L & Hk & _); [auto|]. eauto 10.
Qed.

Lemma shift_cases b g1 g2 : 0 <= g1 -> 0 <= g2 -> bp_shift b (g1, g2) = b + (g2 - g1) / 2.
Proof.
  intros H1 H2. unfold bp_shift. cbn [fst snd]. rewrite !Rabs_right by lra. destruct (Rlt_dec g1 g2) as [L|L], (Rlt_dec g2 g1) as [L'|L']; try lra.
  - rewrite Rabs_right by lra. lra.
  - rewrite Rabs_right by lra. lra.
  - apply Rnot_lt_le in L, L'. rewrite Rabs_right by lra. lra.
Qed.

(** C95: if training answers true after at least one epoch, every training point is labelled 1 or -1 and evaluate returns its label. *)
Lemma c95_classifies : forall (big rate : R) (max_epoch max_up : nat) (late : nat -> bool) (w0 : vec) (perm : list nat) (d : data R) w b k,
  rect d -> (d_size d <= length (d_index d))%nat -> Permutation perm (seq 0 (size d)) -> length w0 = dim d -> 0 <= big -> (0 < max_epoch)%nat ->
  bp_train big rate max_epoch max_up late w0 perm d = Ok (w, b, k, true) ->
  forall p, In p (d_points d) -> (p_y p = 1%Z \/ p_y p = (-1)%Z) /\ bp_evaluate w b p = Ok (p_y p).
Proof.
  intros big rate me mu late w0 perm d w b k HR HI HP Lw HB HM E p Hp.
  destruct (train_spec d perm HR HI HP (fun _ _ => True) big rate me mu late w0 Lw I) as (w' & b' & k' & ok & g1 & g2 & E' & L & _ & _ & Hb & Ok1 & _ & B1 & B2 & M1 & M2 & X1 & X2); [auto|].
  rewrite E in E'. injection E' as <- <- <- <-. specialize (Ok1 HM eq_refl).
  assert (0 <= g1) as P1. { destruct X1 as [->|(q & Hq & Y & ->)]; [exact HB|]. specialize (Ok1 q Hq). unfold side in Ok1. destruct (Rle_dec _ _); [auto|congruence]. }
  assert (0 <= g2) as P2. { destruct X2 as [->|(q & Hq & Y & ->)]; [exact HB|]. specialize (Ok1 q Hq). unfold side in Ok1. destruct (Rle_dec _ _) as [L1|L1]; [congruence|]. apply Rnot_le_lt in L1. lra. }
  rewrite shift_cases, Rplus_0_l in Hb by auto. unfold bp_evaluate. rewrite (sign_ok (dim d)) by auto. pose proof (Ok1 p Hp) as S1. unfold side in S1.
  destruct (Rle_dec 0 (inner (dim d) w (p_x p))) as [L1|L1]; [|apply Rnot_le_lt in L1]; rewrite S1; (split; [auto|]); f_equal.
  - specialize (M1 p Hp S1). destruct (Rle_dec _ _) as [?|N]; [reflexivity|exfalso]. apply N. subst b. lra.
  - specialize (M2 p Hp S1). destruct (Rle_dec _ _) as [N|?]; [exfalso|reflexivity]. subst b. lra.
Qed.

(** C95: with both classes, and values below [big], the hyperplane returned is balanced: the closest points of the two classes have opposite values. *)
Lemma c95_balanced : forall (big rate : R) (max_epoch max_up : nat) (late : nat -> bool) (w0 : vec) (perm : list nat) (d : data R) w b k,
  rect d -> (d_size d <= length (d_index d))%nat -> Permutation perm (seq 0 (size d)) -> length w0 = dim d -> (0 < max_epoch)%nat ->
  bp_train big rate max_epoch max_up late w0 perm d = Ok (w, b, k, true) -> both_classes d -> (forall p, In p (d_points d) -> Rabs (inner (dim d) w (p_x p)) < big) ->
  exists p q, closest d w b p q /\ 0 < value d w b p /\ value d w b q = - value d w b p.
Proof.
  intros big rate me mu late w0 perm d w b k HR HI HP Lw HM E ((p0 & Hp0 & Y0) & (q0 & Hq0 & Z0)) HV.
  destruct (train_spec d perm HR HI HP (fun _ _ => True) big rate me mu late w0 Lw I) as (w' & b' & k' & ok & g1 & g2 & E' & L & _ & _ & Hb & Ok1 & _ & B1 & B2 & M1 & M2 & X1 & X2); [auto|].
  rewrite E in E'. injection E' as <- <- <- <-. specialize (Ok1 HM eq_refl).
  destruct X1 as [X1|(p & Hp & Y & X1)].
  { exfalso. specialize (M1 p0 Hp0 Y0). specialize (HV p0 Hp0). apply Rabs_def2 in HV. lra. }
  destruct X2 as [X2|(q & Hq & Z & X2)].
  { exfalso. specialize (M2 q0 Hq0 Z0). specialize (HV q0 Hq0). apply Rabs_def2 in HV. lra. }
  assert (0 <= g1) as P1. { rewrite X1. specialize (Ok1 p Hp). unfold side in Ok1. destruct (Rle_dec _ _); [auto|congruence]. }
  assert (0 < g2) as P2. { rewrite X2. specialize (Ok1 q Hq). unfold side in Ok1. destruct (Rle_dec _ _) as [L1|L1]; [congruence|]. apply Rnot_le_lt in L1. lra. }
  rewrite shift_cases, Rplus_0_l in Hb by lra. exists p, q. unfold closest, value. split; [|split; lra].
  split; [exact Hp|]. split; [exact Y|]. split; [intros r Hr Yr; specialize (M1 r Hr Yr); lra|]. split; [exact Hq|]. split; [exact Z|]. intros r Hr Yr. specialize (M2 r Hr Yr). lra.
Qed.

(** C95: the bias plays no part in training: an answer true means that a hyperplane through the origin separates the points. *)
Lemma c95_through_origin : forall (big rate : R) (max_epoch max_up : nat) (late : nat -> bool) (w0 : vec) (perm : list nat) (d : data R) w b k,
  rect d -> (d_size d <= length (d_index d))%nat -> Permutation perm (seq 0 (size d)) -> length w0 = dim d -> (0 < max_epoch)%nat ->
  bp_train big rate max_epoch max_up late w0 perm d = Ok (w, b, k, true) ->
  forall p, In p (d_points d) -> (p_y p = 1%Z /\ 0 <= inner (dim d) w (p_x p)) \/ (p_y p = (-1)%Z /\ inner (dim d) w (p_x p) < 0).
Proof.
  intros big rate me mu late w0 perm d w b k HR HI HP Lw HM E p Hp.
  destruct (train_spec d perm HR HI HP (fun _ _ => True) big rate me mu late w0 Lw I) as (w' & b' & k' & ok & g1 & g2 & E' & L & _ & _ & Hb & Ok1 & _); [auto|].
  rewrite E in E'. injection E' as <- <- <- <-. specialize (Ok1 HM eq_refl p Hp). unfold side in Ok1. destruct (Rle_dec _ _) as [L1|L1]; [left|right; apply Rnot_le_lt in L1]; auto.
Qed.

(** C95: if a hyperplane through the origin separates the points with a positive margin, training answers true whenever the limits are large enough. *)
Lemma c95_converges : forall (rate : R) (w0 : vec) (d : data R) (u : vec) (g : R),
  rect d -> (d_size d <= length (d_index d))%nat -> length w0 = dim d -> 0 < rate -> 0 < g -> binary d ->
  (forall p, In p (d_points d) -> g <= IZR (p_y p) * inner (dim d) u (p_x p)) ->
  exists K, forall (big : R) (max_epoch max_up : nat) (late : nat -> bool) (perm : list nat), Permutation perm (seq 0 (size d)) ->
    (K <= max_up)%nat -> (K < max_epoch)%nat -> (forall e, late e = false) ->
    exists w b k, bp_train big rate max_epoch max_up late w0 perm d = Ok (w, b, k, true) /\ (k <= K)%nat.
Proof.
  intros rate w0 d u g HR HI Lw Hr Hg HB Sep. set (n := dim d) in *.
  assert (exists r2, 0 <= r2 /\ forall p, In p (d_points d) -> inner n (p_x p) (p_x p) <= r2) as (r2 & R0 & R2).
  { clear. induction (d_points d) as [|p l (r2 & R0 & H)]; [exists 0; split; [lra|intros p []]|]. exists (Rmax r2 (inner n (p_x p) (p_x p))). split; [apply Rle_trans with r2; [exact R0|apply Rmax_l]|].
    intros q [<-|Hq]; [apply Rmax_r|apply Rle_trans with r2; [auto|apply Rmax_l]]. }
  set (Q := fun (w : vec) (k : nat) => inner n w0 u + INR k * (rate * g) <= inner n w u /\ inner n w w <= inner n w0 w0 + INR k * (rate * rate * r2)).
  assert (forall w, 0 <= inner n w w) as NN by (intro w; unfold inner; apply sumn_nonneg; intros; apply Rle_0_sqr).
  set (a := inner n w0 u). set (c := 4 * (inner n u u * (inner n w0 w0 + rate * rate * r2)) / (rate * g * (rate * g))). set (m1 := 2 * Rabs a / (rate * g)).
  assert (0 < rate * g) as PG by (apply Rmult_lt_0_compat; auto).
  assert (forall w k, Q w k -> INR k <= Rmax 1 (Rmax c m1)) as Bound.
  { intros w k (Q1 & Q2). destruct (Rle_dec (INR k) 1) as [L|L]; [apply Rle_trans with 1; [exact L|apply Rmax_l]|]. apply Rnot_le_lt in L.
    destruct (Rle_dec (INR k) m1) as [L1|L1]; [apply Rle_trans with m1; [exact L1|eapply Rle_trans; [apply Rmax_r|apply Rmax_r]]|]. apply Rnot_le_lt in L1.
    assert (INR k <= c); [|eapply Rle_trans; [exact H|]; eapply Rle_trans; [apply Rmax_l|apply Rmax_r]].
    assert (2 * Rabs a <= INR k * (rate * g)) as A1. { unfold m1 in L1. apply Rmult_lt_compat_r with (r := rate * g) in L1; [|exact PG]. unfold Rdiv in L1. rewrite Rmult_assoc, Rinv_l, Rmult_1_r in L1 by lra. lra. }
    assert (- Rabs a <= a) as A2 by (pose proof (Rle_abs (- a)); rewrite Rabs_Ropp in *; lra).
    fold a in Q1. set (t := INR k * (rate * g)) in *. assert (0 < t) as T0 by (apply Rmult_lt_0_compat; lra).
    assert (t / 2 <= inner n w u) as A3 by lra.
    pose proof (cauchy n (nz w) (nz u)) as CS. fold (inner n w u) (inner n w w) (inner n u u) in CS.
    assert (t / 2 * (t / 2) <= inner n w u * inner n w u) as A4 by (apply Rmult_le_compat; lra).
    assert (inner n w w <= INR k * (inner n w0 w0 + rate * rate * r2)) as A5.
    { eapply Rle_trans; [exact Q2|]. rewrite Rmult_plus_distr_l. assert (1 * inner n w0 w0 <= INR k * inner n w0 w0) by (apply Rmult_le_compat_r; [apply NN|lra]). lra. }
    assert (inner n w w * inner n u u <= INR k * (inner n w0 w0 + rate * rate * r2) * inner n u u) as A6 by (apply Rmult_le_compat_r; [apply NN|exact A5]).
    set (B := inner n u u * (inner n w0 w0 + rate * rate * r2)) in *.
    assert (t * t <= 4 * (INR k * B)) as A7. { unfold B. nra. }
    unfold c. apply Rmult_le_reg_r with (rate * g * (rate * g)); [apply Rmult_lt_0_compat; exact PG|]. replace (4 * B / (rate * g * (rate * g)) * (rate * g * (rate * g))) with (4 * B) by (field; lra).
    apply Rmult_le_reg_l with (INR k); [lra|]. unfold t in A7. lra. }
  destruct (archimed (Rmax 1 (Rmax c m1))) as [AR _]. set (K := Z.to_nat (up (Rmax 1 (Rmax c m1)))).
  assert (Rmax 1 (Rmax c m1) < INR K) as HK.
  { unfold K. rewrite INR_IZR_INZ, Z2Nat.id; [exact AR|]. apply le_IZR. apply Rlt_le, Rlt_trans with (Rmax 1 (Rmax c m1)); [|exact AR]. apply Rlt_le_trans with 1; [lra|apply Rmax_l]. }
  exists K. intros big me mu late perm HP HU HM HL.
  destruct (train_spec d perm HR HI HP Q big rate me mu late w0 Lw) as (w & b & k & ok & g1 & g2 & E & L & _ & Qw & _ & _ & Cv & _).
  - unfold Q. cbn [INR]. lra.
  - intros w k p Hp Lw' Ny (Q1 & Q2). assert (length w = length (p_x p)) as LL by (rewrite (HR p Hp); exact Lw'). unfold Q. fold n. rewrite S_INR. split.
    + rewrite bp_add_inner by exact LL. specialize (Sep p Hp). rewrite (inner_sym n (p_x p) u). assert (rate * g <= rate * (IZR (p_y p) * inner n u (p_x p))) by (apply Rmult_le_compat_l; lra). lra.
    + rewrite bp_add_inner by exact LL. rewrite (inner_sym n w (bp_add _ _ _)), (inner_sym n (p_x p) (bp_add _ _ _)), !bp_add_inner by exact LL. rewrite (inner_sym n (p_x p) w).
      assert (IZR (p_y p) * inner n w (p_x p) <= 0) as W. { fold n in Ny. unfold side in Ny. destruct (HB p Hp) as [Y|Y]; rewrite Y in *; destruct (Rle_dec _ _) as [S1|S1]; try contradiction; [apply Rnot_le_lt in S1|]; lra. }
      assert (IZR (p_y p) * IZR (p_y p) = 1) as Y2 by (destruct (HB p Hp) as [Y|Y]; rewrite Y; lra).
      specialize (R2 p Hp). set (x2 := inner n (p_x p) (p_x p)) in *. set (wx := inner n w (p_x p)) in *. set (y := IZR (p_y p)) in *.
      replace (inner n w w + rate * y * wx + rate * y * (wx + rate * y * x2)) with (inner n w w + 2 * rate * (y * wx) + rate * rate * (y * y) * x2) by ring. rewrite Y2.
      assert (rate * rate * x2 <= rate * rate * r2) by (apply Rmult_le_compat_l; [apply Rlt_le, Rmult_lt_0_compat; auto|exact R2]). assert (2 * rate * (y * wx) <= 0) by nra. lra.
  - assert (forall w k, Q w k -> (k <= K)%nat) as BK. { intros w' k' Q'. apply INR_le. apply Rlt_le. eapply Rle_lt_trans; [apply (Bound _ _ Q')|exact HK]. }
    rewrite (Cv K HL BK HU HM) in E. exists w, b, k. split; [exact E|]. apply (BK w k Qw).
Qed.

(** C95: the points 1 of label 1 and 2 of label -1 are separated by -x + 3/2, and training never answers true on them. *)
Definition bx : data R := mkData [mkPoint [1] 1%Z 1%Z 0; mkPoint [2] (-1)%Z 2%Z 0] [1]%Z [0; 1]%Z [] [1; -1]%Z [1; 1]%Z 2 1 false false false true.
Lemma bx_rect : rect bx.
Proof. intros p [<-|[<-|[]]]; reflexivity. Qed.
Lemma c95_no_bias_refuted : (forall p, In p (d_points bx) -> 0 < yf bx [-1] (3/2) p) /\
  forall (big rate : R) (max_epoch max_up : nat) (late : nat -> bool) (w0 : vec) (perm : list nat), Permutation perm [0; 1]%nat -> length w0 = 1%nat -> (0 < max_epoch)%nat ->
  exists w b k, bp_train big rate max_epoch max_up late w0 perm bx = Ok (w, b, k, false).
Proof.
  split; [intros p [<-|[<-|[]]]; unfold yf, inner; cbn; lra|]. intros big rate me mu late w0 perm HP Lw HM.
  destruct (c95_total big rate me mu late w0 perm bx bx_rect (le_n 2) HP Lw) as (w & b & k & ok & E & _). destruct ok; [exfalso|eauto].
  pose proof (c95_through_origin big rate me mu late w0 perm bx w b k bx_rect (le_n 2) HP Lw HM E) as H.
  destruct (H (mkPoint [1] 1%Z 1%Z 0)) as [(_ & H1)|(H1 & _)]; [left; reflexivity| |discriminate].
  destruct (H (mkPoint [2] (-1)%Z 2%Z 0)) as [(H2 & _)|(_ & H2)]; [right; left; reflexivity|discriminate|]. unfold inner in H1, H2. cbn in H1, H2. lra.
Qed.
(** C95: with a maximum of 0 epochs training answers true for every dataset, whatever the labels. *)
Lemma c95_zero_epochs_refuted : forall (big rate : R) (max_up : nat) (late : nat -> bool) (w0 : vec) (perm : list nat) (d : data R),
  rect d -> (d_size d <= length (d_index d))%nat -> Permutation perm (seq 0 (size d)) -> length w0 = dim d ->
  exists b, bp_train big rate 0 max_up late w0 perm d = Ok (w0, b, 0%nat, true).
Proof.
  intros big rate mu late w0 perm d HR HI HP Lw. unfold bp_train. destruct (shuffle_spec d perm HI HP) as (d' & -> & P & _). cbn [obind bp_loop b_w b_b b_ite b_err].
  destruct (gammas_spec (dim d) (d_points d') ltac:(intros p Hp; apply HR; eapply Permutation_in; eauto) w0 0 Lw (d_points d') (big, big) (incl_refl _)) as (g1 & g2 & -> & _). cbn [obind]. eexists. reflexivity.
Qed.

(** The points 1 of label 1 and -2 of label -1. *)
Definition by1 : data R := mkData [mkPoint [1] 1%Z 1%Z 0; mkPoint [-2] (-1)%Z 2%Z 0] [1]%Z [0; 1]%Z [] [1; -1]%Z [1; 1]%Z 2 1 false false false true.
Lemma by1_ok : rect by1 /\ (d_size by1 <= length (d_index by1))%nat /\ Permutation [0; 1]%nat (seq 0 (size by1)) /\ length [1] = dim by1.
Proof. split; [intros p [<-|[<-|[]]]; reflexivity|]. split; [cbn; lia|]. split; [apply Permutation_refl|reflexivity]. Qed.
Lemma by1_run : exists w b, bp_train 100 1 5 5 (fun _ => false) [1] [0; 1]%nat by1 = Ok (w, b, 0%nat, true) /\ w = [1].
Proof.
  unfold bp_train. cbn [shuffle permute fold_right vget nth_error by1 d_points obind reset_prefix d_size d_index fold_left seq vupd upd].
  assert (forall c, bp_sign [1] 0 (mkPoint [1] 1%Z 1%Z c) = Ok 1%Z) as S1 by (intro c; rewrite (sign_ok 1) by reflexivity; destruct (Rle_dec _ _) as [?|N]; [reflexivity|exfalso; apply N; unfold inner; cbn; lra]).
  assert (forall c, bp_sign [1] 0 (mkPoint [-2] (-1)%Z 2%Z c) = Ok (-1)%Z) as S2 by (intro c; rewrite (sign_ok 1) by reflexivity; destruct (Rle_dec _ _) as [N|?]; [exfalso; unfold inner in N; cbn in N; lra|reflexivity]).
  cbn [bp_loop bp_pass b_w b_b b_ite b_err]. rewrite S1. cbn [obind p_y Z.eqb Pos.eqb b_w b_b b_ite b_err Nat.ltb Nat.leb]. rewrite S2. cbn [obind p_y Z.eqb Pos.eqb b_w b_b b_ite b_err Nat.ltb Nat.leb orb Nat.eqb].
  destruct (gammas_spec 1 (d_points by1) ltac:(intros p [<-|[<-|[]]]; reflexivity) [1] 0 eq_refl (d_points by1) (100, 100) (incl_refl _)) as (g1 & g2 & E & _). cbn [by1 d_points] in E. rewrite E. cbn [obind]. eexists _, _. split; reflexivity.
Qed.
Lemma c95_total_ex : rect by1 /\ (d_size by1 <= length (d_index by1))%nat /\ Permutation [0; 1]%nat (seq 0 (size by1)) /\ length [1] = dim by1.
Proof. exact by1_ok. Qed.
Lemma c95_classifies_ex : exists w b, bp_train 100 1 5 5 (fun _ => false) [1] [0; 1]%nat by1 = Ok (w, b, 0%nat, true) /\ rect by1 /\ (d_size by1 <= length (d_index by1))%nat /\ Permutation [0; 1]%nat (seq 0 (size by1)) /\ length [1] = dim by1.
Proof. destruct by1_run as (w & b & E & _). exists w, b. split; [exact E|exact by1_ok]. Qed.
Lemma c95_balanced_ex : exists w b, bp_train 100 1 5 5 (fun _ => false) [1] [0; 1]%nat by1 = Ok (w, b, 0%nat, true) /\ both_classes by1 /\ (forall p, In p (d_points by1) -> Rabs (inner (dim by1) w (p_x p)) < 100).
Proof.
  destruct by1_run as (w & b & E & ->). eexists _, b. split; [exact E|]. split.
  - split; eexists; (split; [|]); [left; reflexivity|reflexivity|right; left; reflexivity|reflexivity].
  - intros p [<-|[<-|[]]]; unfold inner; cbn; split_Rabs; lra.
Qed.
Lemma c95_through_origin_ex : exists w b, bp_train 100 1 5 5 (fun _ => false) [1] [0; 1]%nat by1 = Ok (w, b, 0%nat, true) /\ rect by1.
Proof. destruct by1_run as (w & b & E & _). exists w, b. split; [exact E|apply by1_ok]. Qed.
Lemma c95_converges_ex : rect by1 /\ binary by1 /\ forall p, In p (d_points by1) -> 1 <= IZR (p_y p) * inner (dim by1) [1] (p_x p).
Proof. split; [apply by1_ok|]. split; intros p [<-|[<-|[]]]; auto; unfold inner; cbn; lra. Qed.
Lemma c95_zero_epochs_refuted_ex : rect bx /\ (d_size bx <= length (d_index bx))%nat /\ Permutation [1; 0]%nat (seq 0 (size bx)) /\ length [0] = dim bx.
Proof. split; [exact bx_rect|]. split; [cbn; lia|]. split; [apply perm_swap|reflexivity]. Qed.
