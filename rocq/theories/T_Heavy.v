(** C116: the admissible ordered search with one child. *)
From Coq Require Import ZArith Bool List Reals Permutation Sorted Lia Lra.
From Verif Require Import Base ListLib Loop M_Data S_Data L_Data L_Data2 L_Feat L_Join M_Point L_Vec M_Kmeans S_Fs T_Fs M_Pq S_Pq L_Pq T_Pq T_Prune T_Vis M_Aos S_Aos L_Aos L_Aos2 L_Aos3 L_Aos4 T_Aos L_Smo T_Ima.
Import ListNotations.
Local Open Scope nat_scope.

Lemma restricted_one d e e' f f' x : data_ok d -> restricted (without f') d e' -> restricted (without f) d e -> Permutation f (x :: f') -> restricted (without [x]) e' e.
Proof.
  intros O (F' & P' & C1 & C2 & C3) (F & P & D1 & D2 & D3) Pm.
  assert (Q : forall n, without f n = without f' n && without [x] n).
  { intro n. unfold without. cbn [existsb]. rewrite orb_false_r, <- negb_orb. f_equal. apply eq_true_iff_eq. rewrite orb_true_iff, !existsb_exists, Z.eqb_eq. split.
    - intros (y & I & E). apply Z.eqb_eq in E as <-. apply (Permutation_in _ Pm) in I as [-> | I]; [auto | left; exists n; split; [auto | apply Z.eqb_refl]].
    - intros [(y & I & E) | ->]; [exists y; split; [apply (Permutation_in _ (Permutation_sym Pm)); right; auto | auto] | exists x; split; [apply (Permutation_in _ (Permutation_sym Pm)); left; auto | apply Z.eqb_refl]]. }
  split; [rewrite F, F', filter_and; apply filter_ext; auto|]. split; [|split; [congruence | split; congruence]].
  rewrite P, P', map_map. apply map_ext_in. intros p Ip. cbn [p_x p_y p_id p_alpha]. f_equal. rewrite F', keep_twice; [apply keep_features_ext; auto|]. rewrite (ok_fnames _ O). symmetry. apply (ok_dim _ O). auto.
Qed.
Lemma turns_one L dn : L <= dn -> S dn - S L = dn - L.
Proof. lia. Qed.

Lemma one_left dn gs ps st f : ps <> [] -> f <= dn -> mu dn 1 st gs ps <= turns 1 (dn - f) ->
  (forall p, In p ps -> rg st p = Some (-1)%R /\ length (nth p gs []) = S f) -> exists p, ps = [p].
Proof.
  intros Ne Lf M H. destruct ps as [|p [|p' l]]; [congruence | eauto|]. exfalso. assert (C : forall x, In x (p :: p' :: l) -> cost dn 1 st gs x = turns 1 (dn - f)).
  { intros x X. destruct (H x X) as (A & B). unfold cost. rewrite A, B. replace (S dn - S f) with (dn - f) by lia. destruct (Rlt_dec 0 (-1)); [exfalso; lra|]. destruct (dn - f); cbn [turns]; lia. }
  unfold mu in M. cbn [map] in M. rewrite (C p), (C p') in M by (cbn; auto). unfold list_sum in M. cbn [fold_right] in M. pose proof (turns_pos 1 (dn - f)). lia.
Qed.

(** [x] is a feature of greatest key. *)
Definition heavy (key : data R -> Z * R -> R) (w : list R) (e : data R) (x : Z) : Prop :=
  exists i, i < length (d_fnames e) /\ x = nth i (d_fnames e) 0%Z /\ forall j, j < length (d_fnames e) -> (key e (nth j (d_fnames e) 0%Z, nth j w 0) <= key e (nth i (d_fnames e) 0%Z, nth i w 0))%R.
Lemma first_heavy d key srt (So : ranked d key srt) (Hs : forall e l, Permutation (srt e l) l) keep w e x : restricted keep d e -> dim e = length (d_fnames e) -> nth_error (srt e (map (fun i => (nth i (d_fnames e) 0%Z, nth i w 0%R)) (seq 0 (dim e)))) 0 = Some x -> heavy key w e (fst x).
Proof.
  intros Re De E. rewrite De in E. fold (weighed e w) in E. pose proof (Hs e (weighed e w)) as P. pose proof (So keep e w Re) as S1. destruct (srt e (weighed e w)) as [|y l] eqn:Es; [discriminate|]. cbn in E. injection E as ->.
  assert (Ix : In x (weighed e w)) by (apply (Permutation_in _ P); left; auto). unfold weighed in Ix. apply in_map_iff in Ix as (i & <- & I). apply in_seq in I. exists i. split; [lia|]. split; [auto|]. intros j J.
  assert (Ij : In (nth j (d_fnames e) 0%Z, nth j w 0%R) (weighed e w)) by (unfold weighed; apply in_map_iff; exists j; split; [auto | apply in_seq; lia]).
  apply (Permutation_in _ (Permutation_sym P)) in Ij as [Q | Ij]; [rewrite Q; lra|]. inversion S1 as [|? ? _ Fa]; subst. rewrite Forall_forall in Fa. apply (Fa _ Ij).
Qed.

Section Heavy.
Context (d : data R) (tr : nat -> data R -> bool * (list R * R)) (srt : data R -> list (Z * R) -> list (Z * R)).
Context (key : data R -> Z * R -> R) (len width cap dn cut : nat) (c : aos_cfg).
Notation N := (d_fnames d).
Notation fine := (fine d tr len width cap dn cut 1).
Hypothesis Ca : a_cap c = cap.
Hypothesis Cc : a_cut c = cut.
Hypothesis Cb : a_breadth c = 1.
Hypothesis Cd : Z.to_nat (a_depth c) = dn.
Hypothesis Gm : (a_gm c <= 0)%R.
Hypothesis Hl : 1 <= len.
Hypothesis Hc : 1 <= cap.
Hypothesis Ap : apart len N (S dn).
Hypothesis Ro : roomy len width N (S dn).
Hypothesis So : ranked d key srt.
Hypothesis Hs : forall e l, Permutation (srt e l) l.
Hypothesis Od : data_ok d.
Hypothesis Nd : d_points d <> [].
Hypothesis Nl : 2 <= length N.
Hypothesis Dn : dn < length N.
Hypothesis Ab : able d tr.
Hypothesis Al : willing d tr.

(** One node, not yet trained. *)
Definition stage (s : aos) (e : data R) : Prop :=
  exists gs p x f, fine s gs [p] /\ rg (s_st s) p = Some (-1)%R /\ s_n s = S (s_lool s) /\ s_part s = e /\ heaviest key tr d (s_lool s) e /\ dim e = length (d_fnames e) /\
    restricted (without f) d e /\ length f = s_lool s /\ heavy key (fst (snd (tr (s_lool s) e))) e x /\ Permutation (nth p gs []) (x :: f).

(** What is common to all turns: the node taken and its sample. *)
Lemma stage_turn s e : stage s e -> exists gs p n x f e1 h', fine s gs [p] /\ nth_error (s_st s) p = Some (Some n) /\ n_rgamma n = (-1)%R /\ n_fnames n = nth p gs [] /\ n_level n = S (s_lool s) /\
  desc (nth p gs []) /\ incl (nth p gs []) N /\ length (nth p gs []) = S (s_lool s) /\ heavy key (fst (snd (tr (s_lool s) e))) e x /\ Permutation (nth p gs []) (x :: f) /\
  removeFeatures (copy d) (nth p gs []) = Ok (e1, true) /\ restricted (without (nth p gs [])) d e1 /\ copy e1 = e1 /\ dim e1 = length (d_fnames e1) /\ length (d_fnames e1) + S (s_lool s) = length N /\ heaviest key tr d (S (s_lool s)) e1 /\
  pq_pop (s_st s) (s_q s) = Ok (Some p, h') /\ pqstr cap h' /\ holds h' [] /\ g (pq_el h') 1 = Some p /\ s_n s = S (s_lool s) /\ s_part s = e /\
  front_ok d tr len width cap dn cut (s_lool s) gs [] (s_st s) (s_tab s) h' (s_ws s) /\
  forall fuel, aos_loop (S fuel) c srt tr d s = let* r := aos_main c srt tr e1 s in match r with None => Ok Undefined | Some s' => aos_loop fuel c srt tr d s' end.
Proof.
  intros (gs & p & x & f & Fi & Rg & Sn & Pt & He & De & Re & Lf & Hx & Pm). pose proof Fi as [F _ _ _]. pose proof F as [Gl Wl Nd0 Gs Le Wd Rw Ks Hh ND Ps Tr]. pose proof (front_live _ _ _ _ _ _ _ _ _ _ _ _ _ _ F) as Lv.
  destruct Hh as (Hh1 & Hh2) eqn:Eh. cbn [length] in Hh2. destruct (pop_safe cap (s_st s) (s_q s) [p] Ks (conj Hh1 Hh2) ND Lv ltac:(lia)) as (p' & h' & ps' & Pop & Sl & Ks' & Hh' & Pp & One & Sz').
  pose proof (Permutation_length_1_inv Pp) as Q. injection Q as -> ->. specialize (One eq_refl). destruct (deref_live _ _ (Lv p ltac:(left; auto))) as (n & En & Dr). destruct (Nd0 p n En) as (Fn & Tn & Vn & Rn).
  assert (Rgn : n_rgamma n = (-1)%R) by (unfold rg in Rg; rewrite En in Rg; congruence). assert (Lg : length (nth p gs []) = S (s_lool s)) by (apply Permutation_length in Pm; cbn [length] in Pm; lia).
  assert (Ig : In (nth p gs []) gs) by (apply nth_In; rewrite Gl; apply live_lt; apply Lv; left; auto). destruct (Gs _ Ig) as (Dg & Inc & _).
  destruct (sub_ok d Od Nd (nth p gs [])) as (e1 & R1 & C1 & O1 & Rs & D1 & L1); [intros E0; rewrite E0 in Lg; discriminate | apply desc_NoDup; auto | auto | lia |].
  exists gs, p, n, x, f, e1, h'. split; [auto|]. split; [auto|]. split; [auto|]. split; [auto|]. split; [unfold tidy in Tn; congruence|]. split; [auto|]. split; [auto|]. split; [auto|]. split; [auto|]. split; [auto|]. split; [auto|]. split; [auto|]. split; [auto|]. split; [auto|]. split; [lia|].
  split. { destruct Hx as (i & I1 & -> & I3). apply (heaviest_S key tr d _ e i); auto. apply (restricted_one d e1 e (nth p gs []) f); auto. }
  split; [auto|]. split; [auto|]. split; [auto|]. split; [auto|]. split; [auto|]. split; [auto|]. split; [apply (front_perm d tr len width cap dn cut _ _ [p] _ _ (s_q s)); auto; [constructor | intros y []]|].
  intro fuel. cbn [aos_loop]. destruct (Nat.eqb_spec (pq_size (s_q s)) 0); [lia|]. rewrite Sl. cbn [obind]. rewrite Dr. cbn [obind]. rewrite Fn, R1. cbn [obind fst]. rewrite C1, Rgn. destruct (Rlt_dec 0 (-1)); [exfalso; lra|]. rewrite andb_false_r. auto.
Qed.
Lemma expand_stage lool gs st tab q nw f e w margin part n : front_ok d tr len width cap dn cut lool gs [] st tab q nw -> recorded d tr lool part ->
  desc f -> incl f N -> length f = S lool -> S lool <= dn -> restricted (without f) d e -> copy e = e -> dim e = length (d_fnames e) -> length (d_fnames e) + S lool = length N ->
  w = fst (snd (tr (S lool) e)) -> n = S (S lool) -> heaviest key tr d (S lool) e ->
  exists s', aos_expand c srt e (S lool) f w margin (mkAos st tab q nw lool part n) = Ok (Some s') /\ stage s' e /\ s_lool s' = S lool.
Proof.
  intros F Rc Df If Lf Ld Rs Ce De Le Ew En He.
  assert (Ne : d_fnames e <> []) by (intro E0; rewrite E0 in Le; cbn in Le; lia). destruct (Ab (S lool) _ e Rs Ne) as (W1 & W2 & _). rewrite <- Ew in W1, W2.
  destruct (expand_ok d tr srt len width cap dn cut 1 c Ca Cc Cb Gm Hl Hc Ap Ro Hs lool gs [] st tab q nw (S lool) f e w margin part n) as (_ & Xk); auto; try lia. { right. exists 0. apply (Al 0 _ e Rs). }
  destruct (Xk ltac:(lia)) as (gs' & ps' & s' & X1 & X2 & X3 & X4 & (X5 & X6) & X7 & _ & X9 & X10). assert (Ll : s_lool s' = S lool) by lia. exists s'. split; [auto|]. split; [|auto].
  specialize (X9 ltac:(lia) ltac:(left; lia)). specialize (X5 ltac:(left; lia)).
  assert (New : forall p, In p ps' -> rg (s_st s') p = Some (-1)%R /\ exists x : Z * R, heavy key w e (fst x) /\ Permutation (nth p gs' []) (fst x :: f)).
  { intros p I. destruct (X10 p I) as [I0 | (A & i & x & B & C & D)]; [destruct I0|]. split; [auto|]. exists x. split; [|auto]. assert (i = 0) as -> by lia. apply (first_heavy d key srt So Hs (without f)); auto. }
  assert (Len : forall p, In p ps' -> rg (s_st s') p = Some (-1)%R /\ length (nth p gs' []) = S (S lool)). { intros p I. destruct (New p I) as (A & x & Hv & P). split; [auto|]. apply Permutation_length in P. cbn [length] in P. lia. }
  cbn [mu map list_sum fold_right] in X7. change (mu dn 1 st gs []) with 0 in X7. rewrite Nat.mul_1_l in X7. cbn [plus] in X7.
  destruct (one_left dn gs' ps' (s_st s') (S lool) X9 Ld X7 Len) as (p & ->). destruct (New p ltac:(left; auto)) as (A & x & B & C).
  exists gs', p, (fst x), f. split; [constructor; auto; lia|]. split; [auto|]. rewrite Ll. split; [lia|]. split; [auto|]. split; [auto|]. split; [auto|]. split; [auto|]. split; [auto|]. split; [rewrite <- Ew; auto | auto].
Qed.
Lemma stage_step s e : stage s e -> S (s_lool s) < dn -> exists s' e', stage s' e' /\ s_lool s' = S (s_lool s) /\ forall fuel, aos_loop (S fuel) c srt tr d s = aos_loop fuel c srt tr d s'.
Proof.
  intros St Lt. destruct (stage_turn s e St) as (gs & p & n & x & f & e1 & h' & Fi & En & Rn & Fn & Vn & Dg & Ig & Lg & Hx & Pm & Rm1 & Rs & C1 & D1 & L1 & He & Pop & Ks & Hh & Gp & Sn & Pt & F0 & Lp).
  pose proof Fi as [F Rc _ _]. assert (Nz : pq_size (s_q s) <> 0) by (destruct (f_holds _ _ _ _ _ _ _ _ _ _ _ _ _ _ F) as (_ & H); cbn [length] in H; lia).
  assert (Dr : deref (s_st s) p = Ok n) by (unfold deref; rewrite En; auto).
  assert (Ne : d_fnames e1 <> []) by (intro E0; rewrite E0 in L1; cbn in L1; lia). destruct (Ab (S (s_lool s)) _ e1 Rs Ne) as (W1 & W2 & W3). pose proof (Al (S (s_lool s)) _ e1 Rs) as Ok1. specialize (W3 Ok1).
  destruct (tr (S (s_lool s)) e1) as (ok & w & margin) eqn:Et. cbn [fst snd] in *. subst ok.
  destruct (front_assign d tr len width cap dn cut (s_lool s) gs [] (s_st s) (s_tab s) h' (s_ws s) p n margin F0 ltac:(intros []) En W3) as (st' & As & F2 & Ep & _).
  destruct (expand_stage (s_lool s) gs st' (s_tab s) h' (s_ws s) (nth p gs []) e1 w margin (s_part s) (S (S (s_lool s)))) as (s' & X1 & X2 & X3); auto; try lia. { rewrite Et. auto. }
  exists s', e1. split; [auto|]. split; [auto|]. intro fuel. rewrite Lp. unfold aos_main. destruct (Nat.eqb_spec (pq_size (s_q s)) 0); [contradiction|]. rewrite Pop. cbn [obind fst snd]. rewrite Dr. cbn [obind]. rewrite Vn.
  destruct (Z.ltb_spec (a_depth c) (Z.of_nat (S (s_lool s)))); [lia|]. rewrite Rn. destruct (Rlt_dec 0 (-1)); [exfalso; lra|]. rewrite Sn, Et. cbn [negb]. rewrite Vn in As. rewrite As. cbn [obind].
  pose proof Ks as (K1 & K2 & _). assert (Av : alive st' (g (pq_el h') 1)) by (rewrite Gp; exists p; split; [auto | eexists; eauto]). rewrite (value_at_g st' (pq_el h') 1 ltac:(lia) Av), Gp. cbn [obind]. unfold vv. rewrite Ep. cbn [n_value]. destruct (Rlt_dec margin margin); [exfalso; lra|]. cbn [orb].
  destruct (Z.eqb_spec (Z.of_nat (S (s_lool s))) (a_depth c)); [lia|]. rewrite Fn, X1. auto.
Qed.
Lemma stage_last s e : stage s e -> S (s_lool s) = dn -> exists s' e', stage s' e' /\ s_lool s' = dn /\ forall fuel, aos_loop (S (S fuel)) c srt tr d s = aos_loop fuel c srt tr d s'.
Proof.
  intros St Lt. destruct (stage_turn s e St) as (gs & p & n & x & f & e1 & h' & Fi & En & Rn & Fn & Vn & Dg & Ig & Lg & Hx & Pm & Rm1 & Rs & C1 & D1 & L1 & He & Pop & Ks & Hh & Gp & Sn & Pt & F0 & Lp).
  pose proof Fi as [F Rc _ _]. assert (Nz : pq_size (s_q s) <> 0) by (destruct (f_holds _ _ _ _ _ _ _ _ _ _ _ _ _ _ F) as (_ & H); cbn [length] in H; lia).
  assert (Dr : deref (s_st s) p = Ok n) by (unfold deref; rewrite En; auto). assert (Lst : p < length (s_st s)) by (apply nth_error_Some; congruence).
  assert (Ne : d_fnames e1 <> []) by (intro E0; rewrite E0 in L1; cbn in L1; lia). destruct (Ab (S (s_lool s)) _ e1 Rs Ne) as (W1 & W2 & W3). pose proof (Al (S (s_lool s)) _ e1 Rs) as Ok1. specialize (W3 Ok1).
  destruct (tr (S (s_lool s)) e1) as (ok & w & margin) eqn:Et. cbn [fst snd] in *. subst ok.
  destruct (front_assign d tr len width cap dn cut (s_lool s) gs [] (s_st s) (s_tab s) h' (s_ws s) p n margin F0 ltac:(intros []) En W3) as (st' & As & F2 & Ep & _).
  assert (Ls : length st' = length (s_st s)). { pose proof (f_gl _ _ _ _ _ _ _ _ _ _ _ _ _ _ F2). pose proof (f_gl _ _ _ _ _ _ _ _ _ _ _ _ _ _ F0). lia. }
  destruct (front_keep d tr len width cap dn cut (s_lool s) gs [] st' (s_tab s) h' (s_ws s) p w F2 ltac:(intros []) ltac:(lia)) as (nw' & V & F3 & Wp).
  pose proof Ks as (K1 & K2 & _).
  destruct (front_insert d tr len width cap dn cut (s_lool s) gs [] st' (s_tab s) h' nw' p false Hc F3) as (b1 & q1 & ps1 & In1 & F4 & I4 & P4 & _); auto.
  { eexists; eauto. } { rewrite Lg. lia. } { rewrite Lg. lia. }
  { intros m Em Rm. rewrite Wp. split; [lia|]. split; [lia|]. split; [auto|]. exists (S (s_lool s)), e1. split; [auto | rewrite Et; auto]. }
  destruct Hh as (Hh1 & Hh2). cbn [length] in Hh2. pose proof (Permutation_length_1_inv (Permutation_sym (P4 ltac:(lia)))) as ->. pose proof F4 as [_ Wl4 _ _ _ _ _ Ks4 Hh4 ND4 _ _]. pose proof (front_live _ _ _ _ _ _ _ _ _ _ _ _ _ _ F4) as Lv4.
  assert (Nz4 : pq_size q1 <> 0) by (destruct Hh4 as (_ & H); cbn [length] in H; lia).
  destruct (pop_safe cap st' q1 [p] Ks4 Hh4 ND4 Lv4 Nz4) as (p' & h2 & ps2 & Pop2 & Sl2 & Ks2 & Hh2' & Pp2 & _ & _). pose proof (Permutation_length_1_inv Pp2) as Q. injection Q as -> ->.
  assert (F5 : front_ok d tr len width cap dn cut (s_lool s) gs [] st' (s_tab s) h2 nw'). { apply (front_perm d tr len width cap dn cut _ _ [p] _ _ q1); auto; [constructor | intros y []]. }
  destruct (expand_stage (s_lool s) gs st' (s_tab s) h2 nw' (nth p gs []) e1 w margin (s_part s) (S (S (s_lool s)))) as (s' & X1 & X2 & X3); auto; try lia. { rewrite Et. auto. }
  exists s', e1. split; [auto|]. split; [lia|]. intro fuel. rewrite Lp. unfold aos_main at 1. destruct (Nat.eqb_spec (pq_size (s_q s)) 0); [contradiction|]. rewrite Pop. cbn [obind fst snd]. rewrite Dr. cbn [obind]. rewrite Vn.
  destruct (Z.ltb_spec (a_depth c) (Z.of_nat (S (s_lool s)))); [lia|]. rewrite Rn. destruct (Rlt_dec 0 (-1)); [exfalso; lra|]. rewrite Sn, Et. cbn [negb]. rewrite Vn in As. rewrite As. cbn [obind].
  assert (Av : alive st' (g (pq_el h') 1)) by (rewrite Gp; exists p; split; [auto | eexists; eauto]). rewrite (value_at_g st' (pq_el h') 1 ltac:(lia) Av). cbn [obind].
  destruct (Z.eqb_spec (Z.of_nat (S (s_lool s))) (a_depth c)); [|lia]. rewrite orb_true_r, V. cbn [obind]. rewrite Ca, In1. cbn [obind snd].
  cbn [aos_loop s_q s_st]. destruct (Nat.eqb_spec (pq_size q1) 0); [contradiction|]. rewrite Sl2. cbn [obind]. unfold deref at 1. rewrite Ep. cbn [obind n_fnames n_rgamma]. rewrite Fn, Rm1. cbn [obind fst]. rewrite C1.
  assert (Z.eqb (Z.of_nat (dim d)) (Z.of_nat (dim d) - a_depth c) = false) as -> by (apply Z.eqb_neq; lia). cbn [andb].
  unfold aos_main. cbn [s_q s_st s_tab s_ws s_lool s_part s_n]. destruct (Nat.eqb_spec (pq_size q1) 0); [contradiction|]. rewrite Pop2. cbn [obind fst snd]. unfold deref. rewrite Ep. cbn [obind n_level n_rgamma n_fnames]. rewrite Vn.
  destruct (Z.ltb_spec (a_depth c) (Z.of_nat (S (s_lool s)))); [lia|]. destruct (Rlt_dec 0 margin); [|contradiction]. unfold vget. rewrite (nth_error_nth' nw' []) by lia. cbn [obind]. rewrite Wp, Fn, X1. auto.
Qed.
Lemma stage_end s e : stage s e -> s_lool s = dn -> forall fuel, aos_loop (S (S fuel)) c srt tr d s = Ok (Done e).
Proof.
  intros St Lt fuel. destruct (stage_turn s e St) as (gs & p & n & x & f & e1 & h' & Fi & En & Rn & Fn & Vn & Dg & Ig & Lg & Hx & Pm & Rm1 & Rs & C1 & D1 & L1 & He & Pop & Ks & Hh & Gp & Sn & Pt & F0 & Lp).
  pose proof Fi as [F Rc _ _]. assert (Nz : pq_size (s_q s) <> 0) by (destruct (f_holds _ _ _ _ _ _ _ _ _ _ _ _ _ _ F) as (_ & H); cbn [length] in H; lia).
  assert (Dr : deref (s_st s) p = Ok n) by (unfold deref; rewrite En; auto). rewrite Lp. unfold aos_main at 1. destruct (Nat.eqb_spec (pq_size (s_q s)) 0); [contradiction|]. rewrite Pop. cbn [obind fst snd]. rewrite Dr. cbn [obind]. rewrite Vn.
  destruct (Z.ltb_spec (a_depth c) (Z.of_nat (S (s_lool s)))); [|lia]. cbn [obind aos_loop s_q s_part]. destruct Hh as (_ & Hh). cbn [length] in Hh. rewrite <- Hh, Pt. auto.
Qed.
Lemma stage_run k : forall s e, stage s e -> s_lool s + k = dn -> forall fuel, k + 3 <= fuel -> exists e', aos_loop fuel c srt tr d s = Ok (Done e') /\ heaviest key tr d dn e'.
Proof.
  assert (End : forall s e, stage s e -> s_lool s = dn -> forall fuel, 2 <= fuel -> exists e', aos_loop fuel c srt tr d s = Ok (Done e') /\ heaviest key tr d dn e').
  { intros s e St E fuel Hf. exists e. destruct fuel as [|[|fuel]]; [lia | lia|]. split; [apply stage_end; auto|]. destruct St as (gs & p & x & f & _ & _ & _ & _ & He & _). rewrite <- E. auto. }
  induction k as [|k IH]; intros s e St E fuel Hf.
  - apply (End s e); auto; lia.
  - destruct (Nat.eq_dec k 0) as [-> | Nk].
    + destruct (stage_last s e St ltac:(lia)) as (s' & e' & St' & L' & H). destruct fuel as [|[|fuel]]; [lia | lia|]. rewrite H. apply (End s' e'); auto; lia.
    + destruct (stage_step s e St ltac:(lia)) as (s' & e' & St' & L' & H). destruct fuel as [|fuel]; [lia|]. rewrite H. apply (IH s' e'); auto; lia.
Qed.
End Heavy.

Lemma eliminates : forall (fuel : nat) (c : aos_cfg) srt tr (d : data R) key, searchable d c srt tr -> ranked d key srt -> willing d tr -> a_breadth c = 1 -> levels d c + 3 <= fuel ->
  exists e, aos_select fuel c srt tr d = Ok (Done e) /\ heaviest key tr d (levels d c) e.
Proof.
  intros fuel c srt tr d key Hss So Hw Hb Hf. pose proof Hss as (Od & Nd & Nl & Ab & Hs & Gm & Hc & Hl & Ap & Ro).
  assert (B1 : children d c = 1) by (unfold children; rewrite Hb; lia). pose proof (levels_lt d c Nl) as Ll. set (c' := aos_clamp d c). assert (Nn : d_fnames d <> []) by (intro E; rewrite E in Nl; cbn in Nl; lia).
  assert (Aw : length (fst (snd (tr 0 d))) = length (d_fnames d) /\ exists x, In x (fst (snd (tr 0 d))) /\ x <> 0%R) by (destruct (Ab 0 _ d (restricted_all d Od) Nn) as (A1 & A2 & _); auto).
  pose proof (clamp_breadth d c Od Nd) as Cb. rewrite B1 in Cb.
  destruct (start_ok d tr srt (a_len c) (a_width c) (a_cap c) (levels d c) (a_cut c) 1 c' eq_refl eq_refl Cb (clamp_depth d c Od Nd) Gm Hl Hc Ap Ro Hs Od Nd Nl Ll Aw eq_refl eq_refl ltac:(lia)) as (s & gs & ps & St & Fi & Mu & Ne & _ & S0 & Sp & Sn & New).
  unfold aos_select. fold c'. rewrite St. cbn [obind]. specialize (Ne ltac:(lia)).
  assert (Len : forall p, In p ps -> rg (s_st s) p = Some (-1)%R /\ length (nth p gs []) = 1). { intros p I. destruct (New p I) as (A & i & x & _ & _ & P). split; [auto|]. apply Permutation_length in P. auto. }
  rewrite Nat.mul_1_l in Mu. pose proof Fi as [F _ _ _].
  destruct (one_left (levels d c) gs ps (s_st s) 0 Ne ltac:(lia)) as (p & ->); auto. { rewrite Nat.sub_0_r. auto. }
  assert (Sz : pq_size (s_q s) = 1) by (destruct (f_holds _ _ _ _ _ _ _ _ _ _ _ _ _ _ F) as (_ & H0); auto). rewrite Sz. change (Nat.eqb 1 0) with false. cbv iota.
  apply (stage_run d tr srt key (a_len c) (a_width c) (a_cap c) (levels d c) (a_cut c) c' eq_refl eq_refl Cb (clamp_depth d c Od Nd) Gm Hl Hc Ap Ro So Hs Od Nd Nl Ll Ab Hw (levels d c) s d); [|lia | lia].
  destruct (New p ltac:(left; auto)) as (A & i & x & I & E & P). assert (i = 0) as -> by lia. exists gs, p, (fst x), []. rewrite S0. split; [auto|]. split; [auto|]. split; [auto|]. split; [auto|]. split; [constructor|]. split; [apply data_dim; auto|]. split; [exact (restricted_all d Od)|]. split; [auto|]. split; [|auto].
  apply (first_heavy d key srt So Hs (without [])); [exact (restricted_all d Od) | apply data_dim; auto | auto].
Qed.
(** C116: with one child and trainings that succeed, the search is an elimination: the classifier is trained, one feature of the greatest absolute weight is taken away, and so on, as many times as there are features to take away. *)
Lemma c116_heaviest : forall (fuel : nat) (c : aos_cfg) srt tr (d : data R), searchable d c srt tr -> ranked d by_weight srt -> willing d tr -> a_breadth c = 1 -> levels d c + 3 <= fuel ->
  exists e, aos_select fuel c srt tr d = Ok (Done e) /\ heaviest by_weight tr d (levels d c) e.
Proof. intros. apply eliminates; auto. Qed.

(** ** The value of a child *)
Lemma fold_skip (a : R) i l : NoDup l -> fold_left (fun s j => if Nat.eqb i j then s else (s + a)%R) l 0%R = (INR (length l - (if in_dec Nat.eq_dec i l then 1 else 0)) * a)%R.
Proof.
  intro ND. assert (G : forall l s, ~ In i l -> fold_left (fun s j => if Nat.eqb i j then s else (s + a)%R) l s = (s + INR (length l) * a)%R).
  { clear. induction l as [|x l IH]; intros s Ni; [cbn; lra|]. cbn [fold_left length]. destruct (Nat.eqb_spec i x) as [-> | _]; [exfalso; apply Ni; left; auto|]. rewrite IH by (intro; apply Ni; right; auto). rewrite S_INR. lra. }
  destruct (in_dec Nat.eq_dec i l) as [I | I]; [|rewrite G, Nat.sub_0_r by auto; lra]. apply in_split in I as (l1 & l2 & ->). apply NoDup_remove in ND as (_ & Ni).
  rewrite fold_left_app. cbn [fold_left]. rewrite Nat.eqb_refl. rewrite !G by (intro; apply Ni, in_or_app; auto). rewrite app_length. cbn [length]. replace (length l1 + S (length l2) - 1) with (length l1 + length l2) by lia. rewrite plus_INR. lra.
Qed.
(** C116: the value of a child is the absolute weight of the feature taken away, times the margin and the root of the number of features left, over the norm of the weights. *)
Lemma c116_value : forall dim i (wi wnorm margin : R), i < dim -> (wnorm <> 0)%R -> aos_projected dim i wi wnorm margin = (sqrt (INR (dim - 1)) * (Rabs wi / Rabs wnorm) * Rabs margin)%R.
Proof.
  intros dim i wi wnorm margin Hi Hn. unfold aos_projected. destruct (Nat.ltb_spec 1 dim) as [Hd | Hd].
  - rewrite (fold_skip ((Rabs (wi / wnorm) * margin) * (Rabs (wi / wnorm) * margin))) by apply seq_NoDup. destruct (in_dec Nat.eq_dec i (seq 0 dim)) as [_ | I]; [|exfalso; apply I, in_seq; lia]. rewrite seq_length.
    rewrite sqrt_mult by (try apply pos_INR; apply Rle_0_sqr). fold (Rsqr (Rabs (wi / wnorm) * margin)). rewrite sqrt_Rsqr_abs, Rabs_mult, Rabs_Rabsolu. unfold Rdiv. rewrite Rabs_mult, Rabs_inv. ring.
  - assert (dim = 1) as -> by lia. cbn. rewrite sqrt_0. ring.
Qed.
(** C116: the margin left is greater when a feature of smaller weight is taken away, but the value of the child is smaller. *)
Lemma c116_order_refuted : forall (w : list R) i j pi pj (wnorm margin : R), i < length w -> j < length w -> pi < length w -> pj < length w -> pnorm2 w = Ok wnorm ->
  (Rabs (nth i w 0) < Rabs (nth j w 0))%R -> (0 < margin)%R ->
  (shadow w j margin < shadow w i margin /\ aos_projected (length w) pi (nth i w 0) wnorm margin < aos_projected (length w) pj (nth j w 0) wnorm margin)%R.
Proof.
  intros w i j pi pj wnorm margin Hi Hj Hpi Hpj Hn Hw Hm. pose proof (Rabs_pos (nth i w 0%R)) as Pi.
  assert (Pn : exists n, pnorm2 w = Ok n /\ n <> 0%R). { apply norm_pos. exists (nth j w 0%R). split; [apply nth_In; auto|]. intro E. rewrite E, Rabs_R0 in Hw. lra. }
  destruct Pn as (n0 & Pn & Pn0). rewrite Hn in Pn. injection Pn as <-.
  set (sq := fun k => (nz w k * nz w k)%R). assert (Sk : forall k, k < length w -> sumn (length w) (fun a => if Nat.eqb a k then 0 else nz w a * nz w a)%R = (sumn (length w) sq - sq k)%R).
  { intros k Hk. rewrite (sumn_change (length w) sq _ k Hk); [rewrite Nat.eqb_refl; unfold sq; ring|]. intros a _ Na. destruct (Nat.eqb_spec a k); [contradiction | auto]. }
  assert (S0 : forall k, (0 <= sq k)%R) by (intro k; apply Rle_0_sqr). assert (Sij : (sq i < sq j)%R). { unfold sq, nz. rewrite <- (Rabs_pos_eq (nth i w 0 * _)%R), <- (Rabs_pos_eq (nth j w 0 * _)%R) by apply Rle_0_sqr. rewrite !Rabs_mult. apply Rmult_le_0_lt_compat; auto. }
  assert (Tj : (sq j <= sumn (length w) sq)%R) by (apply sumn_term; auto). split.
  - unfold shadow. rewrite !Sk by auto. fold sq. apply Rmult_lt_compat_r; [auto|]. apply Rmult_lt_compat_r; [apply Rinv_0_lt_compat, sqrt_lt_R0; specialize (S0 i); lra|]. apply sqrt_lt_1_alt. specialize (S0 i). lra.
  - rewrite !c116_value by auto. assert (2 <= length w) by (destruct (Nat.eq_dec i j) as [-> | Nij]; [lra | lia]).
    apply Rmult_lt_compat_r; [apply Rabs_pos_lt; lra|]. apply Rmult_lt_compat_l; [apply sqrt_lt_R0, lt_0_INR; lia|]. apply Rmult_lt_compat_r; [apply Rinv_0_lt_compat, Rabs_pos_lt; auto | auto].
Qed.
Lemma c116_order_refuted_ex : pnorm2 [3; 4]%R = Ok (sqrt (0 + Rabs 3 * Rabs 3 + Rabs 4 * Rabs 4))%R /\ 0 < length [3; 4]%R /\ (Rabs (nth 0 [3; 4] 0) < Rabs (nth 1 [3; 4] 0))%R.
Proof. split; [|split; [cbn; lia | cbn; rewrite !Rabs_pos_eq; lra]]. unfold pnorm2. reflexivity. Qed.
Lemma ranked_fsort (d : data R) : ranked d by_weight (fun _ => fsort (fun x => - Rabs x)%R).
Proof.
  intros keep e w _. destruct (fsort_ok (fun x => - Rabs x)%R (weighed e w)) as (_ & H). revert H. generalize (fsort (fun x => - Rabs x)%R (weighed e w)). induction l as [|x l IH]; intro H; constructor.
  - inversion H; subst. apply IH; auto.
  - inversion H as [|? ? _ F]; subst. rewrite Forall_forall in *. intros y I. specialize (F y I). unfold by_weight. lra.
Qed.
Lemma c116_heaviest_ex : exists e, aos_select 5 (aos_new fx 1 1 0 0) (fun _ => fsort (fun x => - Rabs x)%R) (even_train 1) fx = Ok (Done e) /\ heaviest by_weight (even_train 1) fx 2 e.
Proof.
  assert (L : levels fx (aos_new fx 1 1 0 0) = 2) by reflexivity. rewrite <- L. apply c116_heaviest; [apply fx_searchable | apply ranked_fsort | intros k keep e _; auto | auto | rewrite L; lia].
Qed.
