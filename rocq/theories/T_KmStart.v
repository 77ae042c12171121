(** C144: the starting centres of k-means. *)
From Coq Require Import ZArith Bool List Reals Lra Lia Permutation.
From Verif Require Import Base ListLib L_Vec Loop M_Data L_Valid S_Knn L_Knn M_Kmeans S_Kmeans T_Kmeans T_Kmeans2 M_KmStart.
Import ListNotations.
Local Open Scope R_scope.

Lemma fold_plus l : forall a, fold_left Rplus l a = a + rsum l.
Proof. induction l as [|x l IH]; intro a; cbn; [lra|]. rewrite IH. lra. Qed.
Lemma rsum_ge l : (forall x, In x l -> 0 <= x) -> 0 <= rsum l /\ forall x, In x l -> x <= rsum l.
Proof.
  induction l as [|y l IH]; intro H; cbn; [split; [lra|intros ? []]|]. destruct IH as (A & B); [intros; apply H; now right|]. pose proof (H y (or_introl eq_refl)). split; [lra|]. intros x [->|Hx]; [lra|]. specialize (B x Hx). lra.
Qed.
Lemma pp_draw_ok dist points prev i p : (forall x y, 0 <= dist x y) -> (exists q, In q points /\ 0 < dist prev (p_x q)) -> nth_error points (Z.to_nat i) = Some p -> pp_draw dist points prev i = Ok (p_x p).
Proof.
  intros Hd (q & Hq & Hp) E. unfold pp_draw. rewrite fold_plus, Rplus_0_l. set (ds := map _ points). destruct (rsum_ge ds) as (_ & B); [intros x Hx; apply in_map_iff in Hx as (z & <- & _); apply Hd|].
  assert (0 < rsum ds) as P by (eapply Rlt_le_trans; [exact Hp|]; apply B, (in_map (fun q => dist prev (p_x q))), Hq). destruct (Req_EM_T _ _); [lra|].
  replace (existsb _ ds) with false; [unfold vget; rewrite E; reflexivity|]. symmetry. apply Bool.not_true_is_false. intro X. apply existsb_exists in X as (x & Hx & X). destruct (Rlt_dec (x / rsum ds) 0) as [N|]; [|discriminate].
  apply in_map_iff in Hx as (z & <- & _). pose proof (Hd prev (p_x z)). assert (0 <= dist prev (p_x z) / rsum ds); [|lra]. apply Rmult_le_pos; [auto|]. left. now apply Rinv_0_lt_compat.
Qed.
(** C144: with "kmeanspp" the centres are the points at the positions drawn, whatever their distances; every point is as likely as any other. *)
Lemma c144_pp_refuted : forall dist points draws, (forall x y, 0 <= dist x y) -> draws <> [] -> (forall i, In i draws -> (0 <= i < Z.of_nat (length points))%Z) ->
  (forall i p, In i draws -> nth_error points (Z.to_nat i) = Some p -> exists q, In q points /\ 0 < dist (p_x p) (p_x q)) ->
  exists centers, km_start_pp dist points draws = Ok centers /\ Forall2 (fun i c => exists p, nth_error points (Z.to_nat i) = Some p /\ c = p_x p) draws centers.
Proof.
  intros dist points draws Hd N B S. destruct draws as [|i r]; [congruence|]. cbn [km_start_pp]. clear N. destruct (nth_error points (Z.to_nat i)) as [p|] eqn:E; [|apply nth_error_None in E; specialize (B i (or_introl eq_refl)); lia]. unfold vget. rewrite E. cbn [obind].
  assert (exists q, In q points /\ 0 < dist (p_x p) (p_x q)) as Q by (apply (S i p); [now left|auto]).
  assert (forall prev, (exists q, In q points /\ 0 < dist prev (p_x q)) -> exists cs, pp_from dist points prev r = Ok cs /\ Forall2 (fun i c => exists p, nth_error points (Z.to_nat i) = Some p /\ c = p_x p) r cs) as G.
  { assert (forall j, In j r -> (0 <= j < Z.of_nat (length points))%Z) as B' by (intros; apply B; now right). assert (forall j q, In j r -> nth_error points (Z.to_nat j) = Some q -> exists q', In q' points /\ 0 < dist (p_x q) (p_x q')) as S' by (intros j q Hj; apply (S j q); now right).
    clear - Hd B' S'. induction r as [|j r IH]; intros prev P; cbn [pp_from]; [exists []; split; [reflexivity|constructor]|].
    destruct (nth_error points (Z.to_nat j)) as [q|] eqn:E; [|apply nth_error_None in E; specialize (B' j (or_introl eq_refl)); lia]. rewrite (pp_draw_ok dist points prev j q Hd P E). cbn [obind].
    destruct (IH) with (prev := p_x q) as (cs & -> & F); [intros; apply B'; now right|intros k x Hk; apply (S' k x); now right|apply (S' j q); [now left|auto]|]. cbn [obind]. eexists. split; [reflexivity|]. constructor; [exists q; auto|exact F]. }
  destruct (G (p_x p) Q) as (cs & -> & F). cbn [obind]. eexists. split; [reflexivity|]. constructor; [exists p; auto|exact F].
Qed.
(** C144: so the point just chosen, whose weight is 0, can be drawn again. *)
Lemma c144_again_refuted : forall dist points i p q, (forall x y, 0 <= dist x y) -> dist (p_x p) (p_x p) = 0 -> (0 <= i)%Z -> nth_error points (Z.to_nat i) = Some p -> In q points -> 0 < dist (p_x p) (p_x q) -> km_start_pp dist points [i; i] = Ok [p_x p; p_x p].
Proof.
  intros dist points i p q Hd _ Hi E Hq Hp. cbn [km_start_pp pp_from]. rewrite (pp_draw_ok dist points (p_x p) i p Hd (ex_intro _ q (conj Hq Hp)) E) || idtac. unfold vget. rewrite E. cbn [obind]. rewrite (pp_draw_ok dist points (p_x p) i p Hd (ex_intro _ q (conj Hq Hp)) E). reflexivity.
Qed.
(** C144: when all points are at distance 0 from the first centre, the weights are not numbers. *)
Lemma c144_same_refuted : forall dist points i p j r, nth_error points (Z.to_nat i) = Some p -> (forall q, In q points -> dist (p_x p) (p_x q) = 0) -> km_start_pp dist points (i :: j :: r) = UB.
Proof.
  intros dist points i p j r E H. cbn [km_start_pp pp_from]. unfold vget at 1. rewrite E. cbn [obind]. unfold pp_draw. rewrite fold_plus, Rplus_0_l. assert (rsum (map (fun q => dist (p_x p) (p_x q)) points) = 0) as ->.
  { clear E. induction points as [|q l IH]; cbn; [reflexivity|]. rewrite (H q) by now left. rewrite IH; [lra|]. intros; apply H; now right. }
  destruct (Req_EM_T 0 0); [reflexivity|lra].
Qed.
(** C144: the upper bound of the generator is a position past the last point. *)
Lemma c144_past_refuted : forall dist points r, km_start_pp dist points (Z.of_nat (length points) :: r) = UB.
Proof. intros. cbn [km_start_pp]. unfold vget. rewrite Nat2Z.id, (proj2 (nth_error_None _ _)) by lia. reflexivity. Qed.
(** C144: asked for no cluster, kmeanspp writes to a centre that does not exist, whatever the data. *)
Lemma c144_none_refuted : forall dist EPS late d points fuel, km_train_init dist EPS late d points Init_pp 0 [] fuel = UB.
Proof. reflexivity. Qed.
(** C144: from two equal centres the first round leaves the later one without points, so that a centre is not a number. *)
Lemma c144_twin_refuted : forall dist EPS late d D points centers a b fuel s prev, ids_from_one d -> dims_are d D -> Permutation points (d_points d) -> (forall c, In c centers -> length c = D) ->
  (a < b < length centers)%nat -> nth a centers [] = nth b centers [] -> km_loop dist EPS late d points (S fuel) s centers (repeat [] (length centers)) prev = Ok Km_nan.
Proof.
  intros dist EPS late d D points centers a b fuel s prev I Hd P HD Hab Eq. assert (centers <> []) as N by (intros ->; cbn in Hab; lia). cbn [km_loop].
  destruct (assign_ok dist centers points (repeat [] (length centers)) N (repeat_length _ _)) as (cl & cost & -> & L & Pl). cbn [obind fst].
  assert (forall j i, (j < length centers)%nat -> In i (nth j cl []) -> (0 <= i < Z.of_nat (length (d_points d)))%Z /\ first_min (length centers) (fun c => dist (point_at d (Z.to_nat i)) (nth c centers [])) j) as In'.
  { intros j i Hj Hi. rewrite Pl, nth_repeat in Hi by auto. cbn [app] in Hi. apply (placed_in dist centers d j i I Hj N). eapply Permutation_in; [apply placed_perm, P|exact Hi]. }
  rewrite (c51_empty_refuted d D cl centers Hd (eq_sym L) HD); [reflexivity| |].
  - intros c i Hc Hi. apply In_nth with (d := []) in Hc as (j & Hj & <-). apply In' in Hi; [tauto|lia].
  - assert (nth b cl [] = []) as <-; [|apply nth_In; lia]. destruct (nth b cl []) as [|i l] eqn:Q; [reflexivity|exfalso]. destruct (In' b i) as (_ & _ & _ & F); [lia|rewrite Q; now left|]. specialize (F a ltac:(lia)). rewrite Eq in F. lra.
Qed.
(** C144: any other text leaves all centres at the origin; with two clusters or more the first round then gives a centre that is not a number. *)
Lemma c144_other_refuted : forall dist EPS late d points k draws fuel, ids_from_one d -> dims_are d (dim d) -> Permutation points (d_points d) -> (2 <= k)%nat -> km_train_init dist EPS late d points Init_other k draws (S fuel) = Ok Km_nan.
Proof.
  intros dist EPS late d points k draws fuel I Hd P Hk. unfold km_train_init, km_centers. cbn [obind]. rewrite <- (repeat_length (repeat 0 (dim d)) k) at 2. apply (c144_twin_refuted dist EPS late d (dim d) points _ 0 1); auto.
  - intros c Hc. apply repeat_spec in Hc as ->. apply repeat_length.
  - rewrite repeat_length. lia.
  - destruct k as [|[|k]]; [lia|lia|reflexivity].
Qed.
(** C144: training from a start with a repeated position, random or kmeanspp, gives a centre that is not a number. *)
Lemma c144_train_refuted : forall dist EPS late d D points init draws a b i fuel centers, ids_from_one d -> dims_are d D -> Permutation points (d_points d) -> init = Init_random \/ init = Init_pp ->
  (a < b)%nat -> nth_error draws a = Some i -> nth_error draws b = Some i -> km_centers dist d points init (length draws) draws = Ok centers ->
  km_train_init dist EPS late d points init (length draws) draws (S fuel) = Ok Km_nan.
Proof.
  intros dist EPS late d D points init draws a b i fuel centers I Hd P Hi Hab Ea Eb E.
  assert (exists ps, (forall p, In p ps -> length (p_x p) = D) /\ Forall2 (fun i c => exists p, nth_error ps (Z.to_nat i) = Some p /\ c = p_x p) draws centers) as (ps & HD & F).
  { destruct Hi as [-> | ->]; cbn [km_centers] in E.
    - exists (d_points d). split; [exact Hd|]. unfold km_start in E. clear - E. revert centers E. induction draws as [|j r IH]; intros centers E; cbn [map_outcome] in E; [injection E as <-; constructor|]. unfold vget in E. destruct (nth_error (d_points d) (Z.to_nat j)) as [p|] eqn:Q; cbn [obind] in E; [|discriminate].
      destruct (map_outcome _ r) as [cs| |]; cbn [obind] in E; try discriminate. injection E as <-. constructor; [exists p; auto|]. apply IH. reflexivity.
    - exists points. split; [intros p Hp; apply Hd; eapply Permutation_in; eauto|]. destruct draws as [|j r]; [discriminate|]. cbn [km_start_pp] in E. unfold vget in E. destruct (nth_error points (Z.to_nat j)) as [p|] eqn:Q; cbn [obind] in E; [|discriminate].
      destruct (pp_from dist points (p_x p) r) as [cs| |] eqn:G; cbn [obind] in E; try discriminate. injection E as <-. constructor; [exists p; auto|]. clear - G. revert cs G. generalize (p_x p) as prev. induction r as [|k r IH]; intros prev cs G; cbn [pp_from] in G; [injection G as <-; constructor|].
      destruct (pp_draw dist points prev k) as [c| |] eqn:A; cbn [obind] in G; try discriminate. destruct (pp_from dist points c r) as [cs'| |] eqn:G'; cbn [obind] in G; try discriminate. injection G as <-. constructor; [|eapply IH; eauto].
      unfold pp_draw in A. destruct (Req_EM_T _ _); [discriminate|]. destruct (existsb _ _); [discriminate|]. unfold vget in A. destruct (nth_error points (Z.to_nat k)) as [q|]; cbn [obind] in A; [|discriminate]. injection A as <-. exists q. auto. }
  unfold km_train_init. rewrite E. cbn [obind]. assert (length draws = length centers) as L by (apply forall2_len in F; auto). rewrite L.
  assert (forall j, nth_error draws j = Some i -> exists p, nth_error ps (Z.to_nat i) = Some p /\ nth j centers [] = p_x p /\ (j < length centers)%nat) as G.
  { clear - F. induction F as [|x c draws centers Q F IH]; intros [|j] H; cbn in H; try discriminate. - injection H as ->. destruct Q as (p & A & ->). exists p. cbn. repeat split; auto. lia. - destruct (IH j H) as (p & A & B & C). exists p. cbn. repeat split; auto. lia. }
  destruct (G a Ea) as (p & A1 & A2 & A3). destruct (G b Eb) as (p' & B1 & B2 & B3). rewrite A1 in B1. injection B1 as <-. apply (c144_twin_refuted dist EPS late d D points centers a b); auto; [|congruence].
  intros c Hc. clear - F HD Hc. induction F as [|x c' draws centers (p & A & ->) F IH]; [destruct Hc|]. destruct Hc as [<-|Hc]; [|auto]. apply HD. eapply nth_error_In; eauto.
Qed.
(** C144: with one cluster, another text makes the first round compute the true mean, since the old centre is then the origin. *)
Lemma c144_other : forall dist EPS late d points draws fuel, ids_from_one d -> dims_are d (dim d) -> Permutation points (d_points d) -> d_points d <> [] -> late 0%nat = true ->
  exists c clusters, km_train_init dist EPS late d points Init_other 1 draws (S fuel) = Ok (Km_done [c] clusters) /\ forall t, (t < dim d)%nat -> nz c t = rsum (map (fun p => nz (p_x p) t) (d_points d)) / INR (length (d_points d)).
Proof.
  intros dist EPS late d points draws fuel I Hd P NEd Lt. unfold km_train_init, km_centers. cbn [obind]. change (repeat [] 1) with (repeat (@nil Z) (length (repeat (repeat 0 (dim d)) 1))).
  cbn [km_loop]. set (cs := repeat (repeat 0 (dim d)) 1) in *. assert (cs <> []) as N by discriminate. destruct (assign_ok dist cs points (repeat [] (length cs)) N (repeat_length _ _)) as (cl & cost & A & L & Pl). rewrite A. cbn [obind fst snd]. rewrite Lt.
  assert (forall c, In c cs -> length c = dim d) as HD by (intros c Hc; apply repeat_spec in Hc as ->; apply repeat_length).
  pose proof A as A'. destruct cl as [|m [|? ?]]; try discriminate L. specialize (Pl 0%nat ltac:(cbn; lia)). cbn [nth repeat app cs length] in Pl.
  assert (Permutation m (map (fun q => (p_id q - 1)%Z) (d_points d))) as Pm.
  { rewrite Pl. unfold placed. replace (filter _ points) with points; [now apply Permutation_map|]. clear - cs dist. induction points as [|q l IH]; [reflexivity|]. cbn [filter]. change (Nat.eqb (near_to dist [repeat 0 (dim d)] (p_x q)) 0) with true; cbv iota. f_equal. exact IH. }
  assert (forall t, coord_sum (map p_x (d_points d)) m t = rsum (map (fun p => nz (p_x p) t) (d_points d))) as Cs.
  { intro t. assert (forall u v, Permutation u v -> coord_sum (map p_x (d_points d)) u t = coord_sum (map p_x (d_points d)) v t) as Cp by (clear; induction 1; cbn; lra). rewrite (Cp _ _ Pm).
    assert (forall l, (forall q, In q l -> exists k, nth_error (d_points d) k = Some q) -> coord_sum (map p_x (d_points d)) (map (fun q => (p_id q - 1)%Z) l) t = rsum (map (fun p => nz (p_x p) t) l)) as G.
    { induction l as [|q l IH]; intro H; [reflexivity|]. cbn [map coord_sum rsum]. rewrite IH by (intros; apply H; now right). f_equal. destruct (H q (or_introl eq_refl)) as (k & Ek). rewrite (I _ _ Ek). replace (Z.to_nat _) with k by lia. f_equal. apply nth_error_nth. now apply map_nth_error. }
    apply G. intros q Hq. apply In_nth_error in Hq. exact Hq. }
  assert (forall c i, In c [m] -> In i c -> (0 <= i < Z.of_nat (length (d_points d)))%Z) as B.
  { intros c i [<-|[]] Hi. eapply Permutation_in in Hi; [|exact Pm]. apply in_map_iff in Hi as (q & <- & Hq). apply In_nth_error in Hq as (k & Ek). rewrite (I _ _ Ek). assert (k < length (d_points d))%nat by (apply nth_error_Some; congruence). lia. }
  assert (~ In [] [m]) as NE by (intros [->|[]]; apply Permutation_nil in Pm; destruct (d_points d); [congruence|discriminate]).
  destruct (update_ok d (dim d) [m] cs Hd eq_refl HD B NE) as (new & C & Ln & _ & V). destruct new as [|c [|? ?]]; try discriminate Ln. rewrite C. cbn [obind]. exists c, [m]. split; [reflexivity|]. intros t Ht. specialize (V 0%nat t ltac:(cbn; lia) Ht). cbn [nth] in V. rewrite V, Cs.
  apply Permutation_length in Pm. rewrite map_length in Pm. rewrite Pm. f_equal. unfold cs, nz. cbn [repeat nth]. rewrite nth_repeat. lra.
Qed.
Lemma c144_pp_refuted_ex : (forall x y, 0 <= gap x y) /\ (forall i, In i [2; 0]%Z -> (0 <= i < Z.of_nat (length (d_points three)))%Z) /\ forall i p, In i [2; 0]%Z -> nth_error (d_points three) (Z.to_nat i) = Some p -> exists q, In q (d_points three) /\ 0 < gap (p_x p) (p_x q).
Proof.
  split; [intros; apply Rabs_pos|]. split; [exact c81_start_ex|]. intros i p [<-|[<-|[]]] E; cbn in E; injection E as <-.
  - eexists. split; [left; reflexivity|]. unfold gap, nz. cbn. unfold Rabs. destruct (Rcase_abs _); lra.
  - eexists. split; [right; right; left; reflexivity|]. unfold gap, nz. cbn. unfold Rabs. destruct (Rcase_abs _); lra.
Qed.
Lemma c144_twin_refuted_ex : ids_from_one three /\ dims_are three (dim three) /\ (forall c, In c [[0]; [4]; [0]] -> length c = 1%nat) /\ (0 < 2 < length [[0]; [4]; [0]])%nat /\ nth 0 [[0]; [4]; [0]] [] = nth 2 [[0]; [4]; [0]] [].
Proof. split; [exact three_ids|]. split; [exact three_dims|]. split; [intros c [<-|[<-|[<-|[]]]]; reflexivity|]. split; [cbn; lia|reflexivity]. Qed.
Lemma c144_other_ex : ids_from_one three /\ dims_are three (dim three) /\ d_points three <> [].
Proof. split; [exact three_ids|]. split; [exact three_dims|]. discriminate. Qed.
