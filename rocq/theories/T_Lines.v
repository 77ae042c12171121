(** C124: the lines and planes drawn are those of the solution. *)
From Coq Require Import List Reals Arith Bool Lia Lra.
From Verif Require Import Base M_Lines S_Lines.
Import ListNotations.
Local Open Scope R_scope.

(** *** The decision function at sparse points *)
Lemma score_map w (f : nat -> R) : forall k b, score w (map f (seq k (length w))) b = fold_right Rplus 0 (map (fun i => nth (i - k) w 0 * f i) (seq k (length w))) + b.
Proof.
  induction w as [|a w IH]; intros k b; cbn [length seq map score fold_right]; [lra|]. rewrite IH, Nat.sub_diag. change (nth 0 (a :: w) 0) with a.
  assert (map (fun i => nth (i - S k) w 0 * f i) (seq (S k) (length w)) = map (fun i => nth (i - k) (a :: w) 0 * f i) (seq (S k) (length w))) as ->; [|lra].
  apply map_ext_in. intros i I. apply in_seq in I. replace (i - k)%nat with (S (i - S k)) by lia. reflexivity.
Qed.
Lemma sum_one (g : nat -> R) x u : forall l, NoDup l -> In x l -> fold_right Rplus 0 (map (fun i => if Nat.eqb i x then u else g i) l) = fold_right Rplus 0 (map g l) + (u - g x).
Proof.
  induction l as [|i l IH]; intros N I; [destruct I|]. inversion N; subst. cbn [map fold_right]. destruct I as [->|I].
  - rewrite Nat.eqb_refl. assert (map (fun i => if Nat.eqb i x then u else g i) l = map g l) as ->; [|lra].
    apply map_ext_in. intros j J. destruct (Nat.eqb_spec j x); auto. subst. contradiction.
  - destruct (Nat.eqb_spec i x); [subst; contradiction|]. rewrite IH by auto. lra.
Qed.
Lemma score_sparse w b : forall vs, NoDup (map fst vs) -> (forall iv, In iv vs -> (fst iv < length w)%nat) ->
  score w (sparse (length w) vs) b = fold_right Rplus 0 (map (fun iv => nth (fst iv) w 0 * snd iv) vs) + b.
Proof.
  intros vs N L. unfold sparse. rewrite score_map. f_equal. induction vs as [|(x, u) vs IH]; cbn [map fold_right fst snd] in *.
  - assert (K : forall (l : list nat) (h : nat -> R), fold_right Rplus 0 (map (fun i => h i * 0) l) = 0).
    { induction l as [|i l IH]; intros h; cbn [map fold_right]; auto. rewrite IH. lra. }
    apply K.
  - inversion N; subst. rewrite <- IH by (auto; intros; apply L; now right).
    assert (Lx := L (x, u) (or_introl eq_refl)). cbn [fst] in Lx.
    set (r := fun i => fold_right (fun iv r => if (i =? fst iv)%nat then snd iv else r) 0 vs).
    transitivity (fold_right Rplus 0 (map (fun i => if Nat.eqb i x then nth x w 0 * u else nth (i - 0) w 0 * r i) (seq 0 (length w)))).
    { f_equal. apply map_ext. intros i. destruct (Nat.eqb_spec i x); subst; auto. now rewrite Nat.sub_0_r. }
    rewrite (sum_one (fun i => nth (i - 0) w 0 * r i) x) by (try apply seq_NoDup; apply in_seq; lia).
    assert (Z : r x = 0); [|rewrite Z; fold r; match goal with |- ?a + _ = _ + ?b => change b with a end; lra]. unfold r. clear - H1. induction vs as [|(y, v) vs IH]; cbn [fold_right fst snd map In] in *; auto.
    destruct (Nat.eqb_spec x y); [subst; tauto|]. apply IH. tauto.
Qed.
Lemma nth_ok (w : list R) x a : nth_error w x = Some a -> (x < length w)%nat /\ nth x w 0 = a.
Proof. intros H. split; [apply nth_error_Some; congruence | now apply nth_error_nth]. Qed.
Lemma on_made b wx wy u v : wy <> 0 -> (on_line (mkLine (divide (- wx) wy) (offset (Some b) wy)) u v <-> wx * u + wy * v + b = 0).
Proof.
  intros N. unfold on_line, offset, divide. cbn [slope intercept]. destruct (Req_EM_T wy 0); [contradiction|]. destruct (Req_EM_T (- wy) 0); [lra|]. split.
  - intros (p & q & H & I & J). injection H as <-. injection I as <-. subst v. field. auto.
  - intros H. do 2 eexists. split; [reflexivity|]. split; [reflexivity|]. apply (Rmult_eq_reg_l wy); auto. replace (wy * (- wx / wy * u + b / - wy)) with (- wx * u - b) by (field; auto). lra.
Qed.

(** C124: the line f of plot2DwithHyperplane is where the decision function is 0 at points whose other features are 0, and the lines g and h of the margin are
    where it is minus and plus margin*norm (a norm that is not a number counts as 0). *)
Lemma c124_line : forall (s : solution) (x y : nat) (wy : R), x <> y -> (x < length (s_w s))%nat -> nth_error (s_w s) y = Some wy -> wy <> 0 ->
  let d u v := score (s_w s) (sparse (length (s_w s)) [(x, u); (y, v)]) (s_bias s) in
  let n := match s_norm s with Some n => n | None => 0 end in
  exists f gh, lines2 s x y = Ok (f, gh) /\ (forall u v, on_line f u v <-> d u v = 0) /\ (s_margin s = 0 -> gh = None) /\
  (s_margin s <> 0 -> exists g h, gh = Some (g, h) /\ (forall u v, on_line g u v <-> d u v = - (s_margin s * n)) /\ (forall u v, on_line h u v <-> d u v = s_margin s * n)).
Proof.
  intros s x y wy Nxy Lx Ey Ny d n. destruct (nth_error (s_w s) x) as [wx|] eqn:Ex; [|apply nth_error_None in Ex; lia].
  assert (D : forall u v, d u v = wx * u + wy * v + s_bias s).
  { intros u v. unfold d. destruct (nth_ok _ _ _ Ex), (nth_ok _ _ _ Ey). rewrite score_sparse.
    - cbn [map fold_right fst snd]. rewrite H0, H2. lra.
    - cbn. repeat constructor; cbn; intuition.
    - intros iv [<-|[<-|[]]]; auto. }
  unfold lines2, weight. rewrite Ex, Ey. cbn [obind]. set (nn := match s_norm s with Some n => Some n | None => Some 0 end). assert (nn = Some n) as -> by (unfold nn, n; now destruct (s_norm s)).
  destruct (Req_EM_T (s_margin s) 0) as [M|M].
  - do 2 eexists. split; [reflexivity|]. split; [|tauto]. intros u v. rewrite on_made by auto. rewrite D. tauto.
  - do 2 eexists. split; [reflexivity|]. split; [intros u v; rewrite on_made by auto; rewrite D; tauto|]. split; [contradiction|]. intros _. do 2 eexists. split; [reflexivity|].
    cbn [shifted]. split; intros u v; rewrite on_made by auto; rewrite D; split; lra.
Qed.
(** C124: with w_y = 0 (a boundary parallel to the second axis) no line is drawn. *)
Lemma c124_vertical_refuted : forall (s : solution) (x y : nat), (x < length (s_w s))%nat -> nth_error (s_w s) y = Some 0 ->
  exists f gh, lines2 s x y = Ok (f, gh) /\ forall u v, ~ on_line f u v.
Proof.
  intros s x y Lx Ey. destruct (nth_error (s_w s) x) as [wx|] eqn:Ex; [|apply nth_error_None in Ex; lia].
  assert (K : forall b u v, ~ on_line (mkLine (divide (- wx) 0) b) u v).
  { intros b u v (p & q & H & _). cbn [slope] in H. unfold divide in H. destruct (Req_EM_T 0 0); [discriminate | lra]. }
  unfold lines2, weight. rewrite Ex, Ey. cbn [obind]. destruct (Req_EM_T (s_margin s) 0); do 2 eexists; (split; [reflexivity|]); intros u v; apply K.
Qed.
(** C124: with the same feature on both axes the line is not the boundary: on the diagonal, where all points are, it is at half the place. *)
Lemma c124_same_refuted : forall (s : solution) (x : nat) (wx : R), nth_error (s_w s) x = Some wx -> wx <> 0 ->
  exists f gh, lines2 s x x = Ok (f, gh) /\ forall u, on_line f u u <-> score (s_w s) (sparse (length (s_w s)) [(x, 2 * u)]) (s_bias s) = 0.
Proof.
  intros s x wx Ex N. destruct (nth_ok _ _ _ Ex) as (Lx & Nx).
  assert (K : forall u, on_line (mkLine (divide (- wx) wx) (offset (Some (s_bias s)) wx)) u u <-> score (s_w s) (sparse (length (s_w s)) [(x, 2 * u)]) (s_bias s) = 0).
  { intros u. rewrite on_made by auto. rewrite score_sparse; [|cbn; repeat constructor; cbn; tauto | intros iv [<-|[]]; auto]. cbn [map fold_right fst snd]. rewrite Nx. split; lra. }
  unfold lines2, weight. rewrite Ex. cbn [obind]. destruct (Req_EM_T (s_margin s) 0); do 2 eexists; (split; [reflexivity | exact K]).
Qed.

(** C124: the planes of plot3DwithHyperplane, likewise; they are drawn with or without a margin. *)
Lemma c124_plane : forall (s : solution) (x y z : nat) (wz n : R), NoDup [x; y; z] -> (x < length (s_w s))%nat -> (y < length (s_w s))%nat -> nth_error (s_w s) z = Some wz -> wz <> 0 -> s_norm s = Some n ->
  let d u v t := score (s_w s) (sparse (length (s_w s)) [(x, u); (y, v); (z, t)]) (s_bias s) in
  exists f g h, planes3 s x y z = Ok (f, g, h) /\ (forall u v t, on_plane f u v t <-> d u v t = 0) /\
  (forall u v t, on_plane g u v t <-> d u v t = - (s_margin s * n)) /\ (forall u v t, on_plane h u v t <-> d u v t = s_margin s * n).
Proof.
  intros s x y z wz n ND Lx Ly Ez Nz En d. destruct (nth_error (s_w s) x) as [wx|] eqn:Ex; [|apply nth_error_None in Ex; lia]. destruct (nth_error (s_w s) y) as [wy|] eqn:Ey; [|apply nth_error_None in Ey; lia].
  assert (D : forall u v t, d u v t = wx * u + wy * v + wz * t + s_bias s).
  { intros u v t. unfold d. destruct (nth_ok _ _ _ Ex), (nth_ok _ _ _ Ey), (nth_ok _ _ _ Ez). rewrite score_sparse; auto.
    - cbn [map fold_right fst snd]. rewrite H0, H2, H4. lra.
    - intros iv [<-|[<-|[<-|[]]]]; auto. }
  assert (P : forall b u v t, on_plane (mkPlane (divide (- wx) wz) (divide (- wy) wz) (offset (Some b) wz)) u v t <-> wx * u + wy * v + wz * t + b = 0).
  { intros b u v t. unfold on_plane, offset, divide. cbn [slope_x slope_y height]. destruct (Req_EM_T wz 0); [contradiction|]. destruct (Req_EM_T (- wz) 0); [lra|]. split.
    - intros (p & q & r & H & I & J & K). injection H as <-. injection I as <-. injection J as <-. subst t. field. auto.
    - intros H. do 3 eexists. split; [reflexivity|]. split; [reflexivity|]. split; [reflexivity|]. apply (Rmult_eq_reg_l wz); auto.
      replace (wz * (- wx / wz * u + - wy / wz * v + b / - wz)) with (- wx * u - wy * v - b) by (field; auto). lra. }
  unfold planes3, weight. rewrite Ex, Ey, Ez, En. cbn [obind shifted]. do 3 eexists. split; [reflexivity|]. repeat split; intros H; try apply P; try apply P in H; rewrite D in *; lra.
Qed.
(** C124: a norm that is not a number is not handled there: the planes of the margin are missing. *)
Lemma c124_norm_refuted : forall (s : solution) (x y z : nat), (x < length (s_w s))%nat -> (y < length (s_w s))%nat -> (z < length (s_w s))%nat -> s_norm s = None ->
  exists f g h, planes3 s x y z = Ok (f, g, h) /\ forall u v t, ~ on_plane g u v t /\ ~ on_plane h u v t.
Proof.
  intros s x y z Lx Ly Lz En. unfold planes3, weight. destruct (nth_error (s_w s) x) as [wx|] eqn:Ex; [|apply nth_error_None in Ex; lia]. destruct (nth_error (s_w s) y) as [wy|] eqn:Ey; [|apply nth_error_None in Ey; lia].
  destruct (nth_error (s_w s) z) as [wz|] eqn:Ez; [|apply nth_error_None in Ez; lia]. rewrite En. cbn [obind shifted]. do 3 eexists. split; [reflexivity|].
  intros u v t. split; intros (p & q & r & _ & _ & H & _); discriminate.
Qed.

(** C124: the fitted line of plot1DRegresionHyperplane and the fitted plane of plot2DRegresionHyperplane give the prediction at points whose other features are 0. *)
Lemma c124_fit : forall (s : solution) (x y : nat), (x < length (s_w s))%nat -> (y < length (s_w s))%nat -> x <> y ->
  exists l p, fit1 s x = Ok l /\ fit2 s x y = Ok p /\
  (forall u v, on_line l u v <-> v = score (s_w s) (sparse (length (s_w s)) [(x, u)]) (s_bias s)) /\
  (forall u v t, on_plane p u v t <-> t = score (s_w s) (sparse (length (s_w s)) [(x, u); (y, v)]) (s_bias s)).
Proof.
  intros s x y Lx Ly N. unfold fit1, fit2, weight. destruct (nth_error (s_w s) x) as [wx|] eqn:Ex; [|apply nth_error_None in Ex; lia]. destruct (nth_error (s_w s) y) as [wy|] eqn:Ey; [|apply nth_error_None in Ey; lia].
  destruct (nth_ok _ _ _ Ex), (nth_ok _ _ _ Ey). cbn [obind]. do 2 eexists. split; [reflexivity|]. split; [reflexivity|]. split; intros u v.
  - rewrite score_sparse; [|cbn; repeat constructor; cbn; tauto | intros iv [<-|[]]; auto]. cbn [map fold_right fst snd]. rewrite H0. split.
    + intros (p & q & I & J & K). injection I as <-. injection J as <-. lra.
    + intros ->. do 2 eexists. split; [reflexivity|]. split; [reflexivity|]. lra.
  - intros t. rewrite score_sparse; [|cbn; repeat constructor; cbn; intuition | intros iv [<-|[<-|[]]]; auto]. cbn [map fold_right fst snd]. rewrite H0, H2. split.
    + intros (p & q & r & I & J & K & M). injection I as <-. injection J as <-. injection K as <-. lra.
    + intros ->. do 3 eexists. split; [reflexivity|]. split; [reflexivity|]. split; [reflexivity|]. lra.
Qed.
(** C124: with one feature that is the prediction itself, at any point. *)
Lemma c124_fit_one : forall (s : solution) (a u v : R), s_w s = [a] -> exists l, fit1 s 0 = Ok l /\ (on_line l u v <-> v = score (s_w s) [u] (s_bias s)).
Proof.
  intros s a u v E. unfold fit1, weight. rewrite E. cbn [nth_error obind]. eexists. split; [reflexivity|]. cbn [score]. split.
  - intros (p & q & I & J & K). injection I as <-. injection J as <-. auto.
  - intros ->. do 2 eexists. split; [reflexivity|]. split; reflexivity.
Qed.

(** C124: the points of the regression plots with a plane or a line are the features and the value; in plot1DRegresion the height is the second feature as soon as there are two. *)
Lemma c124_points : forall (A : Type) (f : list A) (v : A) (x y : nat), (x < length f)%nat -> (y < length f)%nat ->
  shown (columns1h (length f) x) (f, v) = [nth_error f x; Some v] /\ shown (columns2 (length f) x y) (f, v) = [nth_error f x; nth_error f y; Some v] /\
  (length f = 1%nat -> shown (columns1 x) (f, v) = [nth_error f x; Some v]).
Proof.
  intros A f v x y Lx Ly. unfold shown, columns1h, columns2, columns1, fields. cbn [map fst snd]. rewrite !Nat.add_sub.
  assert (K : nth_error (f ++ [v]) (length f) = Some v) by (rewrite nth_error_app2, Nat.sub_diag by lia; reflexivity).
  rewrite K. rewrite (nth_error_app1 f [v]) by lia. rewrite (nth_error_app1 f [v]) by lia. split; auto. split; auto. intros L. rewrite L in K. cbn [Nat.sub] in *. rewrite K. reflexivity.
Qed.
Lemma c124_points_refuted : forall (A : Type) (f : list A) (v : A) (x : nat), (x < length f)%nat -> (2 <= length f)%nat -> shown (columns1 x) (f, v) = [nth_error f x; nth_error f 1].
Proof. intros A f v x Lx L. unfold shown, columns1, fields. cbn [map fst snd]. rewrite Nat.add_sub, !(nth_error_app1 f [v]) by (cbn; lia). reflexivity. Qed.

Lemma c124_ex : let s := mkSol [1; 2; 4] 3 1 (Some 2) in (0 < length (s_w s))%nat /\ (1 < length (s_w s))%nat /\ nth_error (s_w s) 1 = Some 2 /\ nth_error (s_w s) 2 = Some 4 /\ NoDup [0; 1; 2]%nat /\
  s_margin s <> 0 /\ score (s_w s) (sparse 3 [(0%nat, 1); (1%nat, -2)]) 3 = 0 /\ nth_error (s_w (mkSol [1; 0] 0 0 None)) 1 = Some 0.
Proof. cbn. repeat split; try lia; try lra; repeat constructor; cbn; intuition; discriminate. Qed.
