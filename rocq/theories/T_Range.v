(** C122: the axis ranges of the plots. C123: the decision surface. *)
From Coq Require Import String ZArith Reals Bool List Arith Sorted Lia Lra.
From Verif Require Import Base M_Data S_Data T_Data L_Vec M_Point L_Point T_Point M_Eq T_Eq M_Range S_Range L_Range.
Import ListNotations.
Local Open Scope R_scope.

Lemma c122_near (tiny huge scale : R) (v : list R) : v <> [] -> (forall x, In x v -> x < huge) -> 0 < tiny -> 1 <= scale ->
  exists lo hi, axis tiny huge scale v = Ok (lo, hi) /\ whole lo /\ whole hi /\ forall x, In x v -> lo - / 2 <= x <= hi + / 2.
Proof.
  intros NE H T S. destruct (axis_val tiny huge scale v NE H) as (mn & mx & E & (_ & L) & _ & B & C). eexists _, _. split; [exact E|].
  split; [apply rnd_whole|]. split; [apply rnd_whole|]. intros x X. specialize (L x X). specialize (C x X).
  destruct (rnd_near (lower scale mn)), (rnd_near (scale * mx)). pose proof (lower_le scale mn S). assert (mx <= scale * mx) by nra. lra.
Qed.
Lemma c122_near_ex : let v := [0.5; 2.25] in v <> [] /\ (forall x, In x v -> x < 1000) /\ 0 < 0.001 /\ 1 <= 1.
Proof. cbv zeta. split; [discriminate|]. split; [|lra]. intros x [<-|[<-|[]]]; lra. Qed.

Lemma c122_whole (tiny huge scale : R) (v : list R) : v <> [] -> (forall x, In x v -> x < huge) -> 0 < tiny < / 2 -> 1 <= scale ->
  (forall x, In x v -> whole x) ->
  exists lo hi, axis tiny huge scale v = Ok (lo, hi) /\ (forall x, In x v -> lo <= x <= hi) /\
  (scale = 1 -> least lo v /\ ((exists x, In x v /\ 0 < x) -> greatest hi v) /\ ((forall x, In x v -> x <= 0) -> hi = 0)).
Proof.
  intros NE H T S W. destruct (axis_val tiny huge scale v NE H) as (mn & mx & E & L & A & B & C). eexists _, _. split; [exact E|]. split.
  - intros x X. destruct (W x X) as (k & ->). split.
    + apply rnd_le. destruct L as (_ & L). specialize (L _ X). pose proof (lower_le scale mn S). lra.
    + apply rnd_ge. specialize (C _ X). nra.
  - intros ->. rewrite lower_one, Rmult_1_l. destruct L as (LI & L). destruct (W _ LI) as (k & ->). rewrite rnd_int. split; [split; auto|].
    assert (POS : In mx v -> rnd mx = mx) by (intros I; destruct (W _ I) as (j & ->); apply rnd_int). split.
    + intros (x & X & P). assert (I : In mx v).
      { destruct A as [A|A]; auto. exfalso. destruct (W x X) as (j & ->). specialize (C _ X). subst mx.
        assert (0 < j)%Z by (apply lt_IZR; lra). assert (IZR 1 <= IZR j) by (apply IZR_le; lia). lra. }
      rewrite POS by auto. split; auto.
    + intros N. destruct A as [->|A]; [|specialize (N _ A); lra]. apply rnd_small. lra.
Qed.
Lemma c122_whole_ex : let v := [-3; 5; 2] in v <> [] /\ (forall x, In x v -> x < 1000) /\ (forall x, In x v -> whole x) /\ exists x, In x v /\ 0 < x.
Proof.
  cbv zeta. split; [discriminate|]. split; [intros x [<-|[<-|[<-|[]]]]; lra|]. split.
  - intros x [<-|[<-|[<-|[]]]]; [exists (-3)%Z|exists 5%Z|exists 2%Z]; reflexivity.
  - exists 5. split; [cbn; auto|lra].
Qed.

Lemma c122_cut_refuted (tiny huge : R) (v : list R) (m : R) (k : Z) : (forall x, In x v -> x < huge) ->
  least m v -> (0 <= k)%Z -> IZR k + / 2 <= m < IZR k + 1 ->
  exists hi, axis tiny huge 1 v = Ok (IZR k + 1, hi) /\ m < IZR k + 1.
Proof.
  intros H L K M. assert (NE : v <> []) by (destruct L as (I & _); intros ->; destruct I).
  destruct (axis_val tiny huge 1 v NE H) as (mn & mx & E & L2 & _). rewrite (least_unique _ _ _ L2 L), lower_one in E. eexists. split; [|lra].
  rewrite E. do 2 f_equal. rewrite <- (plus_IZR k 1). apply rnd_pos; rewrite ?plus_IZR; [|lra]. apply IZR_le in K. lra.
Qed.
Lemma c122_cut_refuted_ex : least 1.75 [3; 1.75] /\ IZR 1 + / 2 <= 1.75 < IZR 1 + 1.
Proof. split; [|lra]. split; [cbn; auto|]. intros x [<-|[<-|[]]]; lra. Qed.

Lemma c122_small_refuted (tiny huge : R) (v : list R) : v <> [] -> 0 < tiny < / 2 -> / 2 <= huge -> (forall x, In x v -> - / 2 < x < / 2) ->
  axis tiny huge 1 v = Ok (0, 0) /\ point_axis tiny huge 1 v = Ok None.
Proof.
  intros NE T HG S. destruct (axis_val tiny huge 1 v NE) as (mn & mx & E & (LI & _) & A & _). { intros x X. specialize (S x X). lra. }
  rewrite lower_one, Rmult_1_l in E. rewrite (rnd_small mn) in E by auto. rewrite (rnd_small mx) in E by (destruct A as [->|A]; [lra|auto]).
  split; auto. unfold point_axis. destruct v; [easy|]. rewrite E. cbn [obind fst snd]. destruct Req_EM_T; [auto|lra].
Qed.
Lemma c122_small_refuted_ex : let v := [0.25; -0.125; 0.4] in v <> [] /\ forall x, In x v -> - / 2 < x < / 2.
Proof. cbv zeta. split; [discriminate|]. intros x [<-|[<-|[<-|[]]]]; lra. Qed.

(** Ranges given from points: set exactly when the ends differ. *)
Lemma c122_points (tiny huge scale : R) (v : list R) : v <> [] -> exists lo hi, axis tiny huge scale v = Ok (lo, hi) /\
  (lo <> hi -> point_axis tiny huge scale v = Ok (Some (lo, hi))) /\ (lo = hi -> point_axis tiny huge scale v = Ok None).
Proof.
  intros NE. unfold point_axis. destruct (pmin_val huge v) as (mn & E1 & _), (pmax_val tiny v) as (mx & E2 & _).
  assert (E : axis tiny huge scale v = Ok (rnd (lower scale mn), rnd (scale * mx))) by (unfold axis; rewrite E1, E2; reflexivity).
  eexists _, _. split; [exact E|]. destruct v; [easy|]. rewrite E. cbn [obind fst snd]. split; intros H; destruct Req_EM_T; easy.
Qed.
Lemma c122_points_ex : [1] <> [] /\ rnd (lower 1 1) = 1.
Proof. split; [discriminate|]. rewrite lower_one. apply (rnd_int 1). Qed.

(** *** C123 *)
Lemma column_values (d : data R) (c : nat) : data_ok d -> (c < d_dim d)%nat -> getFeature d (Z.of_nat c) = Ok (map (fun p => nth c (p_x p) 0) (d_points d)).
Proof.
  intros Hd C. destruct (c101_feature R d (Z.of_nat c) Hd) as (col & E & L & H); [lia|]. rewrite E. f_equal.
  apply nth_ext with (d := 0) (d' := 0); [now rewrite map_length|]. intros i I. rewrite L in I. unfold size in I.
  destruct (nth_error (d_points d) i) as [p|] eqn:P; [|apply nth_error_None in P; lia].
  assert (DL : length (p_x p) = d_dim d) by (apply (ok_dim _ Hd); eapply nth_error_In; eauto).
  specialize (H i p P). rewrite Nat2Z.id in H. rewrite (nth_error_nth' (p_x p) 0) in H by lia.
  rewrite (nth_error_nth _ _ 0 H). symmetry.
  rewrite (nth_indep _ 0 ((fun p => nth c (p_x p) 0) p)) by (rewrite map_length; lia). rewrite (map_nth (fun p => nth c (p_x p) 0) (d_points d) p). now rewrite (nth_error_nth _ _ p P).
Qed.
Lemma axis_total tiny huge scale v : exists lo hi, axis tiny huge scale v = Ok (lo, hi).
Proof.
  destruct (pmin_val huge v) as (mn & E1 & _), (pmax_val tiny v) as (mx & E2 & _). eexists _, _. unfold axis. rewrite E1, E2. reflexivity.
Qed.
Lemma linspace_nth lo hi n i : (i < n)%nat -> nth i (linspace lo hi n) 0 = spaced lo hi n i.
Proof.
  intros I. unfold linspace, spaced. rewrite (nth_indep _ 0 ((fun i => lo + INR i * ((hi - lo) / INR (n - 1))) 0%nat)) by (rewrite map_length, seq_length; auto).
  rewrite (map_nth (fun i => lo + INR i * ((hi - lo) / INR (n - 1)))). now rewrite seq_nth by auto.
Qed.
Lemma grid_nth (f : R -> R -> R * R * R) (xx yy : list R) n : length yy = n ->
  length (flat_map (fun a => map (f a) yy) xx) = (length xx * n)%nat /\
  forall i j, (i < length xx)%nat -> (j < n)%nat -> nth (i * n + j) (flat_map (fun a => map (f a) yy) xx) (0, 0, 0) = f (nth i xx 0) (nth j yy 0).
Proof.
  intros L. induction xx as [|a xx (IH1 & IH2)]; cbn [flat_map length]; [split; auto; intros; lia|]. rewrite app_length, map_length, IH1, L. split; [lia|].
  intros [|i] j I J.
  - rewrite app_nth1 by (rewrite map_length; lia). cbn [Nat.mul Nat.add nth].
    rewrite (nth_indep _ (0, 0, 0) (f a 0)) by (rewrite map_length; lia). apply map_nth.
  - rewrite app_nth2 by (rewrite map_length; lia). rewrite map_length, L. replace (S i * n + j - n)%nat with (i * n + j)%nat by lia. cbn [nth]. apply IH2; lia.
Qed.
Lemma isort_two a b : isort Z.leb [a; b] = (if Z.leb a b then [a; b] else [b; a])%Z.
Proof. cbn. destruct (a <=? b)%Z; reflexivity. Qed.

Lemma c123_surface (tiny huge scale : R) (y0 id0 : Z) (alpha0 : R) (learn : data R -> list R -> R) (d : data R) (x y n : nat) :
  data_ok d -> named_by_position d -> (x < y < d_dim d)%nat ->
  exists sel rows lox hix loy hiy,
    decision_grid tiny huge scale y0 id0 alpha0 learn d x y n = Ok (sel, rows) /\
    axis tiny huge scale (map (fun p => nth x (p_x p) 0) (d_points d)) = Ok (lox, hix) /\
    axis tiny huge scale (map (fun p => nth y (p_x p) 0) (d_points d)) = Ok (loy, hiy) /\
    map p_x (d_points sel) = map (fun p => [nth x (p_x p) 0; nth y (p_x p) 0]) (d_points d) /\
    map p_y (d_points sel) = map p_y (d_points d) /\
    length rows = (n * n)%nat /\
    forall i j, (i < n)%nat -> (j < n)%nat -> nth (i * n + j) rows (0, 0, 0) =
      (spaced lox hix n i, spaced loy hiy n j, learn sel [spaced lox hix n i; spaced loy hiy n j]).
Proof.
  intros Hd NP (XY & YD). destruct (axis_total tiny huge scale (map (fun p => nth x (p_x p) 0) (d_points d))) as (lox & hix & AX).
  destruct (axis_total tiny huge scale (map (fun p => nth y (p_x p) 0) (d_points d))) as (loy & hiy & AY).
  assert (IN : forall c, (c < d_dim d)%nat -> In (Z.of_nat c + 1)%Z (d_fnames d)).
  { intros c C. rewrite NP. replace (Z.of_nat c + 1)%Z with (Z.of_nat (S c)) by lia. apply in_map. apply in_seq. lia. }
  destruct (c07_selectFeatures R y0 id0 alpha0 d [Z.of_nat x + 1; Z.of_nat y + 1]%Z Hd) as (sel & SE & SP & _).
  { discriminate. } { repeat constructor; cbn [In]; [intros [F|[]]; lia|tauto]. } { intros f [<-|[<-|[]]]; apply IN; lia. }
  exists sel. eexists. exists lox, hix, loy, hiy. split; [|split; [exact AX|split; [exact AY|]]].
  - unfold decision_grid. rewrite !column_values by (auto; lia). cbn [obind]. rewrite AX, AY. cbn [obind fst snd]. rewrite SE. reflexivity.
  - split; [|split].
    + rewrite SP, map_map. cbn [p_x]. apply map_ext_in. intros p P. rewrite NP. apply keep_two; [now apply (ok_dim _ Hd)|lia|].
      intros i I. unfold memZ. cbn [existsb]. rewrite orb_false_r.
      f_equal; [destruct (Z.eqb_spec (Z.of_nat i) (Z.of_nat x + 1)), (Nat.eqb_spec i (1 + x))|destruct (Z.eqb_spec (Z.of_nat i) (Z.of_nat y + 1)), (Nat.eqb_spec i (1 + y))]; lia.
    + rewrite SP, map_map. reflexivity.
    + assert (LL : forall a b, length (linspace a b n) = n) by (intros; unfold linspace; now rewrite map_length, seq_length).
      destruct (grid_nth (fun a b => (a, b, learn sel [a; b])) (linspace lox hix n) (linspace loy hiy n) n (LL _ _)) as (G1 & G2).
      rewrite LL in *. split; [exact G1|]. intros i j I J. rewrite (G2 i j I J). now rewrite !linspace_nth by auto.
Qed.

Lemma c123_swapped_refuted (tiny huge scale : R) (y0 id0 : Z) (alpha0 : R) (learn : data R -> list R -> R) (d : data R) (x y n : nat) :
  data_ok d -> named_by_position d -> (y < x < d_dim d)%nat ->
  exists sel rows lox hix loy hiy,
    decision_grid tiny huge scale y0 id0 alpha0 learn d x y n = Ok (sel, rows) /\
    axis tiny huge scale (map (fun p => nth x (p_x p) 0) (d_points d)) = Ok (lox, hix) /\
    axis tiny huge scale (map (fun p => nth y (p_x p) 0) (d_points d)) = Ok (loy, hiy) /\
    map p_x (d_points sel) = map (fun p => [nth y (p_x p) 0; nth x (p_x p) 0]) (d_points d) /\
    forall i j, (i < n)%nat -> (j < n)%nat -> nth (i * n + j) rows (0, 0, 0) =
      (spaced lox hix n i, spaced loy hiy n j, learn sel [spaced lox hix n i; spaced loy hiy n j]).
Proof.
  intros Hd NP (XY & YD). destruct (axis_total tiny huge scale (map (fun p => nth x (p_x p) 0) (d_points d))) as (lox & hix & AX).
  destruct (axis_total tiny huge scale (map (fun p => nth y (p_x p) 0) (d_points d))) as (loy & hiy & AY).
  destruct (c123_surface tiny huge scale y0 id0 alpha0 learn d y x n Hd NP (conj XY YD)) as (sel & rows & a1 & a2 & a3 & a4 & G & _ & _ & P & _).
  assert (SE : selectFeatures y0 id0 alpha0 d [Z.of_nat x + 1; Z.of_nat y + 1]%Z None = Ok sel).
  { unfold decision_grid in G. rewrite !column_values in G by (auto; lia). cbn [obind] in G. rewrite AX, AY in G. cbn [obind fst snd] in G.
    replace (selectFeatures y0 id0 alpha0 d [Z.of_nat x + 1; Z.of_nat y + 1]%Z None) with (selectFeatures y0 id0 alpha0 d [Z.of_nat y + 1; Z.of_nat x + 1]%Z None).
    - destruct (selectFeatures y0 id0 alpha0 d [Z.of_nat y + 1; Z.of_nat x + 1]%Z None); try discriminate. injection G as -> _. reflexivity.
    - unfold selectFeatures. rewrite !isort_two. rewrite (proj2 (Z.leb_le _ _)) by lia. rewrite (proj2 (Z.leb_gt (Z.of_nat x + 1) (Z.of_nat y + 1))) by lia. reflexivity. }
  exists sel. eexists. exists lox, hix, loy, hiy. split; [|split; [exact AX|split; [exact AY|split; [exact P|]]]].
  - unfold decision_grid. rewrite !column_values by (auto; lia). cbn [obind]. rewrite AX, AY. cbn [obind fst snd]. rewrite SE. reflexivity.
  - assert (LL : forall a b, length (linspace a b n) = n) by (intros; unfold linspace; now rewrite map_length, seq_length).
    destruct (grid_nth (fun a b => (a, b, learn sel [a; b])) (linspace lox hix n) (linspace loy hiy n) n (LL _ _)) as (G1 & G2).
    rewrite LL in *. intros i j I J. rewrite (G2 i j I J). now rewrite !linspace_nth by auto.
Qed.

Lemma walk_in fn : forall pos feats l, sf_walk fn pos feats = Some l -> forall f, In f feats -> In f fn.
Proof.
  induction fn as [|g fn IH]; intros pos [|h feats] l H f I; cbn [sf_walk] in H; try (now destruct I); try discriminate.
  destruct (Z.eqb_spec g h) as [->|NE].
  - destruct (sf_walk fn (S pos) feats) eqn:E; try discriminate. destruct I as [<-|I]; [now left|]. right. eauto.
  - right. eauto.
Qed.
Lemma c123_missing_refuted (tiny huge scale : R) (y0 id0 : Z) (alpha0 : R) (learn : data R -> list R -> R) (d : data R) (x y n : nat) :
  data_ok d -> (x < d_dim d)%nat -> (y < d_dim d)%nat -> x = y \/ ~ In (Z.of_nat x + 1)%Z (d_fnames d) \/ ~ In (Z.of_nat y + 1)%Z (d_fnames d) ->
  decision_grid tiny huge scale y0 id0 alpha0 learn d x y n = Abort.
Proof.
  intros Hd X Y H. unfold decision_grid. rewrite !column_values by auto. cbn [obind].
  destruct (axis_total tiny huge scale (map (fun p => nth x (p_x p) 0) (d_points d))) as (lox & hix & ->).
  destruct (axis_total tiny huge scale (map (fun p => nth y (p_x p) 0) (d_points d))) as (loy & hiy & ->). cbn [obind].
  replace (selectFeatures y0 id0 alpha0 d [Z.of_nat x + 1; Z.of_nat y + 1]%Z None) with (@Abort (data R)); auto. symmetry. unfold selectFeatures.
  replace (sf_positions (d_fnames d) (isort Z.leb [Z.of_nat x + 1; Z.of_nat y + 1]%Z)) with (@None (list nat * nat)); auto. symmetry.
  rewrite isort_two. unfold sf_positions. destruct (d_fnames d) as [|g fn] eqn:F; [now destruct (_ <=? _)%Z|]. rewrite <- F in *. clear g fn F.
  assert (W : forall a b, (0 < a)%Z -> (0 < b)%Z -> a = b \/ ~ In a (d_fnames d) \/ ~ In b (d_fnames d) -> sf_walk (d_fnames d) 0 (skipn (sf_zeros [a; b]) [a; b]) = None).
  { intros a b A B C. cbn [sf_zeros]. rewrite (proj2 (Z.ltb_ge a 1)) by lia. cbn [skipn]. destruct (sf_walk (d_fnames d) 0 [a; b]) eqn:E; auto. exfalso.
    pose proof (walk_in _ _ _ _ E) as I. destruct C as [->|[C|C]]; [|apply C, I; cbn; auto|apply C, I; cbn; auto].
    pose proof (ok_sorted _ Hd) as SS. revert E. generalize 0%nat. clear - SS. induction SS as [|g fn SS IH FA]; intros k E; cbn [sf_walk] in E; [discriminate|].
    destruct (Z.eqb_spec g b) as [->|NE]; [|now apply (IH _ E)]. destruct (sf_walk fn (S k) [b]) eqn:E2; try discriminate.
    pose proof (walk_in _ _ _ _ E2 b (or_introl eq_refl)) as I. rewrite Forall_forall in FA. specialize (FA _ I). lia. }
  destruct (_ <=? _)%Z; rewrite W; auto; try lia; destruct H as [->|[H|H]]; auto.
Qed.

Definition square : data R := mkData [mkPoint [1; 5; 2] 1%Z 1%Z 0; mkPoint [3; 7; 4] (-1)%Z 2%Z 0] [1; 2; 3]%Z [0; 1]%Z [EmptyString; EmptyString] [1; -1]%Z [1; 1]%Z 2 3 false false false true.
Lemma square_ok : data_ok square.
Proof.
  constructor; try reflexivity.
  - constructor; try reflexivity.
    + repeat constructor; cbn; intros H; repeat destruct H as [H|H]; try discriminate; auto.
    + intros p [<-|[<-|[]]]; cbn; auto.
    + intros [|[|[|i]]] c H; cbn in H; try discriminate; injection H as <-; reflexivity.
  - intros p [<-|[<-|[]]]; reflexivity.
  - repeat constructor.
  - intros f H. cbn in H. repeat destruct H as [<-|H]; try lia.
  - discriminate.
Qed.
Lemma c123_surface_ex : data_ok square /\ named_by_position square /\ (0 < 2 < d_dim square)%nat.
Proof. split; [exact square_ok|]. split; [reflexivity|cbn; lia]. Qed.
Lemma c123_swapped_refuted_ex : data_ok square /\ named_by_position square /\ (1 < 2 < d_dim square)%nat.
Proof. split; [exact square_ok|]. split; [reflexivity|cbn; lia]. Qed.
Definition tail_square : data R := mkData [mkPoint [5; 2] 1%Z 1%Z 0; mkPoint [7; 4] (-1)%Z 2%Z 0] [2; 3]%Z [0; 1]%Z [EmptyString; EmptyString] [1; -1]%Z [1; 1]%Z 2 2 false false false true.
Lemma c123_missing_refuted_ex : data_ok tail_square /\ (0 < d_dim tail_square)%nat /\ (1 < d_dim tail_square)%nat /\ ~ In (Z.of_nat 0 + 1)%Z (d_fnames tail_square).
Proof.
  split; [|cbn; repeat split; try lia; intros [H|[H|[]]]; discriminate].
  constructor; try reflexivity.
  - constructor; try reflexivity.
    + repeat constructor; cbn; intros H; repeat destruct H as [H|H]; try discriminate; auto.
    + intros p [<-|[<-|[]]]; cbn; auto.
    + intros [|[|[|i]]] c H; cbn in H; try discriminate; injection H as <-; reflexivity.
  - intros p [<-|[<-|[]]]; reflexivity.
  - repeat constructor.
  - intros f H. cbn in H. repeat destruct H as [<-|H]; try lia.
  - discriminate.
Qed.
