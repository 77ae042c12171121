(** C125: a plot is drawn with the settings its call asked for. *)
From Coq Require Import Ascii String List Bool Arith Lia.
From Verif Require Import Base M_Str M_Session S_Session L_Session.
Import ListNotations.

(** C125: with a session per plot, a plot is drawn with exactly what its call asked for, whatever was drawn before, unless the last plot failed. *)
Lemma c125_alone : forall (ops : list sop) (o : options) (y : style) (d : str), settled ops -> failed y = false ->
  exists s c, snd (plot false (srun false ops) o y d) = Some (s, c) /\ draw_part c = d /\ forall k, s k = wanted (terminal ops) o y k.
Proof.
  intros ops o y d S F. destruct (settled_state false ops S) as (N & T). destruct (plot_drawn false _ o y d N F) as (c' & s & l & -> & _ & _ & W & _).
  cbn [snd]. do 2 eexists. split; [reflexivity|]. split; [reflexivity|]. intros k. rewrite W, T. apply or_else_none.
Qed.

(** C125: a decision surface that could not be drawn leaves its ranges for the next plot that has none. *)
Lemma c125_left_refuted : forall (ops : list sop) (o1 o2 : options) (p d d2 : str), settled ops -> o_xr o1 <> [] -> o_xr o2 = [] ->
  let st := srun false (ops ++ [DoPlot o1 (Contour p true) d]) in
  exists s c, snd (plot false st o2 Plain d2) = Some (s, c) /\ s XRange = Some (o_xr o1) /\ wanted (terminal ops) o2 Plain XRange = None.
Proof.
  intros ops o1 o2 p d d2 S N1 N2. cbv zeta. unfold srun. rewrite fold_left_app. fold (srun false ops). cbn [fold_left sstep].
  destruct (settled_state false ops S) as ((Nx & _) & T). remember (srun false ops) as st eqn:Es. clear Es S.
  destruct (plot false (fst (plot false st o1 (Contour p true) d)) o2 Plain d2) as (st', r) eqn:E. unfold plot in E. cbv zeta in E. cbn [fst st_conf st_sess] in E.
  change (configureRange (configurePlot (st_conf st) o1) o1) with (conf_of (st_conf st) o1) in E.
  change (configureRange (configurePlot (conf_of (st_conf st) o1) o2) o2) with (conf_of (conf_of (st_conf st) o1) o2) in E.
  destruct (fetchConfigs (conf_of (conf_of (st_conf st) o1) o2)) as (l, c2) eqn:E2. injection E as <- <-. cbn [snd]. do 2 eexists. split; [reflexivity|].
  assert (l = fst (fetchConfigs (conf_of (conf_of (st_conf st) o1) o2))) as -> by now rewrite E2. rewrite fetch_asked. cbn [asked wanted]. unfold conf_of, configureRange, configurePlot. cbn [c_xr]. rewrite Nx, N2.
  split; [|reflexivity]. destruct (o_xr o1); [congruence | reflexivity].
Qed.

(** C125: setTitle has no effect on any later plot. *)
Lemma c125_title_refuted : forall (sh : bool) (ops : list sop) (t : str) (o : options) (y : style) (d : str),
  snd (plot sh (srun sh (ops ++ [DoTitle t])) o y d) = snd (plot sh (srun sh ops) o y d).
Proof. intros. unfold srun. rewrite fold_left_app. fold (srun sh ops). cbn [fold_left sstep]. unfold plot. cbv zeta. now destruct y as [| | |p [|]]. Qed.

(** C125: with a shared session a plot is drawn, for each setting, with the last value any plot up to it asked for. *)
Lemma c125_shared : forall (ops : list sop) (o : options) (y : style) (d : str), all_drawn (ops ++ [DoPlot o y d]) ->
  exists s c, snd (plot true (srun true ops) o y d) = Some (s, c) /\ draw_part c = d /\ forall k, s k = latest (ops ++ [DoPlot o y d]) k.
Proof.
  intros ops o y d A. assert (A1 : all_drawn ops) by (intros o' y' d' I; apply (A o' y' d'); apply in_or_app; auto).
  assert (F : failed y = false) by (apply (A o y d); apply in_or_app; right; now left).
  destruct (settled_state true ops) as (N & T); [apply all_settled; auto|]. destruct (plot_drawn true _ o y d N F) as (c' & s & l & -> & _ & _ & W & _).
  cbn [snd]. do 2 eexists. split; [reflexivity|]. split; [reflexivity|]. intros k. rewrite W, T. unfold latest. rewrite latest_app. f_equal.
  unfold srun. rewrite shared_session; auto. cbn. unfold no_ranges. auto.
Qed.

(** C125: so a shared session draws what the call asked for if it gives every setting, or if nothing before gave the ones it leaves out. *)
Lemma c125_shared_full : forall (ops : list sop) (o : options) (y : style) (d : str), all_drawn (ops ++ [DoPlot o y d]) ->
  (forall k, wanted (terminal ops) o y k = None -> latest ops k = None) ->
  exists s c, snd (plot true (srun true ops) o y d) = Some (s, c) /\ forall k, s k = wanted (terminal ops) o y k.
Proof.
  intros ops o y d A H. destruct (c125_shared ops o y d A) as (s & c & E & _ & W). exists s, c. split; auto. intros k. rewrite W. unfold latest. rewrite latest_app.
  fold (latest ops k). fold (terminal ops). destruct (wanted (terminal ops) o y k) eqn:K; auto. cbn [or_else]. now apply H.
Qed.

(** C125: in a shared session a title, a range, the output file or the map of a decision surface stays for the plots after it that do not set their own. *)
Lemma c125_stays_refuted : forall (ops : list sop) (o1 o2 : options) (y1 y2 : style) (d1 d2 : str) (k : key) (v : str), all_drawn (ops ++ [DoPlot o1 y1 d1]) -> failed y2 = false ->
  wanted (terminal ops) o1 y1 k = Some v -> wanted (terminal ops) o2 y2 k = None ->
  exists s c, snd (plot true (srun true (ops ++ [DoPlot o1 y1 d1])) o2 y2 d2) = Some (s, c) /\ s k = Some v.
Proof.
  intros ops o1 o2 y1 y2 d1 d2 k v A F W1 W2. destruct (c125_shared (ops ++ [DoPlot o1 y1 d1]) o2 y2 d2) as (s & c & E & _ & W).
  - intros o' y' d' I. apply in_app_or in I. destruct I as [I|[I|[]]]; [apply (A o' y' d' I) | injection I as <- <- <-; auto].
  - exists s, c. split; auto. rewrite W. unfold latest. rewrite !latest_app.
    assert (T : forall t l o y d, terminal_from t (l ++ [DoPlot o y d]) = terminal_from t l).
    { intros t l. revert t. induction l as [|[]]; intros; cbn [app terminal_from]; auto. }
    rewrite T. fold (terminal ops). now rewrite W2, W1.
Qed.

(** C125: the script a plot returns shows, in a gnuplot of its own, what the call asked for; but plot3DwithHyperplane returns one without any setting. *)
Lemma c125_script : forall (sh : bool) (ops : list sop) (o : options) (y : style) (d : str), settled ops -> failed y = false -> y <> Bare ->
  exists s c, snd (plot sh (srun sh ops) o y d) = Some (s, c) /\ draw_part c = d /\ forall k, replay c k = wanted (terminal ops) o y k.
Proof.
  intros sh ops o y d S F B. destruct (settled_state sh ops S) as (N & T). destruct (plot_drawn sh _ o y d N F) as (c' & s & l & -> & _ & _ & _ & R & _).
  cbn [snd]. do 2 eexists. split; [reflexivity|]. split; [reflexivity|]. intros k. specialize (R B (fun _ => None) k). rewrite or_else_none, T in R. exact R.
Qed.
Lemma c125_script_refuted : forall (sh : bool) (ops : list sop) (o : options) (d : str), settled ops ->
  exists s c, snd (plot sh (srun sh ops) o Bare d) = Some (s, c) /\ (forall k, replay c k = None) /\ exists v, s Terminal = Some v.
Proof.
  intros sh ops o d S. destruct (settled_state sh ops S) as (N & T). destruct (plot_drawn sh _ o Bare d N eq_refl) as (c' & s & l & -> & _ & _ & W & _ & R).
  rewrite (R eq_refl). cbn [snd]. do 2 eexists. split; [reflexivity|]. split; [reflexivity|]. rewrite W. cbn [wanted or_else]. eauto.
Qed.

Lemma app_eq_len (a a' b b' : str) : length a = length a' -> a ++ b = a' ++ b' -> a = a' /\ b = b'.
Proof. revert a'. induction a as [|c a IH]; intros [|c' a'] L E; cbn in *; try discriminate; auto. injection E as -> E. injection L as L. destruct (IH a' L E) as (-> & ->). auto. Qed.

(** C125: the statements of a returned script are on lines of their own exactly if none of them has a semicolon in it (in a title, say). *)
Lemma c125_lines : forall ss : list str, prepareScript (joined ";" ss) = joined (ascii_of_nat 10) ss <-> forall s, In s ss -> ~ In ";"%char s.
Proof.
  assert (One : forall s : str, prepareScript s = s <-> ~ In ";"%char s).
  { unfold prepareScript, str. induction s as [|c r IH]; cbn [map In]; [tauto|]. destruct (Ascii.eqb_spec c ";") as [Ec|Nc].
    - subst c. split; [intros H; discriminate | tauto].
    - split; [intros H; injection H as H; intros [Ec|I]; [auto | apply IH in H; auto] | intros H; f_equal; apply IH; auto]. }
  induction ss as [|s r IH]; [cbn; tauto|].
  assert (C : forall s r', prepareScript (s ++ ";"%char :: r') = prepareScript s ++ ascii_of_nat 10 :: prepareScript r') by (intros; unfold prepareScript, str; rewrite map_app; reflexivity).
  destruct r as [|s' r'].
  - cbn [joined]. rewrite One. split; [intros H x [<-|[]]; auto | intros H; apply H; now left].
  - cbn [joined] in *. rewrite C. split.
    + intros E. assert (K : prepareScript s = s /\ ascii_of_nat 10 :: prepareScript (joined ";" (s' :: r')) = ascii_of_nat 10 :: joined (ascii_of_nat 10) (s' :: r')).
      { apply app_eq_len; [unfold prepareScript; now rewrite map_length | exact E]. }
      destruct K as (K1 & K2). injection K2 as K2. intros x [<-|I]; [now apply One | now apply IH].
    + intros H. f_equal; [apply One, H; now left|]. f_equal. apply IH. intros x I. apply H. now right.
Qed.

Definition blank : options := mkO false [] [] [] [] [] [] [] [] [].
Definition text (s : string) : str := list_ascii_of_string s.
(** Saved with a title, then on the screen without one; a decision surface before. *)
Lemma c125_ex : let o1 := mkO true (text "a") (text "png") (text "A; b") (text "x") (text "y") [] (text "[0:1]") [] [] in
  let ops := [DoTerminal (text "qt"); DoPlot blank Plain (text "plot"); DoPlot o1 (Contour (text "map") false) (text "splot")] in
  settled ops /\ all_drawn ops /\ terminal ops = text "qt" /\ wanted (text "qt") o1 (Contour (text "map") false) Output = Some (text "a.png") /\
  wanted (text "qt") blank Plain Output = None /\ latest ops Title = Some (text "A; b") /\ o_xr o1 <> [] /\ o_xr blank = [].
Proof.
  cbn zeta. repeat split; try reflexivity; try discriminate. intros o y d [H|[H|[H|[]]]]; try discriminate; injection H as <- <- <-; reflexivity.
Qed.
Lemma c125_lines_ex : prepareScript (joined ";" [text "set title 'a'"; text "plot f"]) = text "set title 'a'
plot f" /\ In ";"%char (text "set title 'A; b'").
Proof. split; [reflexivity | cbn; tauto]. Qed.
Lemma c125_shared_full_ex : all_drawn [DoPlot blank Plain []] /\ forall k, wanted (terminal []) blank Plain k = None -> latest [] k = None.
Proof. split; [intros o y d [H|[]]; injection H as <- <- <-; reflexivity | reflexivity]. Qed.
