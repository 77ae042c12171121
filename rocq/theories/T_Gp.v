(** C128: theorems about the gnuplot session. *)
From Coq Require Import Ascii String List Bool Arith Lia.
From Verif Require Import Base M_Str M_Gp S_Gp L_Gp.
Import ListNotations.

Lemma c128_find (w s : str) : has w s = true <-> inside w s.
Proof. exact (has_spec w s). Qed.

Lemma c128_picture (avail : str -> bool) (term style : str) (l : list call) :
  silent term -> quiet style -> Forall calm l ->
  watch (sent (gp_run avail term style l)) = shown (view_run avail style l) /\ shown (view_run avail style l) <> Failed.
Proof. intros T Q F. destruct (agree_run avail term style l T Q F). split; assumption. Qed.

Lemma c128_settings (avail : str -> bool) (term style : str) (l : list call) :
  silent term -> quiet style -> Forall calm l ->
  pstyle (gp_run avail term style l) = v_style (view_run avail style l) /\ smooth (gp_run avail term style l) = v_smooth (view_run avail style l).
Proof. intros T Q F. destruct (agree_run avail term style l T Q F). split; assumption. Qed.

Lemma join_all (avail : str -> bool) (three : bool) (sty smo : str) (cs : list call) : forall (ts l : list str),
  map (curve avail sty smo) cs = map (fun t => Some (three, t)) ts ->
  shown (fold_left (view_step avail) cs (mkV (Pic three l) true sty smo)) = Pic three (l ++ ts).
Proof.
  induction cs as [|c cs IH]; intros ts l E; destruct ts as [|t ts]; cbn [map] in E; try discriminate.
  - cbn [fold_left shown]. rewrite app_nil_r. reflexivity.
  - injection E as E1 E2. cbn [fold_left].
    rewrite (view_curve avail (mkV (Pic three l) true sty smo) c three t E1).
    unfold joined; cbn [shown joins v_style v_smooth]. rewrite Bool.eqb_reflx. cbn [andb].
    rewrite (IH ts (l ++ [t]) E2), <- app_assoc. reflexivity.
Qed.

Lemma c128_together (avail : str -> bool) (term style : str) (h cs : list call) (three : bool) (ts : list str) :
  silent term -> quiet style -> Forall calm h -> Forall calm cs -> cs <> [] ->
  map (curve avail (v_style (view_run avail style h)) (v_smooth (view_run avail style h))) cs = map (fun t => Some (three, t)) ts ->
  watch (sent (gp_run avail term style (h ++ ResetPlot :: cs))) = Pic three ts.
Proof.
  intros T Q F G N E.
  destruct (c128_picture avail term style (h ++ ResetPlot :: cs) T Q) as [-> _].
  { apply Forall_app. split; [exact F|]. constructor; [exact Logic.I|exact G]. }
  unfold view_run in *. rewrite fold_left_app. cbn [fold_left].
  set (v := fold_left (view_step avail) h (mkV Blank false (style_of style) [])) in *.
  destruct cs as [|c cs]; [congruence|]. destruct ts as [|t ts]; [discriminate|]. cbn [map] in E. injection E as E1 E2.
  cbn [fold_left].
  rewrite (view_curve avail (view_step avail v ResetPlot) c three t E1).
  unfold joined; cbn [view_step shown joins v_style v_smooth andb].
  destruct (shown v); exact (join_all avail three _ _ cs ts [t] E2).
Qed.

Lemma after_curve (avail : str -> bool) (term : str) (g : gp) (c : call) (three : bool) (t : str) :
  curve avail (pstyle g) (smooth g) c = Some (three, t) -> after avail term g c = cmd g ((if three then word3 g else word2 g) ++ t).
Proof. intros E. unfold after. rewrite (step_curve avail term g c three t E). reflexivity. Qed.

Lemma c128_multiplot_refuted (avail : str -> bool) (term style : str) (c : call) (t : str) (f : flag) :
  silent term -> quiet style -> f = Multiplot \/ f = NoMultiplot ->
  curve avail (style_of style) [] c = Some (false, t) ->
  watch (sent (gp_run avail term style [Flag f; c])) = Failed.
Proof.
  intros T Q K E. unfold gp_run. cbn [fold_left].
  destruct (agree_new term style T Q) as [A1 A2 A3 _ _ _ _]. cbn [v_style v_smooth shown] in *.
  set (g := gp_new term style) in *.
  assert (G : after avail term g (Flag f) = mkG true (S (nplots g)) (pstyle g) (smooth g) (sent g ++ [flag_text f])).
  { destruct K as [K|K]; subst f; reflexivity. }
  rewrite G. set (g1 := mkG _ _ _ _ _).
  assert (E' : curve avail (pstyle g1) (smooth g1) c = Some (false, t)) by (cbn [g1 pstyle smooth]; rewrite A1, A2; exact E).
  rewrite (after_curve avail term g1 c false t E').
  change (word2 g1) with t# "replot ". rewrite cmd_replot. cbn [sent g1]. rewrite watch_snoc, watch_snoc, A3.
  destruct K as [K|K]; subst f; reflexivity.
Qed.

Lemma c128_label_refuted (avail : str -> bool) (term style : str) (c : call) (t u : str) (axis : ascii) :
  silent term -> quiet style -> inside t# "plot" u -> quiet u ->
  curve avail (style_of style) [] c = Some (false, t) ->
  watch (sent (gp_run avail term style [Label axis u; c])) = Failed /\ watch (sent (gp_run avail term style [Title u; c])) = Failed.
Proof.
  intros T Q P QU E.
  destruct (agree_new term style T Q) as [A1 A2 A3 _ _ _ _]. cbn [v_style v_smooth shown] in *.
  assert (K : forall x, inside t# "plot" x -> quiet x -> begins t# "se" x = true ->
              watch (sent (after avail term (cmd (gp_new term style) x) c)) = Failed).
  { intros x Px Qx Bx. set (g := gp_new term style) in *.
    assert (G : cmd g x = mkG true (S (nplots g)) (pstyle g) (smooth g) (sent g ++ [x])).
    { unfold cmd. apply quiet_b in Qx. destruct Qx as [Q1 Q2]. rewrite Q1, Q2. apply has_spec in Px. rewrite Px. reflexivity. }
    rewrite G. set (g1 := mkG _ _ _ _ _).
    assert (E' : curve avail (pstyle g1) (smooth g1) c = Some (false, t)) by (cbn [g1 pstyle smooth]; rewrite A1, A2; exact E).
    rewrite (after_curve avail term g1 c false t E').
    change (word2 g1) with t# "replot ". rewrite cmd_replot. cbn [sent g1]. rewrite watch_snoc, watch_snoc, A3.
    apply begins_spec in Bx. destruct Bx as [b ->]. reflexivity. }
  assert (QL : quiet [axis]).
  { apply quiet_b. split; apply has_no; intros (x & y & Z); apply (f_equal (@List.length ascii)) in Z; rewrite !app_length in Z; cbn in Z; lia. }
  assert (Q2 : quiet [axis; "l"%char]).
  { apply quiet_b. split; apply has_no; intros (x & y & Z); apply (f_equal (@List.length ascii)) in Z; rewrite !app_length in Z; cbn in Z; lia. }
  split; unfold gp_run; cbn [fold_left].
  - apply K; [| |reflexivity].
    + apply inside_r, inside_r, inside_r, inside_r, inside_l, P.
    + refine (quiet_sep t# "set" ([axis] ++ t# "label " ++ qt ++ u ++ qt) " "%char _ _ _); [notin|qlit|].
      refine (quiet_sep [axis; "l"%char] (t# "bel " ++ qt ++ u ++ qt) "a"%char _ Q2 _); [notin|].
      refine (quiet_sep t# "bel " (u ++ qt) """"%char _ _ _); [notin|qlit|].
      refine (quiet_sep u [] """"%char _ QU _); [notin|qlit].
  - apply K; [| |reflexivity].
    + apply inside_r, inside_r, inside_l, P.
    + refine (quiet_sep t# "set title " (u ++ qt) """"%char _ _ _); [notin|qlit|].
      refine (quiet_sep u [] """"%char _ QU _); [notin|qlit].
Qed.

Lemma c128_replot_refuted (avail : str -> bool) (term style : str) (c1 c2 : call) (t1 t2 : str) (d1 d2 : bool) :
  silent term -> quiet style ->
  curve avail (style_of style) [] c1 = Some (d1, t1) -> curve avail (style_of style) [] c2 = Some (d2, t2) ->
  inside t# "replot" t1 ->
  watch (sent (gp_run avail term style [c1; c2])) = Pic d2 [t2].
Proof.
  intros T Q E1 E2 P. unfold gp_run. cbn [fold_left].
  assert (N : nplots (gp_new term style) = 0).
  { destruct (agree_new term style T Q) as [_ _ _ _ A5 _ _]. cbn [joins] in A5. destruct (nplots (gp_new term style)); [reflexivity|discriminate]. }
  destruct (agree_new term style T Q) as [A1 A2 A3 _ _ _ _]. cbn [v_style v_smooth shown joins] in *.
  set (g := gp_new term style) in *.
  assert (F1 : curve avail (pstyle g) (smooth g) c1 = Some (d1, t1)) by (rewrite A1, A2; exact E1).
  set (x := (if d1 then t# "splot " else t# "plot ") ++ t1).
  assert (W : after avail term g c1 = cmd g x).
  { rewrite (after_curve avail term g c1 d1 t1 F1). unfold x. destruct d1; unfold word2, word3; rewrite N; reflexivity. }
  rewrite W.
  assert (G : cmd g x = mkG (two_dim g) (nplots g) (pstyle g) (smooth g) (sent g ++ [x])).
  { unfold cmd. assert (H : has t# "replot" x = true) by (apply has_spec; apply inside_r; exact P). rewrite H. reflexivity. }
  rewrite G. set (g1 := mkG _ _ _ _ _).
  assert (F2 : curve avail (pstyle g1) (smooth g1) c2 = Some (d2, t2)) by (cbn [g1 pstyle smooth]; rewrite A1, A2; exact E2).
  assert (W2 : after avail term g1 c2 = cmd g1 ((if d2 then t# "splot " else t# "plot ") ++ t2)).
  { rewrite (after_curve avail term g1 c2 d2 t2 F2). destruct d2; unfold word2, word3; cbn [g1 nplots]; rewrite N; reflexivity. }
  rewrite W2.
  assert (S1 : forall y, sent (cmd g1 y) = sent g ++ [x] ++ [y]).
  { intros y. unfold cmd. destruct (has _ y); [|destruct (has _ y); [|destruct (has _ y)]]; cbn [sent g1]; rewrite <- app_assoc; reflexivity. }
  rewrite S1, app_assoc, watch_snoc, watch_snoc, A3.
  destruct d1, d2; reflexivity.
Qed.

Lemma c128_splot_refuted (avail : str -> bool) (term style : str) (c1 c2 : call) (t1 t2 : str) (d2 : bool) :
  silent term -> quiet style ->
  curve avail (style_of style) [] c1 = Some (false, t1) -> curve avail (style_of style) [] c2 = Some (d2, t2) ->
  inside t# "splot" t1 -> ~ inside t# "replot" t1 ->
  watch (sent (gp_run avail term style [c1; c2])) = if d2 then Pic false [t1; t2] else Pic false [t2].
Proof.
  intros T Q E1 E2 P NP. unfold gp_run. cbn [fold_left].
  assert (N : nplots (gp_new term style) = 0).
  { destruct (agree_new term style T Q) as [_ _ _ _ A5 _ _]. cbn [joins] in A5. destruct (nplots (gp_new term style)); [reflexivity|discriminate]. }
  destruct (agree_new term style T Q) as [A1 A2 A3 _ _ _ _]. cbn [v_style v_smooth shown joins] in *.
  set (g := gp_new term style) in *.
  assert (F1 : curve avail (pstyle g) (smooth g) c1 = Some (false, t1)) by (rewrite A1, A2; exact E1).
  rewrite (after_curve avail term g c1 false t1 F1).
  assert (W : word2 g = t# "plot ") by (unfold word2; rewrite N; reflexivity).
  rewrite W. set (x := t# "plot " ++ t1).
  assert (G : cmd g x = mkG false 1 (pstyle g) (smooth g) (sent g ++ [x])).
  { unfold cmd. assert (H : has t# "splot" x = true) by (apply has_spec; apply inside_r; exact P).
    assert (H2 : has t# "replot" x = false).
    { unfold x. change (t# "plot " ++ t1) with (t# "plot" ++ " "%char :: t1). rewrite has_sep by (try discriminate; notin).
      apply has_no in NP. rewrite NP. reflexivity. }
    rewrite H, H2, N. reflexivity. }
  rewrite G. set (g1 := mkG _ _ _ _ _).
  assert (F2 : curve avail (pstyle g1) (smooth g1) c2 = Some (d2, t2)) by (cbn [g1 pstyle smooth]; rewrite A1, A2; exact E2).
  rewrite (after_curve avail term g1 c2 d2 t2 F2).
  assert (S1 : forall y, sent (cmd g1 y) = sent g ++ [x] ++ [y]).
  { intros y. unfold cmd. destruct (has _ y); [|destruct (has _ y); [|destruct (has _ y)]]; cbn [sent g1]; rewrite <- app_assoc; reflexivity. }
  rewrite S1, app_assoc, watch_snoc, watch_snoc, A3.
  destruct d2; reflexivity.
Qed.

Ltac quietly := first [ exact Logic.I | apply silent_no; vm_compute; reflexivity | apply quiet_lit; vm_compute; reflexivity
                      | split; [quietly|quietly] | discriminate ].
Lemma c128_find_ex : has t# "plot" t# "set multiplot" = true /\ has t# "plot" t# "set grid" = false.
Proof. split; reflexivity. Qed.
(** Two curves in 2-D, a 3-D one, and a curve of a missing file. *)
Lemma c128_picture_ex : let l := [Title t# "a"; Equation t# "sin(x)" []; FileX t# "missing" t# "1" []; Style t# "dots"; Slope t# "2" t# "1" t# "s"; Replot] in
  let av := fun f => negb (has t# "missing" f) in
  silent t# "x11" /\ quiet t# "lines" /\ Forall calm l /\
  watch (sent (gp_run av t# "x11" t# "lines" l)) =
    Pic false [t# "sin(x) title ""f(x) = sin(x)"" with lines"; t# "2 * x + 1 title ""s"" with dots"] /\
  watch (sent (gp_run av t# "x11" t# "lines" (l ++ [Equation3d t# "x*y" t# "z"]))) = Pic true [t# "x*y title ""z"" with dots"].
Proof. cbv zeta. split; [quietly|]. split; [quietly|]. split; [repeat constructor; quietly|]. split; vm_compute; reflexivity. Qed.
Lemma c128_settings_ex : pstyle (gp_run (fun _ => true) t# "x11" t# "bars" [Smooth t# "bezier"]) = t# "points" /\
  smooth (gp_run (fun _ => true) t# "x11" t# "bars" [Smooth t# "bezier"]) = t# "bezier".
Proof. split; vm_compute; reflexivity. Qed.
Lemma c128_together_ex : let cs := [FileXY t# "a.dat" t# "1" t# "2" []; Equation t# "x" []] in
  let ts := [t# """a.dat"" using 1:2 notitle with lines"; t# "x title ""f(x) = x"" with lines"] in
  Forall calm cs /\ map (curve (fun _ => true) t# "lines" []) cs = map (fun t => Some (false, t)) ts /\
  watch (sent (gp_run (fun _ => true) t# "x11" t# "lines" ([Equation t# "1" []] ++ ResetPlot :: cs))) = Pic false ts.
Proof. cbv zeta. split; [repeat constructor; quietly|]. split; vm_compute; reflexivity. Qed.
Lemma c128_multiplot_refuted_ex : curve (fun _ => true) (style_of t# "lines") [] (Equation t# "x" []) = Some (false, t# "x title ""f(x) = x"" with lines").
Proof. vm_compute. reflexivity. Qed.
Lemma c128_label_refuted_ex : inside t# "plot" t# "scatterplot of x" /\ quiet t# "scatterplot of x".
Proof. split; [apply has_spec; reflexivity|quietly]. Qed.
Lemma c128_replot_refuted_ex : exists t, curve (fun _ => true) (style_of t# "lines") [] (FileX t# "replot.dat" t# "1" []) = Some (false, t) /\ inside t# "replot" t.
Proof. exists t# """replot.dat"" using 1 notitle with lines". split; [vm_compute; reflexivity|apply has_spec; reflexivity]. Qed.
Lemma c128_splot_refuted_ex : exists t, curve (fun _ => true) (style_of t# "lines") [] (FileX t# "boxsplot.dat" t# "1" []) = Some (false, t) /\
  inside t# "splot" t /\ ~ inside t# "replot" t.
Proof. exists t# """boxsplot.dat"" using 1 notitle with lines". split; [vm_compute; reflexivity|]. split; [apply has_spec; reflexivity|apply has_no; reflexivity]. Qed.
