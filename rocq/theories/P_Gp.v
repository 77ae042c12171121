(** Property theorems: C128: theorems about the gnuplot session.
    Each is closed by the lemma of the same (lower-case) name in T_Gp.v. *)
From Coq Require Import Ascii String List Bool Arith Lia.
From Verif Require Import Base M_Str M_Gp S_Gp L_Gp.
From Verif Require Import T_Gp.
Import ListNotations.

Theorem C128_find (w s : str) : has w s = true <-> inside w s.
Proof. exact (@c128_find w s). Qed.
Print Assumptions C128_find.

Theorem C128_picture (avail : str -> bool) (term style : str) (l : list call) :
  silent term -> quiet style -> Forall calm l ->
  watch (sent (gp_run avail term style l)) = shown (view_run avail style l) /\ shown (view_run avail style l) <> Failed.
Proof. exact (@c128_picture avail term style l). Qed.
Print Assumptions C128_picture.

Theorem C128_settings (avail : str -> bool) (term style : str) (l : list call) :
  silent term -> quiet style -> Forall calm l ->
  pstyle (gp_run avail term style l) = v_style (view_run avail style l) /\ smooth (gp_run avail term style l) = v_smooth (view_run avail style l).
Proof. exact (@c128_settings avail term style l). Qed.
Print Assumptions C128_settings.

Theorem C128_together (avail : str -> bool) (term style : str) (h cs : list call) (three : bool) (ts : list str) :
  silent term -> quiet style -> Forall calm h -> Forall calm cs -> cs <> [] ->
  map (curve avail (v_style (view_run avail style h)) (v_smooth (view_run avail style h))) cs = map (fun t => Some (three, t)) ts ->
  watch (sent (gp_run avail term style (h ++ ResetPlot :: cs))) = Pic three ts.
Proof. exact (@c128_together avail term style h cs three ts). Qed.
Print Assumptions C128_together.

Theorem C128_multiplot_refuted (avail : str -> bool) (term style : str) (c : call) (t : str) (f : flag) :
  silent term -> quiet style -> f = Multiplot \/ f = NoMultiplot ->
  curve avail (style_of style) [] c = Some (false, t) ->
  watch (sent (gp_run avail term style [Flag f; c])) = Failed.
Proof. exact (@c128_multiplot_refuted avail term style c t f). Qed.
Print Assumptions C128_multiplot_refuted.

Theorem C128_label_refuted (avail : str -> bool) (term style : str) (c : call) (t u : str) (axis : ascii) :
  silent term -> quiet style -> inside t# "plot" u -> quiet u ->
  curve avail (style_of style) [] c = Some (false, t) ->
  watch (sent (gp_run avail term style [Label axis u; c])) = Failed /\ watch (sent (gp_run avail term style [Title u; c])) = Failed.
Proof. exact (@c128_label_refuted avail term style c t u axis). Qed.
Print Assumptions C128_label_refuted.

Theorem C128_replot_refuted (avail : str -> bool) (term style : str) (c1 c2 : call) (t1 t2 : str) (d1 d2 : bool) :
  silent term -> quiet style ->
  curve avail (style_of style) [] c1 = Some (d1, t1) -> curve avail (style_of style) [] c2 = Some (d2, t2) ->
  inside t# "replot" t1 ->
  watch (sent (gp_run avail term style [c1; c2])) = Pic d2 [t2].
Proof. exact (@c128_replot_refuted avail term style c1 c2 t1 t2 d1 d2). Qed.
Print Assumptions C128_replot_refuted.

Theorem C128_splot_refuted (avail : str -> bool) (term style : str) (c1 c2 : call) (t1 t2 : str) (d2 : bool) :
  silent term -> quiet style ->
  curve avail (style_of style) [] c1 = Some (false, t1) -> curve avail (style_of style) [] c2 = Some (d2, t2) ->
  inside t# "splot" t1 -> ~ inside t# "replot" t1 ->
  watch (sent (gp_run avail term style [c1; c2])) = if d2 then Pic false [t1; t2] else Pic false [t2].
Proof. exact (@c128_splot_refuted avail term style c1 c2 t1 t2 d2). Qed.
Print Assumptions C128_splot_refuted.

Example C128_find_ex : has t# "plot" t# "set multiplot" = true /\ has t# "plot" t# "set grid" = false.
Proof. exact c128_find_ex. Qed.

(** Two curves in 2-D, a 3-D one, and a curve of a missing file. *)
Example C128_picture_ex : let l := [Title t# "a"; Equation t# "sin(x)" []; FileX t# "missing" t# "1" []; Style t# "dots"; Slope t# "2" t# "1" t# "s"; Replot] in
  let av := fun f => negb (has t# "missing" f) in
  silent t# "x11" /\ quiet t# "lines" /\ Forall calm l /\
  watch (sent (gp_run av t# "x11" t# "lines" l)) =
    Pic false [t# "sin(x) title ""f(x) = sin(x)"" with lines"; t# "2 * x + 1 title ""s"" with dots"] /\
  watch (sent (gp_run av t# "x11" t# "lines" (l ++ [Equation3d t# "x*y" t# "z"]))) = Pic true [t# "x*y title ""z"" with dots"].
Proof. exact c128_picture_ex. Qed.

Example C128_settings_ex : pstyle (gp_run (fun _ => true) t# "x11" t# "bars" [Smooth t# "bezier"]) = t# "points" /\
  smooth (gp_run (fun _ => true) t# "x11" t# "bars" [Smooth t# "bezier"]) = t# "bezier".
Proof. exact c128_settings_ex. Qed.

Example C128_together_ex : let cs := [FileXY t# "a.dat" t# "1" t# "2" []; Equation t# "x" []] in
  let ts := [t# """a.dat"" using 1:2 notitle with lines"; t# "x title ""f(x) = x"" with lines"] in
  Forall calm cs /\ map (curve (fun _ => true) t# "lines" []) cs = map (fun t => Some (false, t)) ts /\
  watch (sent (gp_run (fun _ => true) t# "x11" t# "lines" ([Equation t# "1" []] ++ ResetPlot :: cs))) = Pic false ts.
Proof. exact c128_together_ex. Qed.

Example C128_multiplot_refuted_ex : curve (fun _ => true) (style_of t# "lines") [] (Equation t# "x" []) = Some (false, t# "x title ""f(x) = x"" with lines").
Proof. exact c128_multiplot_refuted_ex. Qed.

Example C128_label_refuted_ex : inside t# "plot" t# "scatterplot of x" /\ quiet t# "scatterplot of x".
Proof. exact c128_label_refuted_ex. Qed.

Example C128_replot_refuted_ex : exists t, curve (fun _ => true) (style_of t# "lines") [] (FileX t# "replot.dat" t# "1" []) = Some (false, t) /\ inside t# "replot" t.
Proof. exact c128_replot_refuted_ex. Qed.

Example C128_splot_refuted_ex : exists t, curve (fun _ => true) (style_of t# "lines") [] (FileX t# "boxsplot.dat" t# "1" []) = Some (false, t) /\
  inside t# "splot" t /\ ~ inside t# "replot" t.
Proof. exact c128_splot_refuted_ex. Qed.

