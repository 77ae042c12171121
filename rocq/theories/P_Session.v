(** Property theorems: C125: a plot is drawn with the settings its call asked for.
    Each is closed by the lemma of the same (lower-case) name in T_Session.v. *)
From Coq Require Import Ascii String List Bool Arith Lia.
From Verif Require Import Base M_Str M_Session S_Session L_Session.
From Verif Require Import T_Session.
Import ListNotations.

(** C125: with a session per plot, a plot is drawn with exactly what its call asked for, whatever was drawn before, unless the last plot failed. *)
Theorem C125_alone : forall (ops : list sop) (o : options) (y : style) (d : str), settled ops -> failed y = false ->
  exists s c, snd (plot false (srun false ops) o y d) = Some (s, c) /\ draw_part c = d /\ forall k, s k = wanted (terminal ops) o y k.
Proof. exact c125_alone. Qed.
Print Assumptions C125_alone.

(** C125: a decision surface that could not be drawn leaves its ranges for the next plot that has none. *)
Theorem C125_left_refuted : forall (ops : list sop) (o1 o2 : options) (p d d2 : str), settled ops -> o_xr o1 <> [] -> o_xr o2 = [] ->
  let st := srun false (ops ++ [DoPlot o1 (Contour p true) d]) in
  exists s c, snd (plot false st o2 Plain d2) = Some (s, c) /\ s XRange = Some (o_xr o1) /\ wanted (terminal ops) o2 Plain XRange = None.
Proof. exact c125_left_refuted. Qed.
Print Assumptions C125_left_refuted.

(** C125: setTitle has no effect on any later plot. *)
Theorem C125_title_refuted : forall (sh : bool) (ops : list sop) (t : str) (o : options) (y : style) (d : str),
  snd (plot sh (srun sh (ops ++ [DoTitle t])) o y d) = snd (plot sh (srun sh ops) o y d).
Proof. exact c125_title_refuted. Qed.
Print Assumptions C125_title_refuted.

(** C125: with a shared session a plot is drawn, for each setting, with the last value any plot up to it asked for. *)
Theorem C125_shared : forall (ops : list sop) (o : options) (y : style) (d : str), all_drawn (ops ++ [DoPlot o y d]) ->
  exists s c, snd (plot true (srun true ops) o y d) = Some (s, c) /\ draw_part c = d /\ forall k, s k = latest (ops ++ [DoPlot o y d]) k.
Proof. exact c125_shared. Qed.
Print Assumptions C125_shared.

(** C125: so a shared session draws what the call asked for if it gives every setting, or if nothing before gave the ones it leaves out. *)
Theorem C125_shared_full : forall (ops : list sop) (o : options) (y : style) (d : str), all_drawn (ops ++ [DoPlot o y d]) ->
  (forall k, wanted (terminal ops) o y k = None -> latest ops k = None) ->
  exists s c, snd (plot true (srun true ops) o y d) = Some (s, c) /\ forall k, s k = wanted (terminal ops) o y k.
Proof. exact c125_shared_full. Qed.
Print Assumptions C125_shared_full.

(** C125: in a shared session a title, a range, the output file or the map of a decision surface stays for the plots after it that do not set their own. *)
Theorem C125_stays_refuted : forall (ops : list sop) (o1 o2 : options) (y1 y2 : style) (d1 d2 : str) (k : key) (v : str), all_drawn (ops ++ [DoPlot o1 y1 d1]) -> failed y2 = false ->
  wanted (terminal ops) o1 y1 k = Some v -> wanted (terminal ops) o2 y2 k = None ->
  exists s c, snd (plot true (srun true (ops ++ [DoPlot o1 y1 d1])) o2 y2 d2) = Some (s, c) /\ s k = Some v.
Proof. exact c125_stays_refuted. Qed.
Print Assumptions C125_stays_refuted.

(** C125: the script a plot returns shows, in a gnuplot of its own, what the call asked for; but plot3DwithHyperplane returns one without any setting. *)
Theorem C125_script : forall (sh : bool) (ops : list sop) (o : options) (y : style) (d : str), settled ops -> failed y = false -> y <> Bare ->
  exists s c, snd (plot sh (srun sh ops) o y d) = Some (s, c) /\ draw_part c = d /\ forall k, replay c k = wanted (terminal ops) o y k.
Proof. exact c125_script. Qed.
Print Assumptions C125_script.

Theorem C125_script_refuted : forall (sh : bool) (ops : list sop) (o : options) (d : str), settled ops ->
  exists s c, snd (plot sh (srun sh ops) o Bare d) = Some (s, c) /\ (forall k, replay c k = None) /\ exists v, s Terminal = Some v.
Proof. exact c125_script_refuted. Qed.
Print Assumptions C125_script_refuted.

(** C125: the statements of a returned script are on lines of their own exactly if none of them has a semicolon in it (in a title, say). *)
Theorem C125_lines : forall ss : list str, prepareScript (joined ";" ss) = joined (ascii_of_nat 10) ss <-> forall s, In s ss -> ~ In ";"%char s.
Proof. exact c125_lines. Qed.
Print Assumptions C125_lines.

(** Saved with a title, then on the screen without one; a decision surface before. *)
Example C125_ex : let o1 := mkO true (text "a") (text "png") (text "A; b") (text "x") (text "y") [] (text "[0:1]") [] [] in
  let ops := [DoTerminal (text "qt"); DoPlot blank Plain (text "plot"); DoPlot o1 (Contour (text "map") false) (text "splot")] in
  settled ops /\ all_drawn ops /\ terminal ops = text "qt" /\ wanted (text "qt") o1 (Contour (text "map") false) Output = Some (text "a.png") /\
  wanted (text "qt") blank Plain Output = None /\ latest ops Title = Some (text "A; b") /\ o_xr o1 <> [] /\ o_xr blank = [].
Proof. exact c125_ex. Qed.

Example C125_lines_ex : prepareScript (joined ";" [text "set title 'a'"; text "plot f"]) = text "set title 'a'
plot f" /\ In ";"%char (text "set title 'A; b'").
Proof. exact c125_lines_ex. Qed.

Example C125_shared_full_ex : all_drawn [DoPlot blank Plain []] /\ forall k, wanted (terminal []) blank Plain k = None -> latest [] k = None.
Proof. exact c125_shared_full_ex. Qed.

