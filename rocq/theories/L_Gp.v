(** Lemmas about the gnuplot session. *)
From Coq Require Import Ascii String List Bool Arith Lia.
From Verif Require Import Base M_Str M_Gp S_Gp.
Import ListNotations.

Lemma begins_spec (w s : str) : begins w s = true <-> exists b, s = w ++ b.
Proof.
  revert s; induction w as [|a w IH]; intros s; cbn [begins].
  - split; [intros _; exists s; reflexivity|reflexivity].
  - destruct s as [|b s]; [split; [discriminate|intros [b E]; discriminate]|].
    rewrite andb_true_iff, Ascii.eqb_eq, IH. split.
    + intros [-> [c ->]]. exists c; reflexivity.
    + intros [c E]. injection E as -> ->. split; [reflexivity|exists c; reflexivity].
Qed.
Lemma has_spec (w s : str) : has w s = true <-> inside w s.
Proof.
  induction s as [|x s IH]; cbn [has].
  - rewrite orb_false_r, begins_spec. split.
    + intros [b E]. exists [], b; exact E.
    + intros (a & b & E). destruct a; [exists b; exact E|discriminate].
  - rewrite orb_true_iff, begins_spec, IH. split.
    + intros [[b E] | (a & b & E)]; [exists [], b; exact E|].
      exists (x :: a), b. rewrite E. reflexivity.
    + intros (a & b & E). destruct a as [|y a]; [left; exists b; exact E|].
      right. injection E as _ ->. exists a, b; reflexivity.
Qed.
Lemma has_no (w s : str) : ~ inside w s <-> has w s = false.
Proof. rewrite <- has_spec. destruct (has w s); split; congruence. Qed.

Lemma inside_sep (w : str) (c : ascii) (a b : str) :
  w <> [] -> ~ In c w -> inside w (a ++ c :: b) -> inside w a \/ inside w b.
Proof.
  intros N NC (x & y & E). apply app_eq_app in E.
  destruct E as [l [[E1 E2] | [E1 E2]]].
  - (* a = x ++ l *) apply app_eq_app in E2. destruct E2 as [m [[F1 F2] | [F1 F2]]].
    + (* w = l ++ m *)
      destruct m as [|z m].
      * rewrite app_nil_r in F1. left. exists x, []. rewrite app_nil_r. rewrite E1, F1. reflexivity.
      * injection F2 as -> _. exfalso. apply NC. rewrite F1. apply in_or_app. right. left. reflexivity.
    + left. exists x, m. rewrite E1, F1. reflexivity.
  - (* x = a ++ l *) destruct l as [|z l].
    + destruct w as [|w0 w]; [congruence|]. injection E2 as -> _. exfalso. apply NC. left. reflexivity.
    + injection E2 as _ ->. right. exists l, y. reflexivity.
Qed.
Lemma inside_l (w a b : str) : inside w a -> inside w (a ++ b).
Proof. intros (x & y & ->). exists x, (y ++ b). rewrite !app_assoc. reflexivity. Qed.
Lemma inside_r (w a b : str) : inside w b -> inside w (a ++ b).
Proof. intros (x & y & ->). exists (a ++ x), y. rewrite !app_assoc. reflexivity. Qed.
Lemma has_sep (w : str) (c : ascii) (a b : str) :
  w <> [] -> ~ In c w -> has w (a ++ c :: b) = has w a || has w b.
Proof.
  intros N NC. apply eq_true_iff_eq. rewrite orb_true_iff, !has_spec. split.
  - apply inside_sep; assumption.
  - intros [H|H]; [apply inside_l; exact H|apply inside_r; destruct H as (x & y & ->); exists (c :: x), y; reflexivity].
Qed.

Lemma silent_all (t : str) : silent t -> has t# "plot" t = false /\ has t# "splot" t = false /\ has t# "replot" t = false.
Proof.
  intros H. split; [apply has_no; exact H|].
  split; apply has_no; intros (a & b & E); apply H.
  - exists (a ++ t# "s"), b. rewrite E, <- app_assoc. reflexivity.
  - exists (a ++ t# "re"), b. rewrite E, <- app_assoc. reflexivity.
Qed.
Lemma silent_no (t : str) : has t# "plot" t = false -> silent t.
Proof. intros H. apply has_no. exact H. Qed.
Lemma quiet_b (t : str) : quiet t <-> has t# "splot" t = false /\ has t# "replot" t = false.
Proof. unfold quiet. rewrite !has_no. reflexivity. Qed.

Lemma strip_begins (w s : str) : begins w s = false -> strip w s = None.
Proof.
  revert s; induction w as [|a w IH]; intros s; cbn [begins strip]; [discriminate|].
  destruct s as [|b s]; [reflexivity|]. destruct (Ascii.eqb a b); [|reflexivity]. cbn [andb]. apply IH.
Qed.
Lemma has_begins (w s : str) : has w s = false -> begins w s = false.
Proof. destruct s; cbn [has]; intros H; apply orb_false_iff in H; apply H. Qed.
Lemma begins_app (w v s : str) : begins w s = false -> begins (w ++ v) s = false.
Proof.
  revert s; induction w as [|a w IH]; intros s; cbn [begins app]; [discriminate|].
  destruct s as [|b s]; [reflexivity|]. destruct (Ascii.eqb a b); [|reflexivity]. cbn [andb]. apply IH.
Qed.
Lemma strip_app (w s : str) : strip w (w ++ s) = Some s.
Proof. induction w as [|a w IH]; cbn [strip app]; [reflexivity|]. rewrite Ascii.eqb_refl. exact IH. Qed.

Lemma draw_silent (s : screen) (t : str) : silent t -> draw s t = s.
Proof.
  intros H. destruct (silent_all t H) as (H1 & H2 & H3). unfold draw.
  rewrite (strip_begins t# "plot " t (begins_app t# "plot" t# " " t (has_begins _ _ H1))).
  rewrite (strip_begins t# "splot " t (begins_app t# "splot" t# " " t (has_begins _ _ H2))).
  rewrite (strip_begins t# "replot" t (has_begins _ _ H3)). reflexivity.
Qed.
Lemma cmd_silent (g : gp) (t : str) : silent t -> cmd g t = mkG (two_dim g) (nplots g) (pstyle g) (smooth g) (sent g ++ [t]).
Proof.
  intros H. destruct (silent_all t H) as (H1 & H2 & H3). unfold cmd. rewrite H1, H2, H3. reflexivity.
Qed.
Lemma watch_snoc (l : list str) (t : str) : watch (l ++ [t]) = draw (watch l) t.
Proof. unfold watch. rewrite fold_left_app. reflexivity. Qed.

(** The session and the caller's view agree. *)
Record agree (g : gp) (v : view) : Prop := mkA {
  ag_style : pstyle g = v_style v;
  ag_smooth : smooth g = v_smooth v;
  ag_shown : watch (sent g) = shown v;
  ag_ok : shown v <> Failed;
  ag_joins : (0 <? nplots g) = joins v;
  ag_dim : joins v = true -> exists l, shown v = Pic (negb (two_dim g)) l;
  ag_quiet : quiet (pstyle g) /\ quiet (smooth g) }.

Lemma agree_silent (g : gp) (v : view) (t : str) : agree g v -> silent t -> agree (cmd g t) v.
Proof.
  intros [A1 A2 A3 A4 A5 A6 A7] H. rewrite cmd_silent by exact H.
  constructor; cbn [two_dim nplots pstyle smooth sent]; try assumption.
  rewrite watch_snoc, draw_silent by exact H. exact A3.
Qed.

Lemma has_plot2 (t : str) : quiet t -> has t# "replot" (t# "plot " ++ t) = false /\ has t# "splot" (t# "plot " ++ t) = false.
Proof.
  intros H. apply quiet_b in H. destruct H as [H1 H2].
  change (t# "plot " ++ t) with (t# "plot" ++ " "%char :: t).
  rewrite !has_sep by (try discriminate; cbn; intuition discriminate). rewrite H1, H2. split; reflexivity.
Qed.
Lemma has_plot3 (t : str) : quiet t -> has t# "replot" (t# "splot " ++ t) = false.
Proof.
  intros H. apply quiet_b in H. destruct H as [H1 H2].
  change (t# "splot " ++ t) with (t# "splot" ++ " "%char :: t).
  rewrite !has_sep by (try discriminate; cbn; intuition discriminate). rewrite H2. reflexivity.
Qed.
Lemma has_intro (w a b : str) : has w (w ++ b) = true.
Proof. apply has_spec. exists [], b. reflexivity. Qed.

Lemma cmd_plot2 (g : gp) (t : str) : quiet t ->
  cmd g (t# "plot " ++ t) = mkG true (S (nplots g)) (pstyle g) (smooth g) (sent g ++ [t# "plot " ++ t]).
Proof. intros H. destruct (has_plot2 t H) as [H1 H2]. unfold cmd. rewrite H1, H2. reflexivity. Qed.
Lemma cmd_plot3 (g : gp) (t : str) : quiet t ->
  cmd g (t# "splot " ++ t) = mkG false (S (nplots g)) (pstyle g) (smooth g) (sent g ++ [t# "splot " ++ t]).
Proof. intros H. unfold cmd. rewrite (has_plot3 t H). reflexivity. Qed.
Lemma cmd_replot (g : gp) (t : str) :
  cmd g (t# "replot " ++ t) = mkG (two_dim g) (nplots g) (pstyle g) (smooth g) (sent g ++ [t# "replot " ++ t]).
Proof. reflexivity. Qed.

Lemma draw_plot2 (s : screen) (t : str) : s <> Failed -> draw s (t# "plot " ++ t) = Pic false [t].
Proof. intros H. destruct s; [reflexivity|reflexivity|congruence]. Qed.
Lemma draw_plot3 (s : screen) (t : str) : s <> Failed -> draw s (t# "splot " ++ t) = Pic true [t].
Proof. intros H. destruct s; [reflexivity|reflexivity|congruence]. Qed.
Lemma draw_replot (d : bool) (l : list str) (t : str) : draw (Pic d l) (t# "replot " ++ t) = Pic d (l ++ [t]).
Proof. reflexivity. Qed.

(** What a curve does to the view. *)
Definition joined (v : view) (three : bool) (t : str) : view :=
  mkV (match shown v with
       | Pic d l => if joins v && Bool.eqb d three then Pic three (l ++ [t]) else Pic three [t]
       | _ => Pic three [t]
       end) true (v_style v) (v_smooth v).

Lemma agree_curve2 (g : gp) (v : view) (t : str) : agree g v -> quiet t -> agree (cmd g (word2 g ++ t)) (joined v false t).
Proof.
  intros [A1 A2 A3 A4 A5 A6 A7] H. unfold word2, joined. rewrite A5.
  destruct (joins v) eqn:J; cbn [andb].
  - destruct (A6 eq_refl) as [l L]. rewrite L. destruct (two_dim g) eqn:D; cbn [negb Bool.eqb].
    + rewrite cmd_replot. constructor; cbn [two_dim nplots pstyle smooth sent shown joins v_style v_smooth]; try assumption; try discriminate.
      * rewrite watch_snoc, A3, L. cbn [negb]. apply draw_replot.
      * rewrite D. intros _. exists (l ++ [t]). reflexivity.
    + rewrite cmd_plot2 by exact H. constructor; cbn [two_dim nplots pstyle smooth sent shown joins v_style v_smooth]; try assumption; try discriminate.
      * rewrite watch_snoc, A3. apply draw_plot2. exact A4.
      * reflexivity.
      * intros _. exists [t]. reflexivity.
  - assert (E : match shown v with Pic _ _ => Pic false [t] | _ => Pic false [t] end = Pic false [t]) by (destruct (shown v); reflexivity).
    rewrite E, cmd_plot2 by exact H.
    constructor; cbn [two_dim nplots pstyle smooth sent shown joins v_style v_smooth]; try assumption; try discriminate.
    + rewrite watch_snoc, A3. apply draw_plot2. exact A4.
    + reflexivity.
    + intros _. exists [t]. reflexivity.
Qed.
Lemma agree_curve3 (g : gp) (v : view) (t : str) : agree g v -> quiet t -> agree (cmd g (word3 g ++ t)) (joined v true t).
Proof.
  intros [A1 A2 A3 A4 A5 A6 A7] H. unfold word3, joined. rewrite A5.
  destruct (joins v) eqn:J; cbn [andb].
  - destruct (A6 eq_refl) as [l L]. rewrite L. destruct (two_dim g) eqn:D; cbn [negb Bool.eqb].
    + rewrite cmd_plot3 by exact H. constructor; cbn [two_dim nplots pstyle smooth sent shown joins v_style v_smooth]; try assumption; try discriminate.
      * rewrite watch_snoc, A3. apply draw_plot3. exact A4.
      * reflexivity.
      * intros _. exists [t]. reflexivity.
    + rewrite cmd_replot. constructor; cbn [two_dim nplots pstyle smooth sent shown joins v_style v_smooth]; try assumption; try discriminate.
      * rewrite watch_snoc, A3, L. cbn [negb]. apply draw_replot.
      * rewrite D. intros _. exists (l ++ [t]). reflexivity.
  - assert (E : match shown v with Pic _ _ => Pic true [t] | _ => Pic true [t] end = Pic true [t]) by (destruct (shown v); reflexivity).
    rewrite E, cmd_plot3 by exact H.
    constructor; cbn [two_dim nplots pstyle smooth sent shown joins v_style v_smooth]; try assumption; try discriminate.
    + rewrite watch_snoc, A3. apply draw_plot3. exact A4.
    + reflexivity.
    + intros _. exists [t]. reflexivity.
Qed.

(** Texts made of parts separated by characters of none of the words. *)
Lemma quiet_sep (a b : str) (c : ascii) : ~ In c t# "replots" -> quiet a -> quiet b -> quiet (a ++ c :: b).
Proof.
  intros N A B. apply quiet_b in A, B. apply quiet_b. destruct A as [A1 A2], B as [B1 B2].
  assert (N1 : ~ In c t# "splot") by (intros H; apply N; cbn in *; intuition).
  assert (N2 : ~ In c t# "replot") by (intros H; apply N; cbn in *; intuition).
  rewrite !has_sep by (try discriminate; assumption). rewrite A1, A2, B1, B2. split; reflexivity.
Qed.
Lemma silent_sep (a b : str) (c : ascii) : ~ In c t# "plot" -> silent a -> silent b -> silent (a ++ c :: b).
Proof.
  intros N A B. apply silent_no. unfold silent in A, B. rewrite has_no in A, B.
  rewrite has_sep by (try discriminate; assumption). rewrite A, B. reflexivity.
Qed.
Lemma quiet_lit (a : str) : has t# "splot" a || has t# "replot" a = false -> quiet a.
Proof. intros H. apply quiet_b. apply orb_false_iff in H. exact H. Qed.

Ltac notin := cbn; intuition discriminate.
Ltac lit := apply silent_no; vm_compute; reflexivity.
Ltac qlit := apply quiet_lit; vm_compute; reflexivity.

Lemma silent_flag (f : flag) : f <> Multiplot -> f <> NoMultiplot -> silent (flag_text f).
Proof.
  intros N1 N2. destruct f; cbn [flag_text]; try lit; try congruence.
  refine (silent_sep t# "unset logscale" [axis] " "%char _ _ _); [notin|lit|].
  intros (a & b & E). apply (f_equal (@List.length ascii)) in E. rewrite !app_length in E. cbn in E. lia.
Qed.
Lemma silent_one (a : ascii) : silent [a].
Proof. intros (x & y & E). apply (f_equal (@List.length ascii)) in E. rewrite !app_length in E. cbn in E. lia. Qed.
Lemma silent_two (a b : ascii) : silent [a; b].
Proof. intros (x & y & E). apply (f_equal (@List.length ascii)) in E. rewrite !app_length in E. cbn in E. lia. Qed.

Lemma quiet_nil : quiet [].
Proof. qlit. Qed.
Lemma quiet_fn (a b style : str) : quiet a -> quiet b -> quiet style -> quiet (a ++ t# " title """ ++ b ++ t# """ with " ++ style).
Proof.
  intros A B C.
  refine (quiet_sep a (t# "title """ ++ b ++ t# """ with " ++ style) " "%char _ A _); [notin|].
  refine (quiet_sep t# "title " (b ++ t# """ with " ++ style) """"%char _ _ _); [notin|qlit|].
  refine (quiet_sep b (t# " with " ++ style) """"%char _ B _); [notin|].
  refine (quiet_sep t# " with" style " "%char _ _ C); [notin|qlit].
Qed.
Lemma quiet_named (t rest : str) : quiet t -> quiet rest ->
  quiet (match t with [] => t# " notitle " | _ => t# " title """ ++ t ++ t# """ " end ++ rest).
Proof.
  intros A B. destruct t as [|t0 t].
  - refine (quiet_sep t# " notitle" rest " "%char _ _ B); [notin|qlit].
  - set (u := t0 :: t) in *. rewrite <- !app_assoc.
    refine (quiet_sep t# " title " (u ++ t# """ " ++ rest) """"%char _ _ _); [notin|qlit|].
    refine (quiet_sep u (t# " " ++ rest) """"%char _ A _); [notin|].
    refine (quiet_sep [] rest " "%char _ quiet_nil B); notin.
Qed.
Lemma quiet_drawn (style smooth : str) : quiet style -> quiet smooth ->
  quiet (match smooth with [] => t# "with " ++ style | _ => t# "smooth " ++ smooth end).
Proof.
  intros A B. destruct smooth as [|t0 t].
  - refine (quiet_sep t# "with" style " "%char _ _ A); [notin|qlit].
  - refine (quiet_sep t# "smooth" (t0 :: t) " "%char _ _ B); [notin|qlit].
Qed.
Lemma quiet_file (f rest : str) : quiet f -> quiet rest -> quiet ((t# """" ++ f ++ t# """ using ") ++ rest).
Proof.
  intros A B. rewrite <- !app_assoc.
  refine (quiet_sep [] (f ++ t# """ using " ++ rest) """"%char _ quiet_nil _); [notin|].
  refine (quiet_sep f (t# " using " ++ rest) """"%char _ A _); [notin|].
  refine (quiet_sep t# " using" rest " "%char _ _ B); [notin|qlit].
Qed.
Lemma quiet_colon (a b : str) : quiet a -> quiet b -> quiet (a ++ t# ":" ++ b).
Proof. intros A B. refine (quiet_sep a b ":"%char _ A B). notin. Qed.
(** A column followed by a title. *)
Lemma quiet_sp (a b : str) : quiet a -> quiet b -> quiet (a ++ t# " " ++ b).
Proof. intros A B. refine (quiet_sep a b " "%char _ A B). notin. Qed.

Lemma quiet_named2 (a t rest : str) : quiet a -> quiet t -> quiet rest ->
  quiet (a ++ match t with [] => t# " notitle " | _ => t# " title """ ++ t ++ t# """ " end ++ rest).
Proof.
  intros A T R. destruct t as [|t0 t].
  - refine (quiet_sep a (t# "notitle " ++ rest) " "%char _ A _); [notin|]. refine (quiet_sep t# "notitle" rest " "%char _ _ R); [notin|qlit].
  - set (u := t0 :: t) in *. rewrite <- !app_assoc.
    refine (quiet_sep a (t# "title """ ++ u ++ t# """ " ++ rest) " "%char _ A _); [notin|].
    refine (quiet_sep t# "title " (u ++ t# """ " ++ rest) """"%char _ _ _); [notin|qlit|].
    refine (quiet_sep u (t# " " ++ rest) """"%char _ T _); [notin|].
    refine (quiet_sep [] rest " "%char _ quiet_nil R); notin.
Qed.
Lemma quiet_named0 (a t : str) : quiet a -> quiet t ->
  quiet (a ++ match t with [] => t# " notitle " | _ => t# " title """ ++ t ++ t# """ " end).
Proof. intros A T. rewrite <- (app_nil_r (match t with [] => _ | _ => _ end)). apply quiet_named2; [exact A|exact T|apply quiet_nil]. Qed.
Lemma curve_quiet (avail : str -> bool) (style smooth : str) (c : call) (three : bool) (t : str) :
  quiet style -> quiet smooth -> calm c -> curve avail style smooth c = Some (three, t) -> quiet t.
Proof.
  intros S1 S2 C E. destruct c; cbn [curve calm] in *; try discriminate.
  - injection E as _ <-. destruct C as (C1 & C2 & C3). apply quiet_fn; [| |exact S1].
    + refine (quiet_sep a (t# "* x + " ++ b) " "%char _ C1 _); [notin|]. refine (quiet_sep t# "* x +" b " "%char _ _ C2); [notin|qlit].
    + destruct title; [|exact C3].
      refine (quiet_sep t# "f(x) =" (a ++ t# " * x + " ++ b) " "%char _ _ _); [notin|qlit|].
      refine (quiet_sep a (t# "* x + " ++ b) " "%char _ C1 _); [notin|]. refine (quiet_sep t# "* x +" b " "%char _ _ C2); [notin|qlit].
  - injection E as _ <-. destruct C as (C1 & C2). apply quiet_fn; [exact C1| |exact S1].
    destruct title; [|exact C2]. refine (quiet_sep t# "f(x) =" e " "%char _ _ C1); [notin|qlit].
  - injection E as _ <-. destruct C as (C1 & C2). apply quiet_fn; [exact C1| |exact S1].
    destruct title; [|exact C2]. refine (quiet_sep t# "f(x,y) =" e " "%char _ _ C1); [notin|qlit].
  - destruct (avail f); [|discriminate]. injection E as _ <-. destruct C as (C1 & C2 & C3). apply quiet_file; [exact C1|].
    apply quiet_named2; [exact C2|exact C3|apply quiet_drawn; assumption].
  - destruct (avail f); [|discriminate]. injection E as _ <-. destruct C as (C1 & C2 & C3 & C4). apply quiet_file; [exact C1|].
    apply quiet_colon; [exact C2|]. apply quiet_named2; [exact C3|exact C4|apply quiet_drawn; assumption].
  - destruct (avail f); [|discriminate]. injection E as _ <-. destruct C as (C1 & C2 & C3 & C4 & C5). apply quiet_file; [exact C1|].
    apply quiet_colon; [exact C2|]. apply quiet_colon; [exact C3|].
    refine (quiet_sep cd (t# "with errorbars " ++ _) " "%char _ C4 _); [notin|].
    apply quiet_named0; [qlit|exact C5].
  - destruct (avail f); [|discriminate]. injection E as _ <-. destruct C as (C1 & C2 & C3 & C4 & C5). apply quiet_file; [exact C1|].
    apply quiet_colon; [exact C2|]. apply quiet_colon; [exact C3|]. destruct title as [|t0 tl].
    + refine (quiet_sep cz (t# "notitle with " ++ style) " "%char _ C4 _); [notin|].
      refine (quiet_sep t# "notitle with" style " "%char _ _ S1); [notin|qlit].
    + set (u := t0 :: tl) in *. change (quiet (cz ++ (t# " title """ ++ u ++ t# """") ++ t# " with " ++ style)). rewrite <- !app_assoc.
      exact (quiet_fn cz u style C4 C5 S1).
  - injection E as _ <-. destruct C as (C1 & C2).
    refine (quiet_sep [] (n ++ _) """"%char _ quiet_nil _); [notin|]. refine (quiet_sep n _ """"%char _ C1 _); [notin|].
    destruct title as [|t0 tl]; [qlit|]. set (u := t0 :: tl) in *. change (quiet ((t# " title """ ++ u ++ t# """") ++ t# " with image")).
    rewrite <- !app_assoc.
    refine (quiet_sep t# " title " (u ++ _) """"%char _ _ _); [notin|qlit|]. refine (quiet_sep u t# " with image" """"%char _ C2 _); [notin|qlit].
Qed.

Lemma some_pair (A B : Type) (a c : A) (b d : B) : Some (a, b) = Some (c, d) -> a = c /\ b = d.
Proof. intros E. injection E as -> ->. split; reflexivity. Qed.
(** The curve calls of the code send their first word and the expected curve. *)
Lemma step_curve (avail : str -> bool) (term : str) (g : gp) (c : call) (three : bool) (t : str) :
  curve avail (pstyle g) (smooth g) c = Some (three, t) ->
  step avail term g c = Some (cmd g ((if three then word3 g else word2 g) ++ t)).
Proof.
  intros E. destruct c; unfold curve, step in *; try discriminate;
    try (destruct (avail f); [|discriminate]); apply some_pair in E; destruct E as [E1 E2]; subst three t; f_equal; f_equal;
    unfold opt_title, how, fun_title, qt; f_equal; try (repeat rewrite <- app_assoc; reflexivity);
    destruct title as [|t0 tl]; try (repeat rewrite <- app_assoc; reflexivity);
    destruct (smooth g); repeat rewrite <- app_assoc; reflexivity.
Qed.
Lemma step_none (avail : str -> bool) (term : str) (g : gp) (c : call) :
  curve avail (pstyle g) (smooth g) c = None ->
  match c with Slope _ _ _ | Equation _ _ | Equation3d _ _ | FileX _ _ _ | FileXY _ _ _ _ | FileErr _ _ _ _ _ | FileXYZ _ _ _ _ _ | Image _ _ => True | _ => False end ->
  step avail term g c = None.
Proof. intros E K. destruct c; unfold curve, step in *; try contradiction; try discriminate E; destruct (avail f); (discriminate E || reflexivity). Qed.

Lemma view_curve (avail : str -> bool) (v : view) (c : call) (three : bool) (t : str) :
  curve avail (v_style v) (v_smooth v) c = Some (three, t) -> view_step avail v c = joined v three t.
Proof. intros E. unfold view_step. destruct c; try discriminate E; rewrite E; reflexivity. Qed.

Lemma style_same (g : gp) (s : str) : set_style g s = mkG (two_dim g) (nplots g) (style_of s) (smooth g) (sent g).
Proof. unfold set_style, style_of, styles, existsb. rewrite orb_false_r, !orb_assoc. reflexivity. Qed.
Lemma smooth_same (g : gp) (s : str) : set_smooth g s = mkG (two_dim g) (nplots g) (pstyle g) (smooth_of s) (sent g).
Proof. unfold set_smooth, smooth_of, smooths, existsb. rewrite orb_false_r, !orb_assoc. reflexivity. Qed.
Lemma quiet_style (s : str) : quiet s -> quiet (style_of s).
Proof. intros H. unfold style_of. destruct (existsb _ _); [exact H|qlit]. Qed.
Lemma quiet_smooth (s : str) : quiet s -> quiet (smooth_of s).
Proof. intros H. unfold smooth_of. destruct (existsb _ _); [exact H|qlit]. Qed.

Lemma agree_screen (term : str) (g : gp) (v : view) : silent term -> agree g v -> agree (showonscreen term g) v.
Proof.
  intros T A. apply agree_silent; [apply agree_silent; [exact A|lit]|].
  refine (silent_sep t# "set terminal" term " "%char _ _ T); [notin|lit].
Qed.
Lemma silent_quote (a t b : str) : silent a -> silent t -> silent b -> silent (a ++ qt ++ t ++ b) -> silent (a ++ qt ++ t ++ b).
Proof. auto. Qed.

Lemma agree_step (avail : str -> bool) (term : str) (g : gp) (v : view) (c : call) :
  silent term -> agree g v -> calm c -> agree (after avail term g c) (view_step avail v c).
Proof.
  intros T A C. unfold after.
  destruct (curve avail (pstyle g) (smooth g) c) as [[three t]|] eqn:E.
  { rewrite (step_curve avail term g c three t E).
    pose proof A as [A1 A2 _ _ _ _ [Q1 Q2]].
    pose proof (curve_quiet avail (pstyle g) (smooth g) c three t Q1 Q2 C E) as Q.
    rewrite A1, A2 in E. rewrite (view_curve avail v c three t E).
    destruct three; [apply agree_curve3|apply agree_curve2]; assumption. }
  pose proof A as [A1 A2 A3 A4 A5 A6 [Q1 Q2]].
  destruct c; try (rewrite (step_none avail term g _ E Logic.I); unfold view_step; rewrite A1, A2 in E; rewrite E; exact A);
    cbn [step calm view_step curve] in *.
  - apply agree_silent; assumption.
  - rewrite style_same. constructor; cbn [two_dim nplots pstyle smooth sent shown joins v_style v_smooth]; auto. split; [apply quiet_style; exact C|exact Q2].
  - rewrite smooth_same. constructor; cbn [two_dim nplots pstyle smooth sent shown joins v_style v_smooth]; auto. split; [exact Q1|apply quiet_smooth; exact C].
  - apply agree_silent; [exact A|]. destruct C. apply silent_flag; assumption.
  - apply agree_silent; [apply agree_silent; [exact A|]|].
    + refine (silent_sep t# "set" ([axis] ++ t# "range restore") " "%char _ _ _); [notin|lit|].
      refine (silent_sep [axis] t# "ange restore" "r"%char _ (silent_one axis) _); [notin|lit].
    + refine (silent_sep t# "set autoscale" [axis] " "%char _ _ (silent_one axis)); [notin|lit].
  - apply agree_silent; [exact A|].
    refine (silent_sep t# "set" ([axis] ++ t# "label " ++ qt ++ t ++ qt) " "%char _ _ _); [notin|lit|].
    refine (silent_sep [axis; "l"%char] (t# "bel " ++ qt ++ t ++ qt) "a"%char _ (silent_two axis _) _); [notin|].
    refine (silent_sep t# "bel " (t ++ qt) """"%char _ _ _); [notin|lit|].
    refine (silent_sep t [] """"%char _ C _); [notin|lit].
  - apply agree_silent; [exact A|].
    refine (silent_sep t# "set title " (t ++ qt) """"%char _ _ _); [notin|lit|].
    refine (silent_sep t [] """"%char _ C _); [notin|lit].
  - apply agree_silent; [exact A|]. refine (silent_sep t# "set key" t " "%char _ _ C); [notin|lit].
  - apply agree_silent; [exact A|]. destruct (has _ t || has _ t || has _ t); [|lit].
    refine (silent_sep t# "set contour" t " "%char _ _ C); [notin|lit].
  - apply agree_silent; [apply agree_silent; [exact A|lit]|].
    refine (silent_sep t# "set output " (t ++ t# ".ps" ++ qt) """"%char _ _ _); [notin|lit|].
    refine (silent_sep t (t# "ps" ++ qt) "."%char _ C _); [notin|lit].
  - apply agree_silent; [exact A|]. destruct C as (C1 & C2 & C3).
    refine (silent_sep t# "set" (axis ++ t# "range[" ++ a ++ t# ":" ++ b ++ t# "]") " "%char _ _ _); [notin|lit|].
    refine (silent_sep axis (t# "ange[" ++ a ++ t# ":" ++ b ++ t# "]") "r"%char _ C1 _); [notin|].
    refine (silent_sep t# "ange" (a ++ t# ":" ++ b ++ t# "]") "["%char _ _ _); [notin|lit|].
    refine (silent_sep a (b ++ t# "]") ":"%char _ C2 _); [notin|].
    refine (silent_sep b [] "]"%char _ C3 _); [notin|lit].
  - apply agree_silent; [exact A|].
    refine (silent_sep t# "set logscale" ([axis] ++ t# " " ++ b) " "%char _ _ _); [notin|lit|].
    refine (silent_sep [axis] b " "%char _ (silent_one axis) C); notin.
  - apply agree_silent; [exact A|]. refine (silent_sep t# "set pointsize" a " "%char _ _ C); [notin|lit].
  - apply agree_silent; [exact A|]. refine (silent_sep t# "set samples" a " "%char _ _ C); [notin|lit].
  - apply agree_silent; [exact A|]. refine (silent_sep t# "set isosamples" a " "%char _ _ C); [notin|lit].
  - (* replot *) rewrite A5. destruct (joins v) eqn:J; [|exact A].
    destruct (A6 eq_refl) as [l L].
    constructor; cbn [cmd two_dim nplots pstyle smooth sent shown joins v_style v_smooth]; try assumption.
    + change (sent (cmd g t# "replot")) with (sent g ++ [t# "replot"]). rewrite watch_snoc, A3, L. reflexivity.
    + change (nplots (cmd g t# "replot")) with (nplots g). rewrite A5. symmetry. exact J.
    + intros _. exists l. exact L.
    + split; assumption.
  - constructor; cbn [two_dim nplots pstyle smooth sent shown joins v_style v_smooth]; auto. discriminate.
  - apply agree_screen; [exact T|].
    assert (A' : agree (mkG (two_dim g) 0 (pstyle g) (smooth g) (sent g)) (mkV (shown v) false (v_style v) (v_smooth v))).
    { constructor; cbn [two_dim nplots pstyle smooth sent shown joins v_style v_smooth]; auto. discriminate. }
    assert (B : agree (cmd (cmd (mkG (two_dim g) 0 (pstyle g) (smooth g) (sent g)) t# "reset") t# "clear") (mkV (shown v) false (v_style v) (v_smooth v))).
    { apply agree_silent; [apply agree_silent; [exact A'|lit]|lit]. }
    destruct B as [B1 B2 B3 B4 B5 B6 B7].
    constructor; cbn [two_dim nplots pstyle smooth sent shown joins v_style v_smooth] in *; auto. split; qlit.
  - apply agree_screen; [exact T|exact A].
Qed.

Lemma agree_new (term style : str) : silent term -> quiet style -> agree (gp_new term style) (mkV Blank false (style_of style) []).
Proof.
  intros T Q. unfold gp_new. rewrite style_same.
  assert (A : agree (showonscreen term (mkG false 0 [] [] [])) (mkV Blank false [] [])).
  { apply agree_screen; [exact T|]. constructor; cbn; auto; try discriminate. split; qlit. }
  destruct A as [B1 B2 B3 B4 B5 B6 [B7 B8]].
  constructor; cbn [two_dim nplots pstyle smooth sent shown joins v_style v_smooth] in *; auto.
  split; [apply quiet_style; exact Q|exact B8].
Qed.
Lemma agree_run (avail : str -> bool) (term style : str) (l : list call) :
  silent term -> quiet style -> Forall calm l -> agree (gp_run avail term style l) (view_run avail style l).
Proof.
  intros T Q. unfold gp_run, view_run. pose proof (agree_new term style T Q) as A.
  generalize dependent (mkV Blank false (style_of style) []). generalize (gp_new term style).
  induction l as [|c l IH]; intros g v A F; [exact A|]. cbn [fold_left]. inversion F; subst. apply IH; [|assumption].
  apply agree_step; assumption.
Qed.
