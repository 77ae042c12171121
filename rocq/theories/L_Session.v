(** Lemmas on sessions. *)
From Coq Require Import Ascii String List Bool Lia.
From Verif Require Import Base M_Str M_Session S_Session.
Import ListNotations.

Lemma key_eqb_eq a b : key_eqb a b = true <-> a = b.
Proof. split; [destruct a, b; cbn; congruence | intros ->; now destruct b]. Qed.

Lemma sets_app s l l' : sets s (l ++ l') = sets (sets s l) l'.
Proof. unfold sets. apply fold_left_app. Qed.
Lemma sets_one s kv k : sets s [kv] k = if key_eqb (fst kv) k then Some (snd kv) else s k.
Proof. reflexivity. Qed.
Lemma sets_unless s k' v k : sets s (unless_empty k' v) k = if key_eqb k' k then or_else (given v) (s k) else s k.
Proof. destruct v; cbn; [now destruct (key_eqb k' k)|]. unfold set1. cbn. now destruct (key_eqb k' k). Qed.

Definition conf_of (c : config) (o : options) : config := configureRange (configurePlot c o) o.
Definition no_ranges (c : config) : Prop := c_xr c = [] /\ c_yr c = [] /\ c_zr c = [].

(** The settings sent for a configuration, on any session. *)
Definition asked (c : config) (k : key) : option str :=
  match k with
  | Terminal => Some (if c_save c then c_format c else match c_term c with [] => list_ascii_of_string "x11" | t => t end)
  | Output => if c_save c then Some (c_name c ++ "."%char :: c_format c) else None
  | Title => given (c_title c)
  | XRange => given (c_xr c) | YRange => given (c_yr c) | ZRange => given (c_zr c)
  | XLabel => given (c_xl c) | YLabel => given (c_yl c) | ZLabel => given (c_zl c)
  | Surface => None
  end.
Lemma fetch_asked s c k : sets s (fst (fetchConfigs c)) k = or_else (asked c k) (s k).
Proof.
  unfold fetchConfigs. cbn [fst]. rewrite !sets_app, !sets_unless.
  destruct k; cbn [key_eqb asked]; try (destruct (c_save c); [|destruct (c_term c)]; cbn; unfold set1; cbn; reflexivity).
Qed.
Lemma fetch_conf c : no_ranges (snd (fetchConfigs c)) /\ c_term (snd (fetchConfigs c)) = c_term c.
Proof. cbn. unfold no_ranges. auto. Qed.

Lemma conf_term c o : c_term (conf_of c o) = c_term c.
Proof. reflexivity. Qed.
Lemma keep_nil v : keep_or [] v = v.
Proof. destruct v; reflexivity. Qed.
Lemma asked_wanted c o k : no_ranges c -> k <> Surface -> asked (conf_of c o) k = wanted (c_term c) o Plain k.
Proof.
  destruct c, o. intros (A & B & C) N. cbn in A, B, C. subst. destruct k; try congruence; try reflexivity; destruct o_xr, o_yr, o_zr, c_term; reflexivity.
Qed.
Lemma or_else_assoc a b c : or_else a (or_else b c) = or_else (or_else a b) c.
Proof. destruct a; reflexivity. Qed.
Lemma or_else_none a : or_else a None = a.
Proof. destruct a; reflexivity. Qed.

(** A drawn plot: the state after it, the settings, the script. *)
Lemma plot_drawn sh st o y d : no_ranges (st_conf st) -> failed y = false -> exists c' s l,
  plot sh st o y d = (mkS c' (if sh then s else st_sess st), Some (s, mkCmd l d)) /\ no_ranges c' /\ c_term c' = c_term (st_conf st) /\
  (forall k, s k = or_else (wanted (c_term (st_conf st)) o y k) ((if sh then st_sess st else fresh) k)) /\
  (y <> Bare -> forall s0 k, sets s0 l k = or_else (wanted (c_term (st_conf st)) o y k) (s0 k)) /\ (y = Bare -> l = []).
Proof.
  intros N F. set (c := st_conf st) in *.
  assert (G : forall s0 k, sets s0 (fst (fetchConfigs (conf_of c o))) k = or_else (wanted (c_term c) o Plain k) (s0 k)).
  { intros s0 k. rewrite fetch_asked. destruct k; try (rewrite asked_wanted by (auto; discriminate); reflexivity). reflexivity. }
  destruct y as [| | |p f]; unfold plot; cbv zeta; fold c; change (configureRange (configurePlot c o) o) with (conf_of c o).
  - destruct (fetchConfigs (conf_of c o)) as (l, c2) eqn:E. cbn [fst] in G. exists c2, (sets (if sh then st_sess st else fresh) l), l.
    assert (c2 = snd (fetchConfigs (conf_of c o))) as -> by now rewrite E. destruct (fetch_conf (conf_of c o)) as (X & Y). split; [reflexivity|]. split; [exact X|]. split; [exact Y|]. split; [intros k; apply G|]. split; [intros _; exact G | discriminate].
  - destruct (fetchConfigs (conf_of c o)) as (l, c2) eqn:E. destruct (fetchConfigs c2) as (l', c3) eqn:E'. cbn [fst] in G.
    exists c3, (sets (if sh then st_sess st else fresh) (l' ++ l)), (l' ++ l).
    assert (c3 = snd (fetchConfigs c2)) as -> by now rewrite E'. destruct (fetch_conf c2) as (X & Y).
    assert (C2 : c2 = snd (fetchConfigs (conf_of c o))) by now rewrite E. destruct (fetch_conf (conf_of c o)) as (X' & Y'). rewrite <- C2 in X', Y'.
    assert (GG : forall s0 k, sets s0 (l' ++ l) k = or_else (wanted (c_term c) o Twice k) (s0 k)).
    { intros s0 k. rewrite sets_app, G. assert (l' = fst (fetchConfigs c2)) as -> by now rewrite E'. rewrite fetch_asked, or_else_assoc. f_equal.
      change (wanted (c_term c) o Twice k) with (wanted (c_term c) o Plain k).
      assert (K : asked c2 k = None \/ asked c2 k = wanted (c_term c) o Plain k).
      { rewrite C2. destruct k; cbn; auto. right. now destruct (c_term c). }
      destruct K as [ -> | -> ]; [apply or_else_none|]. now destruct (wanted (c_term c) o Plain k). }
    split; [reflexivity|]. split; [exact X|]. split; [now rewrite Y, Y'|]. split; [intros k; apply GG|]. split; [intros _; exact GG | discriminate].
  - destruct (fetchConfigs (conf_of c o)) as (l, c2) eqn:E. cbn [fst] in G. exists c2, (sets (if sh then st_sess st else fresh) l), [].
    assert (c2 = snd (fetchConfigs (conf_of c o))) as -> by now rewrite E. destruct (fetch_conf (conf_of c o)) as (X & Y). split; [reflexivity|]. split; [exact X|]. split; [exact Y|]. split; [intros k; apply G|]. split; [congruence | reflexivity].
  - cbn [failed] in F. subst f. destruct (fetchConfigs (conf_of c o)) as (l, c2) eqn:E. cbn [fst] in G. exists c2, (sets (if sh then st_sess st else fresh) (l ++ [(Surface, p)])), (l ++ [(Surface, p)]).
    assert (c2 = snd (fetchConfigs (conf_of c o))) as -> by now rewrite E. destruct (fetch_conf (conf_of c o)) as (X & Y).
    assert (GG : forall s0 k, sets s0 (l ++ [(Surface, p)]) k = or_else (wanted (c_term c) o (Contour p false) k) (s0 k)).
    { intros s0 k. rewrite sets_app, sets_one, G. now destruct k. }
    split; [reflexivity|]. split; [exact X|]. split; [exact Y|]. split; [intros k; apply GG|]. split; [intros _; exact GG | discriminate].
Qed.

(** The object after a program. *)
Lemma srun_state sh ops : forall st b, (b = true -> no_ranges (st_conf st)) -> drawn_last b ops ->
  no_ranges (st_conf (fold_left (sstep sh) ops st)) /\ c_term (st_conf (fold_left (sstep sh) ops st)) = terminal_from (c_term (st_conf st)) ops.
Proof.
  assert (Tm : forall ops st, c_term (st_conf (fold_left (sstep sh) ops st)) = terminal_from (c_term (st_conf st)) ops).
  { clear ops. induction ops as [|[o y d|t|t] r IH]; intros st; cbn [fold_left terminal_from]; auto.
    - rewrite IH. f_equal. cbn [sstep]. unfold plot. cbv zeta. now destruct y as [| | |p [|]].
    - now rewrite IH.
    - now rewrite IH. }
  intros st b Nb D. split; [|apply Tm]. revert st b Nb D. induction ops as [|[o y d|t|t] r IH]; intros st b Nb D; cbn [fold_left drawn_last] in *.
  - apply Nb, D.
  - apply (IH _ _) with (2 := D). intros F. cbn [sstep]. apply negb_true_iff in F. unfold plot. cbv zeta. destruct y as [| | |p f]; cbn in F; subst; cbn; unfold no_ranges; auto.
  - apply (IH _ _) with (2 := D). intros F. apply Nb in F. exact F.
  - apply (IH _ _) with (2 := D). intros F. apply Nb in F. exact F.
Qed.
Lemma settled_state sh ops : settled ops -> no_ranges (st_conf (srun sh ops)) /\ c_term (st_conf (srun sh ops)) = terminal ops.
Proof. intros H. apply (srun_state sh ops (mkS config0 fresh) true); auto. intros _. cbn. unfold no_ranges. auto. Qed.
Lemma all_settled ops : all_drawn ops -> forall b, b = true -> drawn_last b ops.
Proof.
  induction ops as [|[o y d|t|t] r IH]; intros A b Hb; cbn [drawn_last]; auto; try (apply IH; auto; intros o' y' d' I; apply (A o' y' d'); now right).
  apply IH; [intros o' y' d' I; apply (A o' y' d'); now right|]. rewrite (A o y d) by now left. reflexivity.
Qed.
Lemma alone_session ops : forall st, st_sess (fold_left (sstep false) ops st) = st_sess st.
Proof.
  induction ops as [|[o y d|t|t] r IH]; intros st; cbn [fold_left]; auto; rewrite IH; auto. cbn [sstep]. unfold plot. cbv zeta. now destruct y as [| | |p [|]].
Qed.
Lemma shared_session ops : forall st, no_ranges (st_conf st) -> all_drawn ops -> forall k, st_sess (fold_left (sstep true) ops st) k = latest_from (c_term (st_conf st)) (st_sess st k) ops k.
Proof.
  induction ops as [|[o y d|t|t] r IH]; intros st N A k; cbn [fold_left latest_from]; auto.
  - destruct (plot_drawn true st o y d N (A o y d (or_introl eq_refl))) as (c' & s & l & E & N' & T' & W & _). cbn [sstep]. rewrite E. cbn [fst].
    rewrite IH; [|exact N' | intros o' y' d' I; apply (A o' y' d'); now right]. cbn [st_conf st_sess]. rewrite T', W. reflexivity.
  - rewrite IH; [reflexivity | exact N | intros o' y' d' I; apply (A o' y' d'); now right].
  - rewrite IH; [reflexivity | exact N | intros o' y' d' I; apply (A o' y' d'); now right].
Qed.
Lemma latest_app t old ops o y d k : latest_from t old (ops ++ [DoPlot o y d]) k = or_else (wanted (terminal_from t ops) o y k) (latest_from t old ops k).
Proof. revert t old. induction ops as [|[o' y' d'|t'|t'] r IH]; intros t old; cbn [app latest_from terminal_from]; auto. Qed.
