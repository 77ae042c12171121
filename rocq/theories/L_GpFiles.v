(** Lemmas about the temporary files. *)
From Coq Require Import Ascii String ZArith List Bool Arith Lia Permutation.
From Verif Require Import Base Loop M_Str M_Data M_Gp M_GpFiles S_GpFiles.
Import ListNotations.
Local Open Scope nat_scope.

Lemma mo_nth {A B : Type} (f : A -> outcome B) l : forall r i y, map_outcome f l = Ok r -> nth_error r i = Some y -> exists x, nth_error l i = Some x /\ f x = Ok y.
Proof.
  induction l as [|a l IH]; intros r i y E N; cbn [map_outcome] in E.
  - injection E as <-. destruct i; discriminate.
  - destruct (f a) as [b| |] eqn:Fa; try discriminate. cbn [obind] in E. destruct (map_outcome f l) as [t| |]; try discriminate. cbn [obind] in E. injection E as <-.
    destruct i as [|i]; cbn [nth_error] in *; [injection N as <-; exists a; auto|]. exact (IH t i y eq_refl N).
Qed.
Lemma mo_len {A B : Type} (f : A -> outcome B) l : forall r, map_outcome f l = Ok r -> List.length r = List.length l.
Proof.
  induction l as [|a l IH]; intros r E; cbn [map_outcome] in E; [injection E as <-; reflexivity|].
  destruct (f a); try discriminate. cbn [obind] in E. destruct (map_outcome f l) as [t| |]; try discriminate. cbn [obind] in E. injection E as <-.
  cbn [List.length]. rewrite (IH t eq_refl). reflexivity.
Qed.
Lemma mo_total {A B : Type} (f : A -> outcome B) l : (forall x, In x l -> exists y, f x = Ok y) -> exists r, map_outcome f l = Ok r.
Proof.
  induction l as [|a l IH]; intros H; cbn [map_outcome]; [exists []; reflexivity|].
  destruct (H a (or_introl eq_refl)) as [y ->]. cbn [obind]. destruct IH as [t ->]; [intros x X; apply H; right; exact X|]. cbn [obind]. eauto.
Qed.
Lemma mo_forall2 {A B : Type} (f : A -> outcome B) l : forall r, map_outcome f l = Ok r -> Forall2 (fun a b => f a = Ok b) l r.
Proof.
  induction l as [|a l IH]; intros r E; cbn [map_outcome] in E; [injection E as <-; constructor|].
  destruct (f a) eqn:Fa; try discriminate. cbn [obind] in E. destruct (map_outcome f l) as [t| |]; try discriminate. cbn [obind] in E. injection E as <-.
  constructor; [exact Fa|]. apply IH. reflexivity.
Qed.

Lemma checks_spec (cols : list (list str)) : cols <> [] -> checks cols = true <-> columns cols.
Proof.
  intros N. destruct cols as [|c0 cols]; [congruence|]. unfold checks, columns. cbn [hd]. rewrite andb_true_iff, !forallb_forall. split.
  - intros [H1 H2]. split; [discriminate|]. exists (List.length c0). split.
    + specialize (H1 c0 (or_introl eq_refl)). apply negb_true_iff, Nat.eqb_neq in H1. lia.
    + apply Forall_forall. intros c C. apply Nat.eqb_eq, H2, C.
  - intros [_ (n & n0 & F)]. rewrite Forall_forall in F.
    assert (L0 : List.length c0 = n) by (apply F; left; reflexivity). split; intros c C; rewrite (F c C).
    + apply negb_true_iff, Nat.eqb_neq. lia.
    + apply Nat.eqb_eq. congruence.
Qed.
Lemma rows_ok (cols : list (list str)) : columns cols -> exists rows, map_outcome (row cols) (seq 0 (List.length (hd [] cols))) = Ok rows /\ lines_of cols rows.
Proof.
  intros [N (n & n0 & F)]. rewrite Forall_forall in F.
  assert (L : List.length (hd [] cols) = n) by (destruct cols as [|c cols]; [congruence|apply F; left; reflexivity]).
  rewrite L.
  assert (T : forall i, In i (seq 0 n) -> exists y, row cols i = Ok y).
  { intros i I. apply in_seq in I. apply mo_total. intros c C. destruct (nth_error c i) eqn:E; [eauto|]. apply nth_error_None in E. rewrite (F c C) in E. lia. }
  destruct (mo_total (row cols) (seq 0 n) T) as [rows E]. exists rows. split; [exact E|].
  pose proof (mo_len (row cols) (seq 0 n) rows E) as Len. rewrite seq_length in Len. split.
  - apply Forall_forall. intros c C. rewrite Len. apply F, C.
  - intros i r R. destruct (mo_nth (row cols) (seq 0 n) rows i r E R) as (x & X & Y).
    assert (Hi : i < n) by (rewrite <- Len; apply nth_error_Some; rewrite R; discriminate).
    apply nth_error_nth with (d := 0) in X. rewrite seq_nth in X by exact Hi. cbn in X. subst x.
    apply mo_forall2 in Y. clear - Y. induction Y as [|c x l l' H Y IH]; constructor; [|exact IH].
    destruct (nth_error c i); [injection H as <-; reflexivity|discriminate].
Qed.

(** Pixels. *)
Lemma pixel_row (num : nat -> str) (buf : list str) (y w : nat) : forall k rows,
  k + w <= List.length buf ->
  exists more, ofold (fun t x => match nth_error buf (fst t) with Some v => Ok (S (fst t), snd t ++ [[num x; num y; v]]) | None => UB end) (seq 0 w) (k, rows)
    = Ok (k + w, rows ++ more) /\ List.length more = w /\ forall x, x < w -> exists v, nth_error buf (k + x) = Some v /\ nth_error more x = Some [num x; num y; v].
Proof.
  induction w as [|w IH]; intros k rows H.
  - exists []. cbn [seq ofold]. rewrite Nat.add_0_r, app_nil_r. split; [reflexivity|]. split; [reflexivity|]. intros x X; lia.
  - rewrite seq_S, ofold_app. destruct (IH k rows) as (more & E & Len & P); [lia|]. rewrite E. cbn [obind ofold fst snd].
    assert (B : exists v, nth_error buf (k + w) = Some v).
    { destruct (nth_error buf (k + w)) as [v|] eqn:E2; [eauto|]. apply nth_error_None in E2. lia. }
    destruct B as [v B]. rewrite B. cbn [obind]. exists (more ++ [[num w; num y; v]]). rewrite app_assoc. cbn [Nat.add].
    split; [f_equal; f_equal; lia|]. split; [rewrite app_length, Len; cbn; lia|].
    intros x X. destruct (Nat.eq_dec x w) as [->|Nx].
    + exists v. split; [exact B|]. rewrite nth_error_app2 by lia. rewrite Len, Nat.sub_diag. reflexivity.
    + destruct (P x) as (u & U1 & U2); [lia|]. exists u. split; [exact U1|]. rewrite nth_error_app1 by (rewrite Len; lia). exact U2.
Qed.
Lemma pixels_ok (num : nat -> str) (buf : list str) (w h : nat) : w * h <= List.length buf ->
  exists rows, pixels num buf w h = Ok rows /\ List.length rows = w * h /\
    forall x y, x < w -> y < h -> exists v, nth_error buf (y * w + x) = Some v /\ nth_error rows (y * w + x) = Some [num x; num y; v].
Proof.
  intros H. unfold pixels. set (F := fun s y => _).
  assert (K : forall h', h' <= h -> exists rows, ofold F (seq 0 h') (0, []) = Ok (h' * w, rows) /\ List.length rows = h' * w /\
      forall x y, x < w -> y < h' -> exists v, nth_error buf (y * w + x) = Some v /\ nth_error rows (y * w + x) = Some [num x; num y; v]).
  { induction h' as [|h' IH]; intros L.
    - exists []. cbn [seq ofold]. split; [reflexivity|]. split; [reflexivity|]. intros x y _ Y; lia.
    - rewrite seq_S, ofold_app. destruct IH as (rows & E & Len & P); [lia|]. rewrite E. cbn [obind ofold Nat.add].
      destruct (pixel_row num buf h' w (h' * w) rows) as (more & E2 & Len2 & P2); [nia|].
      unfold F at 1. rewrite E2. cbn [obind]. exists (rows ++ more).
      split; [f_equal; f_equal; lia|]. split; [rewrite app_length; lia|].
      intros x y X Y. destruct (Nat.eq_dec y h') as [->|Ny].
      + destruct (P2 x X) as (v & V1 & V2). exists v. split; [exact V1|]. rewrite nth_error_app2 by lia. rewrite Len.
        replace (h' * w + x - h' * w) with x by lia. exact V2.
      + destruct (P x y X) as (v & V1 & V2); [lia|]. exists v. split; [exact V1|]. rewrite nth_error_app1 by (rewrite Len; nia). exact V2. }
  destruct (K h (le_n h)) as (rows & E & Len & P). rewrite E. cbn [obind snd]. exists rows. split; [reflexivity|]. split; [lia|exact P].
Qed.
Lemma pixel_row_short (num : nat -> str) (buf : list str) (y w : nat) : forall k rows,
  k <= List.length buf < k + w ->
  ofold (fun t x => match nth_error buf (fst t) with Some v => Ok (S (fst t), snd t ++ [[num x; num y; v]]) | None => UB end) (seq 0 w) (k, rows) = UB.
Proof.
  induction w as [|w IH]; intros k rows H; [lia|]. rewrite seq_S, ofold_app.
  destruct (Nat.eq_dec (List.length buf) (k + w)) as [E|N].
  - destruct (pixel_row num buf y w k rows) as (more & -> & _); [lia|]. cbn [obind ofold fst].
    assert (B : nth_error buf (k + w) = None) by (apply nth_error_None; lia). rewrite B. reflexivity.
  - rewrite IH by lia. reflexivity.
Qed.
Lemma pixels_short (num : nat -> str) (buf : list str) (w h : nat) : List.length buf < w * h -> pixels num buf w h = UB.
Proof.
  intros H. unfold pixels. set (F := fun s y => _).
  assert (K : forall h', h' * w <= List.length buf -> exists rows, ofold F (seq 0 h') (0, []) = Ok (h' * w, rows)).
  { induction h' as [|h' IH]; intros L; [exists []; reflexivity|].
    rewrite seq_S, ofold_app. destruct IH as [rows E]; [lia|]. rewrite E. cbn [obind ofold Nat.add].
    destruct (pixel_row num buf h' w (h' * w) rows) as (more & E2 & _); [lia|]. unfold F at 1. rewrite E2. cbn [obind]. exists (rows ++ more). f_equal. f_equal. lia. }
  assert (W : 0 < w) by nia. set (q := List.length buf / w).
  assert (Q1 : q * w <= List.length buf < q * w + w).
  { unfold q. pose proof (Nat.div_mod (List.length buf) w). pose proof (Nat.mod_upper_bound (List.length buf) w). lia. }
  assert (Q2 : q < h) by nia.
  assert (S1 : seq 0 h = seq 0 q ++ q :: seq (S q) (h - S q)).
  { replace h with (q + S (h - S q)) at 1 by lia. rewrite seq_app. reflexivity. }
  rewrite S1, ofold_app. destruct (K q) as [rows E]; [lia|]. rewrite E. cbn [obind ofold]. unfold F at 1.
  rewrite pixel_row_short by exact Q1. reflexivity.
Qed.

(** ** The counter *)
Lemma put_length {A : Type} (k : nat) (x : A) (l : list A) : List.length (put k x l) = List.length l.
Proof. revert k; induction l as [|y l IH]; intros [|k]; cbn; auto. Qed.
Lemma put_same {A : Type} (k : nat) (x : A) (l : list A) : k < List.length l -> nth_error (put k x l) k = Some x.
Proof. revert k; induction l as [|y l IH]; intros [|k] H; cbn in *; try lia; auto. apply IH. lia. Qed.
Lemma put_other {A : Type} (k j : nat) (x : A) (l : list A) : j <> k -> nth_error (put k x l) j = nth_error l j.
Proof. revert k j; induction l as [|y l IH]; intros [|k] [|j] H; cbn; try lia; auto. Qed.

Definition list_of (o : option (list str)) : list str := match o with Some l => l | None => [] end.
Definition owned (p : proc) : list str := flat_map list_of (p_tmp p).
Lemma owned_put (l : list str) (name : str) : forall (k : nat) (ts : list (option (list str))), nth_error ts k = Some (Some l) ->
  Permutation (flat_map list_of (put k (Some (l ++ [name])) ts)) (name :: flat_map list_of ts).
Proof.
  induction k as [|k IH]; intros [|t ts] E; cbn [nth_error] in E; try discriminate; cbn [put flat_map].
  - injection E as ->. cbn [list_of]. rewrite <- app_assoc. cbn [app]. symmetry. apply Permutation_middle.
  - etransitivity; [apply Permutation_app_head, (IH ts E)|]. symmetry. apply Permutation_middle.
Qed.
Lemma owned_close : forall (k : nat) (ts : list (option (list str))) l, nth_error ts k = Some (Some l) ->
  Permutation (flat_map list_of ts) (l ++ flat_map list_of (put k None ts)).
Proof.
  induction k as [|k IH]; intros [|t ts] l E; cbn [nth_error] in E; try discriminate; cbn [put flat_map].
  - injection E as ->. reflexivity.
  - etransitivity; [apply Permutation_app_head, (IH ts l E)|]. rewrite !app_assoc. apply Permutation_app_tail, Permutation_app_comm.
Qed.
Lemma owned_new ts : flat_map list_of (ts ++ [Some []]) = flat_map list_of ts.
Proof. rewrite flat_map_app. cbn. apply app_nil_r. Qed.

Record sane (nm : nat -> str) (p : proc) : Prop := mkSane {
  sa_num : p_num p = Z.of_nat (List.length (p_disk p));
  sa_made : List.length (p_disk p) = p_made p;
  sa_max : p_made p <= 63;
  sa_names : map fst (p_disk p) = map nm (seq 0 (p_made p));
  sa_owned : NoDup (owned p) /\ incl (owned p) (map fst (p_disk p)) }.

Lemma sane_make (nm : nat -> str) (p : proc) (k : nat) (l : list str) rows p' : (forall i j, nm i = nm j -> i = j) ->
  sane nm p -> nth_error (p_tmp p) k = Some (Some l) -> make_file nm p k l rows = Some p' -> sane nm p' /\ p_made p' = S (p_made p).
Proof.
  intros Inj [S1 S2 S3 S4 [S5 S6]] N E. unfold make_file in E. destruct (Z.eqb_spec (p_num p) 63) as [|N63]; [discriminate|]. injection E as <-. split; [|reflexivity].
  constructor; cbn [p_num p_disk p_tmp p_made].
  - rewrite app_length, S1. cbn [List.length]. lia.
  - rewrite app_length, S2. cbn [List.length]. lia.
  - lia.
  - rewrite map_app, S4, seq_S, map_app. reflexivity.
  - unfold owned. cbn [p_tmp]. pose proof (owned_put l (nm (p_made p)) k (p_tmp p) N) as P. split.
    + apply (Permutation_NoDup (Permutation_sym P)). constructor; [|exact S5]. intros X. apply S6 in X. rewrite S4 in X. apply in_map_iff in X.
      destruct X as (i & E & X). apply Inj in E. apply in_seq in X. lia.
    + intros x X. apply (Permutation_in _ P) in X. rewrite map_app. apply in_or_app. destruct X as [<- | X]; [right; left; reflexivity|left; apply S6, X].
Qed.
Lemma sane_step (nm : nat -> str) (p p' : proc) (c : fcall) (b : bool) : (forall i j, nm i = nm j -> i = j) ->
  sane nm p -> (forall k, c <> Remove k) -> fstep nm p c = Ok (p', b) -> sane nm p' /\ p_made p' = p_made p + (if makes c && b then 1 else 0).
Proof.
  intros Inj S NR E. destruct c as [|k|k cols|k w h buf num|k]; cbn [fstep makes andb] in *.
  - injection E as <- <-. destruct S as [S1 S2 S3 S4 S5]. split; [|cbn [p_made]; lia]. constructor; auto. unfold owned in *. cbn [p_tmp p_disk]. rewrite owned_new. exact S5.
  - destruct (nth_error (p_tmp p) k) as [[l|]|] eqn:N; try discriminate. injection E as <- <-. destruct S as [S1 S2 S3 S4 [S5 S6]]. split; [|cbn [p_made]; lia]. constructor; auto.
    unfold owned in *. cbn [p_tmp p_disk]. pose proof (owned_close k (p_tmp p) l N) as P. split.
    + apply (Permutation_NoDup P) in S5. clear - S5. induction l as [|x l IH]; [exact S5|]. apply IH. inversion S5; assumption.
    + intros x X. apply S6. apply (Permutation_in _ (Permutation_sym P)). apply in_or_app. right. exact X.
  - destruct (nth_error (p_tmp p) k) as [[l|]|] eqn:N; try discriminate. destruct (checks cols); [|injection E as <- <-; split; [exact S|lia]].
    destruct (map_outcome _ _) as [rows| |]; try discriminate. cbn [obind] in E. destruct (make_file nm p k l rows) as [q|] eqn:M; injection E as <- <-; [|split; [exact S|lia]].
    destruct (sane_make nm p k l rows q Inj S N M) as [A B]. split; [exact A|lia].
  - destruct (nth_error (p_tmp p) k) as [[l|]|] eqn:N; try discriminate. destruct (Z.eqb (p_num p) 63); [injection E as <- <-; split; [exact S|lia]|].
    destruct (pixels num buf w h) as [rows| |]; try discriminate. cbn [obind] in E. destruct (make_file nm p k l rows) as [q|] eqn:M; injection E as <- <-; [|split; [exact S|lia]].
    destruct (sane_make nm p k l rows q Inj S N M) as [A B]. split; [exact A|lia].
  - exfalso. apply (NR k). reflexivity.
Qed.
Lemma frun_cons (nm : nat -> str) (p : proc) (c : fcall) (cs : list fcall) q bs : frun nm p (c :: cs) = Ok (q, bs) ->
  exists p1 b bs', fstep nm p c = Ok (p1, b) /\ frun nm p1 cs = Ok (q, bs') /\ bs = b :: bs'.
Proof.
  cbn [frun]. destruct (fstep nm p c) as [[p1 b]| |]; cbn [obind]; try discriminate. destruct (frun nm (fst (p1, b)) cs) as [[q' bs']| |] eqn:E; cbn [obind]; try discriminate.
  intros H. injection H as <- <-. exists p1, b, bs'. cbn [fst snd] in *. auto.
Qed.
Lemma frun_app (nm : nat -> str) (cs ds : list fcall) : forall p, frun nm p (cs ++ ds) = let* r := frun nm p cs in let* q := frun nm (fst r) ds in Ok (fst q, snd r ++ snd q).
Proof.
  induction cs as [|c cs IH]; intros p; cbn [app frun].
  - cbn [obind fst snd app]. destruct (frun nm p ds) as [[q bs]| |]; reflexivity.
  - destruct (fstep nm p c) as [[p1 b]| |]; cbn [obind]; auto. cbn [fst snd]. rewrite IH. destruct (frun nm p1 cs) as [[q bs]| |]; cbn [obind]; auto. cbn [fst snd].
    destruct (frun nm q ds) as [[q' bs']| |]; reflexivity.
Qed.
Lemma sane_run (nm : nat -> str) (cs : list fcall) : (forall i j, nm i = nm j -> i = j) -> forall p q bs,
  sane nm p -> no_remove cs -> frun nm p cs = Ok (q, bs) -> sane nm q /\ p_made q = p_made p + made cs bs.
Proof.
  intros Inj. induction cs as [|c cs IH]; intros p q bs S NR E.
  - cbn in E. injection E as <- <-. split; [exact S|]. unfold made. cbn. lia.
  - apply frun_cons in E. destruct E as (p1 & b & bs' & E1 & E2 & ->).
    destruct (sane_step nm p p1 c b Inj S) as [S1 M1]; [intros k K; apply (NR k); left; auto|exact E1|].
    destruct (IH p1 q bs' S1) as [S2 M2]; [intros k K; apply (NR k); right; exact K|exact E2|]. split; [exact S2|].
    rewrite M2, M1. unfold made. cbn [combine filter fst snd]. destruct (makes c && b); cbn [List.length]; lia.
Qed.
Lemma sane0 (nm : nat -> str) : sane nm proc0.
Proof. constructor; cbn; auto; try lia. split; [constructor|intros x []]. Qed.

Lemma named_In (l : list str) (n : str) : named l n = true <-> In n l.
Proof.
  unfold named. rewrite existsb_exists. split.
  - intros (m & M & E). destruct (list_eq_dec ascii_dec m n) as [->|]; [exact M|discriminate].
  - intros H. exists n. split; [exact H|]. destruct (list_eq_dec ascii_dec n n); congruence.
Qed.
Lemma filter_count {B : Type} (l : list str) : forall disk : list (str * B), NoDup (map fst disk) -> NoDup l -> incl l (map fst disk) ->
  List.length (filter (fun f => negb (named l (fst f))) disk) + List.length l = List.length disk.
Proof.
  intros disk. revert l. induction disk as [|[n r] disk IH]; intros l N1 N2 I.
  - destruct l as [|x l]; [reflexivity|]. exfalso. apply (I x). left. reflexivity.
  - cbn [map fst] in *. inversion N1 as [|? ? Nn N1']; subst. cbn [filter fst]. destruct (named l n) eqn:E; cbn [negb List.length].
    + apply named_In in E. apply in_split in E. destruct E as (l1 & l2 & ->).
      assert (F : filter (fun f => negb (named (l1 ++ n :: l2) (fst f))) disk = filter (fun f : str * B => negb (named (l1 ++ l2) (fst f))) disk).
      { apply filter_ext_in. intros [m s] M. cbn [fst]. f_equal. apply eq_true_iff_eq. rewrite !named_In, !in_app_iff. cbn [In].
        split; [intros [H|[H|H]]|intros [H|H]]; auto. exfalso. apply Nn. subst m. change n with (fst (n, s)). apply in_map. exact M. }
      unfold str in *. rewrite F. rewrite !app_length. cbn [List.length]. pose proof (NoDup_remove _ _ _ N2) as [N3 N4].
      specialize (IH (l1 ++ l2) N1' N3). rewrite app_length in IH. assert (I' : incl (l1 ++ l2) (map fst disk)).
      { intros x X. destruct (I x) as [Hx | Hx]; [apply in_or_app; apply in_app_or in X; destruct X; [left|right; right]; assumption| |exact Hx]. subst x. contradiction. }
      specialize (IH I'). lia.
    + assert (I' : incl l (map fst disk)).
      { intros x X. destruct (I x X) as [<- | Hx]; [|exact Hx]. apply named_In in X. congruence. }
      specialize (IH l N1' N2 I'). cbn [List.length]. lia.
Qed.
