(** C129, C130: theorems about the temporary files and the search for the program. *)
From Coq Require Import Ascii String ZArith List Bool Arith Lia Permutation.
From Verif Require Import Base Loop M_Str M_Data M_Gp M_GpFiles S_GpFiles L_GpFiles.
Import ListNotations.
Local Open Scope nat_scope.

Lemma c129_contents (nm : nat -> str) (p : proc) (k : nat) (l : list str) (cols : grid) :
  nth_error (p_tmp p) k = Some (Some l) -> columns cols -> p_num p <> 63%Z ->
  exists rows p', lines_of cols rows /\ fstep nm p (Data k cols) = Ok (p', true) /\ p_disk p' = p_disk p ++ [(nm (p_made p), rows)] /\
    nth_error (p_tmp p') k = Some (Some (l ++ [nm (p_made p)])) /\ (forall j, j <> k -> nth_error (p_tmp p') j = nth_error (p_tmp p) j).
Proof.
  intros N C H. destruct (rows_ok cols C) as (rows & E & Ln). exists rows. cbn [fstep]. rewrite N.
  destruct (checks_spec cols (proj1 C)) as [_ Ck]. rewrite (Ck C), E. cbn [obind]. unfold make_file. apply Z.eqb_neq in H. rewrite H.
  eexists. split; [exact Ln|]. split; [reflexivity|]. cbn [p_disk p_tmp]. split; [reflexivity|]. split.
  - apply put_same. apply nth_error_Some. congruence.
  - intros j J. apply put_other. exact J.
Qed.
Lemma c129_reject (nm : nat -> str) (p : proc) (k : nat) (cols : grid) :
  opened p k -> cols <> [] -> ~ columns cols -> fstep nm p (Data k cols) = Ok (p, false).
Proof.
  intros [l N] Nc H. cbn [fstep]. rewrite N. destruct (checks cols) eqn:E; [|reflexivity]. apply (checks_spec cols Nc) in E. contradiction.
Qed.
Lemma c129_pixels (nm num : nat -> str) (p : proc) (k w h : nat) (buf : list str) :
  opened p k -> p_num p <> 63%Z ->
  (w * h <= List.length buf -> exists rows p', fstep nm p (Pixels k w h buf num) = Ok (p', true) /\ p_disk p' = p_disk p ++ [(nm (p_made p), rows)] /\
     List.length rows = w * h /\
     forall x y, x < w -> y < h -> exists v, nth_error buf (y * w + x) = Some v /\ nth_error rows (y * w + x) = Some [num x; num y; v]) /\
  (List.length buf < w * h -> fstep nm p (Pixels k w h buf num) = UB).
Proof.
  intros [l N] H. apply Z.eqb_neq in H. cbn [fstep]. rewrite N, H. split.
  - intros L. destruct (pixels_ok num buf w h L) as (rows & E & Len & P). exists rows. rewrite E. cbn [obind]. unfold make_file. rewrite H.
    eexists. split; [reflexivity|]. split; [reflexivity|]. split; assumption.
  - intros L. rewrite (pixels_short num buf w h L). reflexivity.
Qed.

Lemma c129_limit (nm : nat -> str) (cs : list fcall) (p : proc) (bs : list bool) (k : nat) (cols : grid) :
  (forall i j, nm i = nm j -> i = j) -> no_remove cs -> frun nm proc0 cs = Ok (p, bs) -> opened p k -> columns cols ->
  List.length (p_disk p) = made cs bs /\ made cs bs <= 63 /\
  (made cs bs < 63 -> exists p', fstep nm p (Data k cols) = Ok (p', true)) /\ (made cs bs = 63 -> fstep nm p (Data k cols) = Ok (p, false)).
Proof.
  intros Inj NR E O C. destruct (sane_run nm cs Inj proc0 p bs (sane0 nm) NR E) as [[S1 S2 S3 S4 S5] M]. cbn [proc0 p_made Nat.add] in M.
  split; [lia|]. split; [lia|]. destruct O as [l N]. split.
  - intros L. destruct (c129_contents nm p k l cols N C) as (rows & p' & _ & F & _); [lia|]. exists p'. exact F.
  - intros L. cbn [fstep]. rewrite N. destruct (rows_ok cols C) as (rows & Er & _). destruct (checks_spec cols (proj1 C)) as [_ Ck]. rewrite (Ck C), Er. cbn [obind].
    unfold make_file. assert (Z : Z.eqb (p_num p) 63 = true) by (apply Z.eqb_eq; lia). rewrite Z. reflexivity.
Qed.

(** One session after the other, each with one plot and closed before the next is opened. *)
Definition one_by_one (cols : list (list str)) (n : nat) : list fcall := flat_map (fun k => [New; Data k cols; Close k]) (seq 0 n).
Lemma put_snoc {A : Type} (l : list A) (x y : A) : put (List.length l) y (l ++ [x]) = l ++ [y].
Proof. induction l as [|z l IH]; cbn; [reflexivity|]. rewrite IH. reflexivity. Qed.
Lemma nth_snoc {A : Type} (l : list A) (x : A) : nth_error (l ++ [x]) (List.length l) = Some x.
Proof. induction l as [|z l IH]; cbn; auto. Qed.
Lemma one_run (nm : nat -> str) (cols : list (list str)) : columns cols -> forall n, n <= 63 ->
  exists p bs, frun nm proc0 (one_by_one cols n) = Ok (p, bs) /\ Forall (fun b => b = true) bs /\ p_num p = Z.of_nat n /\ p_tmp p = repeat None n /\ List.length (p_disk p) = n.
Proof.
  intros C. induction n as [|n IH]; intros L.
  - exists proc0, []. repeat (split; [reflexivity || constructor|]). reflexivity.
  - destruct IH as (p & bs & E & F & Nu & Tm & Dk); [lia|]. unfold one_by_one in *. rewrite seq_S, flat_map_app, frun_app, E. cbn [obind fst snd flat_map app Nat.add].
    destruct (rows_ok cols C) as (rows & Er & _). destruct (checks_spec cols (proj1 C)) as [_ Ck].
    cbn [frun fstep p_tmp p_num p_disk p_made obind fst snd]. rewrite Tm.
    replace (nth_error (repeat None n ++ [Some []]) n) with (Some (Some (@nil str))).
    2:{ symmetry. pose proof (nth_snoc (repeat (@None (list str)) n) (Some [])) as Hn. rewrite repeat_length in Hn. exact Hn. }
    rewrite (Ck C), Er. cbn [obind]. unfold make_file. cbn [p_num p_disk p_tmp p_made]. rewrite Nu.
    destruct (Z.eqb_spec (Z.of_nat n) 63); [lia|]. cbn [obind fst snd p_tmp p_num p_disk p_made app].
    assert (P1 : forall (x y : option (list str)), put n y (repeat None n ++ [x]) = repeat None n ++ [y]).
    { intros x y. pose proof (put_snoc (repeat (@None (list str)) n) x y) as Hp. rewrite repeat_length in Hp. exact Hp. }
    rewrite P1. replace (nth_error (repeat None n ++ [Some [nm (p_made p)]]) n) with (Some (Some [nm (p_made p)])).
    2:{ symmetry. pose proof (nth_snoc (repeat (@None (list str)) n) (Some [nm (p_made p)])) as Hn. rewrite repeat_length in Hn. exact Hn. }
    cbn [obind fst snd]. rewrite P1. eexists _, _. split; [reflexivity|]. cbn [p_num p_tmp p_disk]. split.
    + apply Forall_app. split; [exact F|]. repeat constructor.
    + split; [lia|]. split; [symmetry; apply repeat_cons|]. rewrite app_length. cbn [List.length]. lia.
Qed.
Lemma c129_closed_refuted (nm : nat -> str) (cols : grid) : columns cols ->
  exists p bs, frun nm proc0 (one_by_one cols 63 ++ [New; Data 63 cols]) = Ok (p, bs ++ [true; false]) /\ Forall (fun b => b = true) bs /\
    (forall k, opened p k -> k = 63) /\ nth_error (p_tmp p) 63 = Some (Some []).
Proof.
  intros C. destruct (one_run nm cols C 63 (le_n 63)) as (p & bs & E & F & Nu & Tm & Dk). rewrite frun_app, E. cbn [obind fst snd frun fstep p_tmp p_num p_disk p_made].
  rewrite Tm. change (nth_error (repeat None 63 ++ [Some []]) 63) with (Some (Some (@nil str))).
  destruct (rows_ok cols C) as (rows & Er & _). destruct (checks_spec cols (proj1 C)) as [_ Ck]. rewrite (Ck C), Er. cbn [obind].
  unfold make_file. cbn [p_num]. rewrite Nu. change (Z.eqb (Z.of_nat 63) 63) with true. cbn [obind fst snd].
  eexists _, bs. split; [reflexivity|]. split; [exact F|]. cbn [p_tmp]. split; [|reflexivity].
  intros k [l K]. cbn [p_tmp] in K. destruct (Nat.lt_ge_cases k 63) as [Lk|Lk].
  - rewrite nth_error_app1 in K by (rewrite repeat_length; exact Lk). apply nth_error_In, repeat_spec in K. discriminate.
  - assert (k < 64) by (change 64 with (List.length (repeat (@None (list str)) 63 ++ [Some []])); apply nth_error_Some; congruence). lia.
Qed.

Lemma lists_apart : forall (ts : list (option (list str))) k k' l l' x, NoDup (flat_map list_of ts) -> k <> k' ->
  nth_error ts k = Some (Some l) -> nth_error ts k' = Some (Some l') -> In x l -> In x l' -> False.
Proof.
  assert (K : forall (ts : list (option (list str))) k l x, nth_error ts k = Some (Some l) -> In x l -> In x (flat_map list_of ts)).
  { intros ts k l x E X. apply in_flat_map. exists (Some l). split; [apply nth_error_In in E; exact E|exact X]. }
  assert (D : forall (a b : list str) x, NoDup (a ++ b) -> In x a -> In x b -> False).
  { induction a as [|y a IH]; intros b x N A B; [destruct A|]. cbn [app] in N. inversion N; subst. destruct A as [-> | A]; [|exact (IH b x H2 A B)]. apply H1. apply in_or_app. right. exact B. }
  induction ts as [|t ts IH]; intros k k' l l' x N Ne E1 E2 X1 X2; [destruct k; discriminate|]. cbn [flat_map] in N.
  destruct k as [|k], k' as [|k']; cbn [nth_error] in *; try lia.
  - injection E1 as ->. exact (D l _ x N X1 (K ts k' l' x E2 X2)).
  - injection E2 as ->. exact (D l' _ x N X2 (K ts k l x E1 X1)).
  - apply (IH k k' l l' x); auto. clear - N. induction (list_of t) as [|y a IHa]; [exact N|]. apply IHa. inversion N; assumption.
Qed.
Lemma lists_nodup : forall (ts : list (option (list str))) k l, NoDup (flat_map list_of ts) -> nth_error ts k = Some (Some l) -> NoDup l.
Proof.
  induction ts as [|t ts IH]; intros k l N E; [destruct k; discriminate|]. cbn [flat_map] in N. destruct k as [|k]; cbn [nth_error] in E.
  - injection E as ->. cbn [list_of] in N. clear - N. induction l as [|y a IHa]; [constructor|]. inversion N; subst. constructor; [intro X; apply H1; apply in_or_app; left; exact X|auto].
  - apply (IH k l); auto. clear - N. induction (list_of t) as [|y a IHa]; [exact N|]. apply IHa. inversion N; assumption.
Qed.
Lemma remove_all (nm : nat -> str) (ks : list nat) : forall p, NoDup ks -> (forall k, In k ks -> opened p k) -> NoDup (owned p) -> NoDup (map fst (p_disk p)) ->
  p_num p = Z.of_nat (List.length (p_disk p)) -> (forall k l, In k ks -> nth_error (p_tmp p) k = Some (Some l) -> incl l (map fst (p_disk p))) ->
  exists q bs, frun nm p (map Remove ks) = Ok (q, bs) /\ p_num q = Z.of_nat (List.length (p_disk q)) /\ p_tmp q = p_tmp p /\
    forall f, In f (p_disk q) <-> In f (p_disk p) /\ ~ file_of p ks f.
Proof.
  induction ks as [|k ks IH]; intros p Nk O No Nd Nu Inc.
  - exists p, []. split; [reflexivity|]. split; [exact Nu|]. split; [reflexivity|]. intros f. split; [intros F; split; [exact F|intros (k & l & [] & _)]|intros [F _]; exact F].
  - inversion Nk as [|? ? Nk1 Nk2]; subst. destruct (O k (or_introl eq_refl)) as [l N].
    cbn [map frun fstep]. rewrite N. cbn [obind fst snd]. set (p1 := mkP _ _ _ _).
    pose proof (Inc k l (or_introl eq_refl) N) as I1. pose proof (lists_nodup (p_tmp p) k l No N) as Nl.
    pose proof (filter_count l (p_disk p) Nd Nl I1) as Fc.
    assert (Nd1 : NoDup (map fst (p_disk p1))).
    { cbn [p1 p_disk]. clear - Nd. induction (p_disk p) as [|f d IHd]; [constructor|]. cbn [map] in Nd. inversion Nd; subst. cbn [filter]. destruct (negb _); [|auto]. cbn [map]. constructor; [|auto].
      intros X. apply H1. apply in_map_iff in X. destruct X as (g & E & X). apply filter_In in X. rewrite <- E. apply in_map. apply X. }
    destruct (IH p1 Nk2) as (q & bs & E & Q1 & Q2 & Q3).
    + intros j J. destruct (O j (or_intror J)) as [lj Nj]. exists lj. exact Nj.
    + exact No.
    + exact Nd1.
    + cbn [p1 p_num p_disk]. rewrite Nu. unfold str in *. lia.
    + intros j lj J Nj x X. cbn [p1 p_tmp p_disk] in *. pose proof (Inc j lj (or_intror J) Nj x X) as Ix. apply in_map_iff in Ix. destruct Ix as (f & Ef & If).
      apply in_map_iff. exists f. split; [exact Ef|]. apply filter_In. split; [exact If|]. apply negb_true_iff. destruct (named l (fst f)) eqn:Nf; [|reflexivity]. exfalso.
      apply named_In in Nf. rewrite Ef in Nf. apply (lists_apart (p_tmp p) k j l lj x No); auto. intros ->. contradiction.
    + rewrite E. cbn [obind fst snd]. exists q, (true :: bs). split; [reflexivity|]. split; [exact Q1|]. split; [exact Q2|].
      intros f. rewrite Q3. cbn [p1 p_disk]. rewrite filter_In, negb_true_iff. unfold file_of. cbn [p_tmp p1]. split.
      * intros [[F1 F2] F3]. split; [exact F1|]. intros (j & lj & [<- | J] & Nj & X).
        -- rewrite N in Nj. injection Nj as <-. apply named_In in X. congruence.
        -- apply F3. exists j, lj. auto.
      * intros [F1 F2]. split; [split; [exact F1|]|].
        -- destruct (named l (fst f)) eqn:Nf; [|reflexivity]. exfalso. apply F2. exists k, l. apply named_In in Nf. split; [left; reflexivity|auto].
        -- intros (j & lj & J & Nj & X). apply F2. exists j, lj. split; [right; exact J|auto].
Qed.
Lemma sane_disk (nm : nat -> str) (p : proc) : (forall i j, nm i = nm j -> i = j) -> sane nm p -> NoDup (map fst (p_disk p)).
Proof.
  intros Inj [_ _ _ S4 _]. rewrite S4. apply FinFun.Injective_map_NoDup; [exact Inj|apply seq_NoDup].
Qed.
Lemma sane_lists (nm : nat -> str) (p : proc) k l : sane nm p -> nth_error (p_tmp p) k = Some (Some l) -> incl l (map fst (p_disk p)).
Proof. intros [_ _ _ _ [_ S6]] N x X. apply S6. unfold owned. apply in_flat_map. exists (Some l). split; [apply nth_error_In in N; exact N|exact X]. Qed.
Lemma c129_remove (nm : nat -> str) (cs : list fcall) (p : proc) (bs : list bool) (ks : list nat) :
  (forall i j, nm i = nm j -> i = j) -> no_remove cs -> frun nm proc0 cs = Ok (p, bs) -> NoDup ks -> (forall k, In k ks -> opened p k) ->
  exists q ts, frun nm p (map Remove ks) = Ok (q, ts) /\ p_num q = Z.of_nat (List.length (p_disk q)) /\ forall f, In f (p_disk q) <-> In f (p_disk p) /\ ~ file_of p ks f.
Proof.
  intros Inj NR E Nk O. destruct (sane_run nm cs Inj proc0 p bs (sane0 nm) NR E) as [S M].
  destruct (remove_all nm ks p Nk O) as (q & ts & R & Q1 & _ & Q3).
  - apply (sa_owned nm p S).
  - apply (sane_disk nm p Inj S).
  - apply (sa_num nm p S).
  - intros k l _ N. apply (sane_lists nm p k l S N).
  - exists q, ts. auto.
Qed.
Lemma c129_twice_refuted (nm : nat -> str) (cs : list fcall) (p : proc) (bs : list bool) (k : nat) (l : list str) :
  (forall i j, nm i = nm j -> i = j) -> no_remove cs -> frun nm proc0 cs = Ok (p, bs) -> nth_error (p_tmp p) k = Some (Some l) ->
  exists q, frun nm p [Remove k; Remove k] = Ok (q, [true; true]) /\ p_num q = (Z.of_nat (List.length (p_disk q)) - Z.of_nat (List.length l))%Z.
Proof.
  intros Inj NR E N. destruct (sane_run nm cs Inj proc0 p bs (sane0 nm) NR E) as [S M].
  destruct (remove_all nm [k] p) as (q & ts & R & Q1 & Q2 & Q3).
  - constructor; [intros []|constructor].
  - intros j [<- | []]. exists l. exact N.
  - apply (sa_owned nm p S).
  - apply (sane_disk nm p Inj S).
  - apply (sa_num nm p S).
  - intros j lj _ Nj. apply (sane_lists nm p j lj S Nj).
  - cbn [map frun fstep] in *. rewrite N in *. cbn [obind fst snd p_tmp] in *. rewrite N. cbn [obind fst snd].
    injection R as R1 _. eexists. split; [reflexivity|]. cbn [p_num p_disk]. subst q. cbn [p_num p_disk] in *.
    assert (F : forall d : list (str * list (list str)), filter (fun f => negb (named l (fst f))) (filter (fun f => negb (named l (fst f))) d) = filter (fun f => negb (named l (fst f))) d).
    { induction d as [|f d IH]; [reflexivity|]. cbn [filter]. destruct (negb (named l (fst f))) eqn:B; [|exact IH]. cbn [filter]. rewrite B, IH. reflexivity. }
    rewrite F. lia.
Qed.

(** ** C130 *)
Lemma toks_word (d : ascii) (f : str) : forall cur s, ~ In d f -> toks d cur (f ++ s) = toks d (rev f ++ cur) s.
Proof.
  induction f as [|c f IH]; intros cur s N; [reflexivity|]. cbn [app toks]. destruct (Ascii.eqb_spec c d) as [->|Nc]; [exfalso; apply N; left; reflexivity|].
  rewrite IH by (intros X; apply N; right; exact X). cbn [rev]. rewrite <- app_assoc. reflexivity.
Qed.
Lemma toks_delims (d : ascii) (n : nat) (s : str) : toks d [] (repeat d n ++ s) = toks d [] s.
Proof. induction n as [|n IH]; [reflexivity|]. cbn [repeat app toks]. rewrite Ascii.eqb_refl. exact IH. Qed.
Lemma toks_end (d : ascii) (f : str) (n : nat) (s : str) : f <> [] -> toks d (rev f) (repeat d (S n) ++ s) = f :: toks d [] s.
Proof.
  intros N. cbn [repeat app toks]. rewrite Ascii.eqb_refl, toks_delims. destruct (rev f) eqn:E; [|rewrite <- E, rev_involutive; reflexivity].
  apply (f_equal (@rev ascii)) in E. rewrite rev_involutive in E. cbn in E. congruence.
Qed.
Lemma c130_entries (d : ascii) (m : nat) (f : str) (l : spaced) (n : nat) :
  entry d f -> Forall (fun x => entry d (snd x)) l -> stringtok d (joined_by d m f l n) = f :: map snd l.
Proof.
  intros F L. unfold stringtok, joined_by. rewrite toks_delims. revert f F. induction L as [|[k g] l G L IH]; intros f [F1 F2].
  - cbn [flat_map map app]. rewrite toks_word by exact F2. rewrite app_nil_r. destruct n as [|n].
    + cbn [repeat toks]. destruct (rev f) eqn:E; [|rewrite <- E, rev_involutive; reflexivity].
      apply (f_equal (@rev ascii)) in E. rewrite rev_involutive in E. cbn in E. congruence.
    + pose proof (toks_end d f n [] F1) as T. rewrite app_nil_r in T. rewrite T. reflexivity.
  - cbn [flat_map map fst snd] in *. rewrite toks_word by exact F2. rewrite app_nil_r, <- !app_assoc, toks_end by exact F1. f_equal. apply IH. exact G.
Qed.
Lemma c130_delims (d : ascii) (n : nat) : stringtok d (repeat d n) = [].
Proof. pose proof (toks_delims d n []) as T. rewrite app_nil_r in T. exact T. Qed.

Lemma find_first (exe : str -> bool) (l : list str) (x : str) : first_with (fun d => exe (prog d) = true) l x -> List.find (fun d => exe (prog d)) l = Some x.
Proof.
  intros (a & b & -> & X & N). induction a as [|y a IH]; cbn [app List.find].
  - rewrite X. reflexivity.
  - destruct (exe (prog y)) eqn:E; [exfalso; apply (N y (or_introl eq_refl) E)|]. apply IH. intros z Z. apply N. right. exact Z.
Qed.
Lemma find_none (exe : str -> bool) (l : list str) : (forall x, In x l -> exe (prog x) = false) -> List.find (fun d => exe (prog d)) l = None.
Proof. induction l as [|y l IH]; intros H; cbn [List.find]; [reflexivity|]. rewrite (H y (or_introl eq_refl)). apply IH. intros z Z. apply H. right. exact Z. Qed.
Lemma c130_search (exe : str -> bool) (dir : str) (m n : nat) (f : str) (l : spaced) :
  entry ":"%char f -> Forall (fun x => entry ":"%char (snd x)) l ->
  (forall x, first_with (fun d => exe (d ++ t# "/gnuplot") = true) (dir :: f :: map snd l) x ->
     get_program_path exe (Some (joined_by ":"%char m f l n)) dir = (x, true) /\ get_program_path exe (Some (joined_by ":"%char m f l n)) x = (x, true)) /\
  ((forall x, In x (dir :: f :: map snd l) -> exe (x ++ t# "/gnuplot") = false) -> get_program_path exe (Some (joined_by ":"%char m f l n)) dir = (dir, false)).
Proof.
  intros F L. unfold get_program_path. rewrite (c130_entries ":"%char m f l n F L). split.
  - intros x H. pose proof H as (a & b & E & X & N). change (exe (prog x) = true) in X. split; [|rewrite X; reflexivity].
    destruct a as [|y a]; cbn [app] in E; injection E as E1 E2; [subst x; rewrite X; reflexivity|]. subst y.
    destruct (exe (prog dir)) eqn:D; [exfalso; apply (N dir (or_introl eq_refl) D)|].
    assert (H2 : first_with (fun d => exe (prog d) = true) (f :: map snd l) x).
    { exists a, b. split; [exact E2|]. split; [exact X|]. intros z Z. apply N. right. exact Z. }
    rewrite (find_first exe (f :: map snd l) x H2). reflexivity.
  - intros H. pose proof (H dir (or_introl eq_refl)) as D. change (exe (prog dir) = false) in D. rewrite D.
    rewrite (find_none exe (f :: map snd l)); [reflexivity|]. intros x X. apply H. right. exact X.
Qed.
Lemma c130_unset (exe : str -> bool) (dir : str) : get_program_path exe None dir = (dir, exe (dir ++ t# "/gnuplot")).
Proof. unfold get_program_path, prog. destruct (exe _); reflexivity. Qed.
Lemma c130_set (exe : str -> bool) (d : str) : exe (d ++ t# "/gnuplot") = true -> set_path exe d = (d, true) /\ forall path, get_program_path exe path (fst (set_path exe d)) = (d, true).
Proof. intros E. unfold set_path, get_program_path, prog. rewrite E. cbn [fst]. rewrite E. auto. Qed.
Lemma c130_set_refuted (exe : str -> bool) (dir d : str) : exe (dir ++ t# "/gnuplot") = true -> exe (d ++ t# "/gnuplot") = false -> exe t# "/gnuplot" = false ->
  set_path exe d = ([], false) /\ get_program_path exe None dir = (dir, true) /\ get_program_path exe None (fst (set_path exe d)) = ([], false).
Proof. intros E1 E2 E3. unfold set_path, get_program_path, prog. rewrite E1, E2. cbn [fst app]. rewrite E3. auto. Qed.

Definition two_cols : list (list str) := [[t# "1"; t# "2"; t# "3"]; [t# "4"; t# "5"; t# "6"]].
(** Distinct names. *)
Definition name_n (n : nat) : str := t# "/tmp/gnuploti" ++ repeat "x"%char n.
Lemma name_inj (i j : nat) : name_n i = name_n j -> i = j.
Proof. intros E. apply (f_equal (@List.length ascii)) in E. unfold name_n in E. rewrite !app_length, !repeat_length in E. lia. Qed.
Lemma two_columns : columns two_cols.
Proof. split; [discriminate|]. exists 3. split; [lia|]. repeat constructor. Qed.
Lemma c129_contents_ex : columns two_cols /\ exists p, frun name_n proc0 [New; Data 0 two_cols] = Ok (p, [true; true]) /\
  p_disk p = [(t# "/tmp/gnuploti", [[t# "1"; t# "4"]; [t# "2"; t# "5"]; [t# "3"; t# "6"]])].
Proof. split; [exact two_columns|]. eexists. split; [vm_compute; reflexivity|reflexivity]. Qed.
Lemma c129_reject_ex : ~ columns [[t# "1"]; []] /\ exists p, frun name_n proc0 [New; Data 0 [[t# "1"]; []]] = Ok (p, [true; false]).
Proof.
  split; [|eexists; vm_compute; reflexivity]. intros [_ (n & n0 & F)]. inversion F; subst. inversion H2; subst. cbn in *. lia.
Qed.
Lemma c129_pixels_ex : exists p, frun name_n proc0 [New; Pixels 0 2 1 [t# "7"; t# "9"] (fun n => repeat "i"%char n)] = Ok (p, [true; true]) /\
  p_disk p = [(t# "/tmp/gnuploti", [[[]; []; t# "7"]; [t# "i"; []; t# "9"]])].
Proof. eexists. split; [vm_compute; reflexivity|reflexivity]. Qed.
Lemma c129_limit_ex : (forall i j, name_n i = name_n j -> i = j) /\ no_remove [New; Data 0 two_cols] /\ exists p, frun name_n proc0 [New; Data 0 two_cols] = Ok (p, [true; true]) /\ opened p 0.
Proof.
  split; [exact name_inj|]. split; [intros k [H|[H|[]]]; discriminate|]. eexists. split; [vm_compute; reflexivity|]. eexists. reflexivity.
Qed.
Lemma c129_closed_refuted_ex : columns two_cols /\ List.length (one_by_one two_cols 63) = 189.
Proof. split; [exact two_columns|vm_compute; reflexivity]. Qed.
Lemma c129_remove_ex : no_remove [New; New; Data 0 two_cols; Data 1 two_cols] /\ exists p q, frun name_n proc0 [New; New; Data 0 two_cols; Data 1 two_cols] = Ok (p, [true; true; true; true]) /\
  opened p 1 /\ frun name_n p (map Remove [1]) = Ok (q, [true]) /\ map fst (p_disk q) = [t# "/tmp/gnuploti"] /\ p_num q = 1%Z.
Proof.
  split; [intros k [H|[H|[H|[H|[]]]]]; discriminate|]. eexists. eexists. split; [vm_compute; reflexivity|]. split; [eexists; reflexivity|]. split; [vm_compute; reflexivity|]. split; reflexivity.
Qed.
Lemma c129_twice_refuted_ex : exists p q, frun name_n proc0 [New; Data 0 two_cols] = Ok (p, [true; true]) /\ frun name_n p [Remove 0; Remove 0] = Ok (q, [true; true]) /\ p_num q = (-1)%Z /\ p_disk q = [].
Proof. eexists. eexists. split; [vm_compute; reflexivity|]. split; [vm_compute; reflexivity|]. split; reflexivity. Qed.
Lemma c130_entries_ex : entry ":"%char t# "/bin" /\ stringtok ":"%char t# "::/bin:/usr/bin::" = [t# "/bin"; t# "/usr/bin"] /\ joined_by ":"%char 2 t# "/bin" [(0, t# "/usr/bin")] 2 = t# "::/bin:/usr/bin::".
Proof. split; [split; [discriminate|cbn; intuition discriminate]|]. split; vm_compute; reflexivity. Qed.
Lemma c130_search_ex : let exe := fun f => if list_eq_dec ascii_dec f t# "/usr/bin/gnuplot" then true else false in
  get_program_path exe (Some t# "/bin:/usr/bin") t# "/usr/local/bin/" = (t# "/usr/bin", true).
Proof. vm_compute. reflexivity. Qed.
Lemma c130_set_refuted_ex : let exe := fun f => if list_eq_dec ascii_dec f t# "/usr/local/bin//gnuplot" then true else false in
  exe (t# "/usr/local/bin/" ++ t# "/gnuplot") = true /\ exe (t# "/opt" ++ t# "/gnuplot") = false /\ exe t# "/gnuplot" = false.
Proof. vm_compute. auto. Qed.
