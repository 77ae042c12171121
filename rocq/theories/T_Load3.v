(** Proofs for P_Load3.v: C102 .arff files, C103 .txt files, C104 load and write. *)
From Coq Require Import ZArith QArith Ascii Bool String List Lia.
From Verif Require Import Base ListLib M_Data S_Data M_Str S_Str L_Str2 L_Str3 T_Str M_Load S_Load L_Load L_Load2 L_Load3 L_Load4 L_Load5 T_Load T_Load2.
From Verif Require Import L_Join M_Eq S_Eq T_Eq M_Load2 S_Load2.
Import ListNotations.
Local Open Scope nat_scope.

(** *** Lines and cells *)
Lemma pieces_cells c init t : Forall (cell_ok c) init -> cell_ok c t ->
  pieces c [] (join_with c (init ++ [t])) = map (fun u => (u, false)) init ++ [(t, true)].
Proof.
  intros F (Nt & It & _). induction F as [|u init (Nu & Iu & _) F IH]; cbn [app map].
  - cbn [join_with]. rewrite pieces_last by auto. reflexivity.
  - rewrite join_cons by (destruct init; discriminate). rewrite pieces_step by auto. cbn [app]. now rewrite IH.
Qed.
Lemma pieces_row c r : Forall (cell_ok c) r -> map fst (pieces c [] (join_with c r)) = r.
Proof. intros F. apply pieces_join. eapply Forall_impl; [|exact F]. intros t (A & B & _). auto. Qed.
Lemma row_trim c r : Forall (cell_ok c) r -> trim (join_with c r) = join_with c r.
Proof.
  intros F. destruct r as [|t r]; [reflexivity|]. apply trim_id2.
  - inversion F as [|? ? (Nt & _ & W) _]; subst. destruct t as [|a t]; [congruence|]. inversion W; subst. destruct r; cbn; auto.
  - apply rev_join_first. eapply Forall_impl; [|exact F]. intros u (A & _ & B). auto.
Qed.
Lemma row_newline c r : c <> newline -> Forall (cell_ok c) r -> ~ In newline (join_with c r).
Proof.
  intros N F H. assert (G : Forall (fun x => x <> newline) (join_with c r)).
  { apply join_Forall; auto. eapply Forall_impl; [|exact F]. intros t (_ & _ & W). eapply Forall_impl; [|exact W]. intros x Wx ->. apply Wx. vm_compute. auto. }
  rewrite Forall_forall in G. now apply (G newline).
Qed.
Lemma table_lines c n rows : c <> newline -> table c n rows -> lines (text_of c rows) = map (join_with c) rows.
Proof.
  intros N H. unfold text_of. rewrite <- (lines_ok (map (join_with c) rows)).
  - now rewrite map_map.
  - apply Forall_map. eapply Forall_impl; [|exact H]. intros r (_ & F). split; [now apply row_newline|now apply row_trim].
Qed.
Lemma zset_at A (pre : list A) q rest a : zset (pre ++ q :: rest) (Z.of_nat (List.length pre)) a = Ok (pre ++ a :: rest).
Proof. unfold zset. destruct (Z.ltb_spec (Z.of_nat (List.length pre)) 0); [lia|]. rewrite Nat2Z.id. apply vupd_mid. Qed.
Lemma zset_out A (l : list A) i a : (Z.of_nat (List.length l) <= i)%Z -> zset l i a = UB.
Proof.
  intros H. unfold zset. destruct (Z.ltb_spec i 0); [auto|]. unfold vupd. destruct (upd (Z.to_nat i) (fun _ => a) l) eqn:E; auto.
  apply upd_Some_lt in E. lia.
Qed.

(** *** C102 *)
Lemma arff_row_csv items : forall k x y s, arff_row true items k x y s = csv_row true items k x y s.
Proof.
  induction items as [|[t e] items IH]; intros k x y s; cbn [arff_row csv_row]; auto. destruct e; cbn [negb].
  - destruct (process_class s t) as [[c s']| |]; cbn [obind]; auto.
  - destruct (if is_number t then zset x (k + 1) (atod t) else Ok x); cbn [obind]; auto.
Qed.
Lemma arff_features init : forall t pre rest y s c s1, List.length rest = List.length init -> Forall (eq 0%Q) rest -> process_class s t = Ok (c, s1) ->
  arff_row true (map (fun u => (u, false)) init ++ [(t, true)]) (Z.of_nat (List.length pre) - 1) (pre ++ rest) y s = Ok (pre ++ map cell init, c, s1).
Proof.
  induction init as [|u init IH]; intros t pre rest y s c s1 L Z0 E; cbn [map app arff_row negb].
  - destruct rest; [|discriminate]. rewrite E. reflexivity.
  - destruct rest as [|q rest]; [discriminate|]. inversion Z0 as [|? ? Q0 Z1]; subst. replace (Z.of_nat (List.length pre) - 1 + 1)%Z with (Z.of_nat (List.length pre)) by lia.
    assert (X : (if is_number u then zset (pre ++ 0%Q :: rest) (Z.of_nat (List.length pre)) (atod u) else Ok (pre ++ 0%Q :: rest)) = Ok ((pre ++ [cell u]) ++ rest)).
    { rewrite <- app_assoc. cbn [app]. unfold cell. destruct (is_number u); [apply zset_at|reflexivity]. }
    rewrite X. cbn [obind]. replace (Z.of_nat (List.length pre)) with (Z.of_nat (List.length (pre ++ [cell u])) - 1)%Z by (rewrite app_length; cbn; lia).
    rewrite (IH t _ _ y s c s1); auto. now rewrite <- app_assoc.
Qed.
Lemma arff_features_abort init : forall t pre rest y s, List.length rest = List.length init -> process_class s t = Abort ->
  arff_row true (map (fun u => (u, false)) init ++ [(t, true)]) (Z.of_nat (List.length pre) - 1) (pre ++ rest) y s = Abort.
Proof.
  induction init as [|u init IH]; intros t pre rest y s L E; cbn [map app arff_row negb].
  - destruct rest; [|discriminate]. now rewrite E.
  - destruct rest as [|q rest]; [discriminate|]. replace (Z.of_nat (List.length pre) - 1 + 1)%Z with (Z.of_nat (List.length pre)) by lia.
    assert (X : exists v, (if is_number u then zset (pre ++ q :: rest) (Z.of_nat (List.length pre)) (atod u) else Ok (pre ++ q :: rest)) = Ok ((pre ++ [v]) ++ rest)).
    { destruct (is_number u); [exists (atod u); rewrite zset_at|exists q]; now rewrite <- app_assoc. }
    destruct X as (v & X). rewrite X. cbn [obind]. replace (Z.of_nat (List.length pre)) with (Z.of_nat (List.length (pre ++ [v])) - 1)%Z by (rewrite app_length; cbn; lia).
    apply IH; auto.
Qed.
Lemma zeros_eq n : Forall (eq 0%Q) (repeat 0%Q n).
Proof. apply Forall_forall. intros q H. apply repeat_spec in H. auto. Qed.

(** The rows of a table given as features and class. *)
Lemma arff_rows_table n : forall ts id s ys s', Forall (fun r => List.length (fst r) = n /\ Forall (cell_ok ",") (fst r) /\ cell_ok "," (snd r)) ts ->
  run_classes s (map snd ts) = Ok (ys, s') ->
  exists pts, arff_rows true n (map (fun r => join_with "," (fst r ++ [snd r])) ts) id s = Ok (pts, s') /\
    map p_x pts = map (fun r => map cell (fst r)) ts /\ map p_y pts = ys /\ map p_id pts = iota id (List.length ts).
Proof.
  induction ts as [|[fs c] ts IH]; intros id s ys s' F E; cbn [map run_classes] in E.
  - injection E as <- <-. exists []. cbn. auto.
  - inversion F as [|? ? (Ln & Ff & Fc) F']; subst. cbn [fst snd] in *.
    destruct (process_class s c) as [[y s1]| |] eqn:E1; cbn [obind] in E; try discriminate.
    destruct (run_classes s1 (map snd ts)) as [[l s2]| |] eqn:E2; cbn [obind] in E; try discriminate. injection E as <- <-.
    destruct (IH (id + 1)%Z s1 l s2 F' E2) as (pts & E3 & X & Y & I). exists (mkPoint (map cell fs) y id 0%Q :: pts).
    cbn [map arff_rows fst snd]. rewrite pieces_cells by auto.
    pose proof (arff_features fs c [] (repeat 0%Q (List.length fs)) y_default s y s1 (repeat_length _ _) (zeros_eq _) E1) as G.
    cbn [List.length app] in G. change (Z.of_nat 0 - 1)%Z with (-1)%Z in G. unfold str in *. rewrite G. cbn [obind]. rewrite E3. cbn [obind fst snd]. split; auto. cbn [map p_x p_y p_id]. rewrite X, Y, I. split; auto. split; auto.
    unfold iota. cbn [List.length seq map]. f_equal; [lia|]. rewrite <- seq_shift, map_map. apply map_ext. intro i. lia.
Qed.
Lemma arff_count_all l : arff_count [] l = Z.of_nat (List.length (pieces "," [] l)).
Proof. unfold arff_count. f_equal. f_equal. apply filter_id. apply Forall_forall. intros p _. cbn [find_name List.length Nat.eqb]. apply orb_true_r. Qed.
Lemma pieces_count c r : Forall (cell_ok c) r -> List.length (pieces c [] (join_with c r)) = List.length r.
Proof. intros F. rewrite <- (map_length fst). now rewrite pieces_row. Qed.

Lemma c102_table n (ts : list line_of_data) ys s : ts <> [] ->
  Forall (fun r => List.length (fst r) = n /\ Forall (cell_ok ",") (fst r) /\ cell_ok "," (snd r)) ts ->
  run_classes no_classes (map snd ts) = Ok (ys, s) ->
  exists d, load_arff true fresh (text_of "," (map (fun r => fst r ++ [snd r]) ts)) = Ok (d, true) /\
    map p_x (d_points d) = map (fun r => map cell (fst r)) ts /\ labels (d_points d) = ys /\ map p_id (d_points d) = iota 1 (List.length ts) /\
    d_dim d = n /\ d_fnames d = iota 1 n /\ d_size d = List.length ts /\ d_classes d = cs_classes s /\ d_dist d = cs_dist s /\ d_cnames d = cs_names s.
Proof.
  intros N F E. assert (Tb : table "," (S n) (map (fun r => fst r ++ [snd r]) ts)).
  { apply Forall_map. eapply Forall_impl; [|exact F]. intros r (A & B & C). split; [rewrite app_length; cbn; lia|]. apply Forall_app. auto. }
  unfold load_arff. cbv zeta. rewrite (table_lines "," (S n)) by (auto; discriminate). rewrite !map_map.
  rewrite (check_dims_const _ (Z.of_nat (S n))); [|apply Forall_map|auto|destruct ts; [congruence|discriminate]].
  2:{ eapply Forall_impl; [|exact F]. intros r (A & B & C). cbn [fresh d_cnames]. rewrite arff_count_all, pieces_count by (apply Forall_app; auto).
      rewrite app_length. cbn [List.length]. lia. }
  destruct (Z.eqb_spec (Z.of_nat (S n)) 0); [lia|]. replace (Z.to_nat (Z.of_nat (S n) - 1)) with n by lia.
  change (cstate_of fresh) with no_classes. destruct (arff_rows_table n ts 1 no_classes ys s F E) as (pts & E1 & X & Y & I).
  rewrite E1. cbn [obind fst snd]. eexists. split; [reflexivity|]. cbn. split; auto. split; auto. split; auto. split; auto. split; auto. split; auto.
  rewrite <- (map_length p_x), X. apply map_length.
Qed.

(** Any text whose lines are not empty and do not end with a comma. *)
Lemma arff_rows_csv dm ls : forall id s, arff_rows true dm ls id s = csv_rows true "," dm ls id s.
Proof. induction ls as [|l ls IH]; intros id s; cbn [arff_rows csv_rows]; auto. rewrite arff_row_csv. destruct (csv_row _ _ _ _ _ _) as [[[x y] s1]| |]; cbn [obind]; auto. now rewrite IH. Qed.
Lemma c102_safe d file : List.length (d_dist d) = List.length (d_classes d) -> d_cnames d = [] ->
  (forall l, In l (lines file) -> l <> [] /\ forall u, l <> u ++ [","%char]) -> load_arff true d file <> UB /\
  forall d', load_arff true d file = Ok (d', true) -> d_size d' = List.length (d_points d') /\ List.length (d_points d') = List.length (lines file) /\
    Forall (fun p => List.length (p_x p) = d_dim d') (d_points d') /\ d_fnames d' = iota 1 (d_dim d') /\ map p_id (d_points d') = iota 1 (d_size d').
Proof.
  intros L Cn G. unfold load_arff. cbv zeta. destruct (check_dims _ 0) as [m|] eqn:C; [|split; discriminate]. destruct (Z.eqb_spec m 0) as [|Hm]; [split; discriminate|].
  apply check_dims_all in C as [_ C]. rewrite Forall_map, Forall_forall in C. rewrite arff_rows_csv.
  assert (Cl : forall l, In l (lines file) -> Z.of_nat (List.length (pieces "," [] l)) = 0%Z \/ Z.of_nat (List.length (pieces "," [] l)) = m).
  { intros l Hl. specialize (C l Hl). rewrite Cn, arff_count_all in C. exact C. }
  destruct (rows_safe true "," (Z.to_nat (m - 1)) (fun l => In l (lines file))) with (ls := lines file) (id := 1%Z) (s := cstate_of d) as [N A].
  - intros l s Hl S0. destruct (G l Hl) as [Ne Nd]. destruct (pieces_eof "," (List.length l) l (le_n _) Ne Nd) as (init & t & Q).
    pose proof (csv_end_safe init t (-1) (repeat 0%Q (Z.to_nat (m - 1))) y_default s) as X. specialize (Cl l Hl). rewrite Q in Cl |- *. rewrite app_length, map_length in Cl. cbn [List.length] in Cl.
    rewrite repeat_length in X. apply X; [lia|lia|auto].
  - apply Forall_forall. auto.
  - exact L.
  - destruct (csv_rows _ _ _ _ _ _) as [[qs s']| |]; [|congruence|split; discriminate]. cbn [obind fst snd]. destruct (A _ _ eq_refl) as (A1 & A2 & A3).
    split; [discriminate|]. intros d' E. injection E as <-. cbn [loaded d_size d_points d_dim d_fnames]. rewrite A2. auto.
Qed.
Lemma c102_comma_refuted : load_arff true fresh (txt "1,2," ++ [newline]) = UB.
Proof. vm_compute. reflexivity. Qed.

(** A line without a comma, as every line of the header of an ARFF file, among lines with one: nothing is read. *)
Lemma c102_header_refuted atEnd file l1 l2 : In l1 (lines file) -> In l2 (lines file) -> l1 <> [] -> ~ In ","%char l1 ->
  (exists a b, l2 = a ++ ","%char :: b /\ b <> []) -> load_arff atEnd fresh file = Ok (fresh, false).
Proof.
  intros I1 I2 N1 C1 (a & b & E2 & Nb). unfold load_arff. cbv zeta. destruct (check_dims _ 0) as [m|] eqn:C; auto. exfalso.
  apply check_dims_all in C as [_ C]. rewrite Forall_map, Forall_forall in C. pose proof (C l1 I1) as A1. pose proof (C l2 I2) as A2.
  cbn [fresh d_cnames] in A1, A2. rewrite arff_count_all in A1, A2. rewrite pieces_last in A1 by auto. cbn [List.length] in A1.
  assert (Len : (2 <= List.length (pieces "," [] l2))%nat); [|lia].
  destruct (split_char "," l2) as [H|(t & u & Et & H)]; [exfalso; apply H; rewrite E2; apply in_or_app; right; now left|].
  rewrite Et, pieces_step by auto. cbn [List.length]. assert (u <> []) as Nu.
  { intros ->. rewrite E2 in Et. destruct (@exists_last _ b Nb) as (b' & z & ->). rewrite app_comm_cons, app_assoc in Et. apply app_inj_tail in Et as [Et _].
    apply H. rewrite <- Et. apply in_or_app. right. now left. }
  destruct u as [|z u]; [congruence|]. destruct (split_char "," (z :: u)) as [H'|(t' & u' & Et' & H')].
  - rewrite pieces_last by auto. cbn. lia.
  - rewrite Et', pieces_step by auto. cbn. lia.
Qed.
Definition header : list ascii :=
  txt "@relation iris" ++ newline :: txt "@attribute sepal real" ++ newline :: txt "@attribute class {a,b}" ++ newline :: txt "@data" ++ newline :: txt "5.1,a" ++ [newline].
Lemma c102_header_ex : In (txt "@data") (lines header) /\ In (txt "5.1,a") (lines header) /\ load_arff true fresh header = Ok (fresh, false).
Proof. split; [vm_compute; tauto|]. split; [vm_compute; tauto|]. vm_compute. reflexivity. Qed.
Lemma c102_table_ex : exists s, run_classes no_classes [txt "a"; txt "b"; txt "a"] = Ok ([1; 2; 1]%Z, s) /\
  exists d, load_arff true fresh (text_of "," [[txt "1.5"; txt "?"; txt "a"]; [txt "-2"; txt "3"; txt "b"]; [txt "0"; txt "1"; txt "a"]]) = Ok (d, true) /\
    map p_x (d_points d) = [[15 # 10; 0]; [-2; 3]; [0; 1]]%Q /\ d_dist d = [2; 1]%Z.
Proof. eexists. split; [vm_compute; reflexivity|]. eexists. split; [vm_compute; reflexivity|]. split; vm_compute; reflexivity. Qed.

(** Asked to read the class elsewhere, load takes the second column for it and writes the last feature past the end. *)
Lemma arff_begin mid : forall z k x y s, (0 < k)%Z -> is_number z = true -> (Z.of_nat (List.length x) = k + 1 + Z.of_nat (List.length mid))%Z ->
  arff_row false (map (fun u => (u, false)) mid ++ [(z, true)]) k x y s = UB.
Proof.
  induction mid as [|u mid IH]; intros z k x y s K Nz L; cbn [map app arff_row].
  - destruct (Z.eqb_spec k 0); [lia|]. cbn [negb]. rewrite Nz, zset_out; auto. cbn [List.length] in L. lia.
  - destruct (Z.eqb_spec k 0); [lia|]. cbn [negb]. cbn [List.length] in L. destruct (is_number u); cbn [obind].
    + destruct (zset_len _ x (k + 1) (atod u)) as (x1 & -> & L1); [lia|]. cbn [obind]. apply IH; auto; lia.
    + apply IH; auto; lia.
Qed.
Lemma c102_begin_refuted n f w mid z rows : Forall (cell_ok ",") (f :: w :: mid ++ [z]) -> List.length mid = n -> table "," (n + 3) rows -> is_number z = true ->
  (exists r, run_classes no_classes [w] = Ok r) -> load_arff false fresh (text_of "," ((f :: w :: mid ++ [z]) :: rows)) = UB.
Proof.
  intros F Ln Tb Nz (r & Er).
  assert (Tb' : table "," (n + 3) ((f :: w :: mid ++ [z]) :: rows)).
  { constructor; auto. split; auto. cbn [List.length]. rewrite app_length. cbn. lia. }
  unfold load_arff. cbv zeta. rewrite (table_lines "," (n + 3)) by (auto; discriminate). rewrite map_map.
  rewrite (check_dims_const _ (Z.of_nat (n + 3))); [|apply Forall_map|auto|discriminate].
  2:{ eapply Forall_impl; [|exact Tb']. intros q (A & B). cbn [fresh d_cnames]. rewrite arff_count_all, pieces_count by auto. lia. }
  destruct (Z.eqb_spec (Z.of_nat (n + 3)) 0); [lia|]. replace (Z.to_nat (Z.of_nat (n + 3) - 1)) with (n + 2) by lia.
  cbn [map arff_rows]. inversion F as [|? ? Ff F1]; subst. inversion F1 as [|? ? Fw F2]; subst. apply Forall_app in F2 as [Fm Fz]. inversion Fz as [|? ? Fz' _]; subst.
  change (f :: w :: mid ++ [z]) with ((f :: w :: mid) ++ [z]). rewrite pieces_cells by auto. cbn [map app arff_row Z.eqb negb].
  change (cstate_of fresh) with no_classes. replace (-1 + 1)%Z with 0%Z by lia.
  assert (X : exists x1, (if is_number f then zset (repeat 0%Q (List.length mid + 2)) 0 (atod f) else Ok (repeat 0%Q (List.length mid + 2))) = Ok x1 /\ List.length x1 = List.length mid + 2).
  { destruct (is_number f).
    - destruct (zset_len _ (repeat 0%Q (List.length mid + 2)) 0 (atod f)) as (x1 & E & L1); [rewrite repeat_length; lia|]. exists x1. rewrite repeat_length in L1. auto.
    - eexists. split; [reflexivity|]. apply repeat_length. }
  destruct X as (x1 & X & L1). rewrite X. cbn [obind Z.eqb negb]. cbn [run_classes] in Er.
  destruct (process_class no_classes w) as [[c s1]| |]; cbn [obind] in Er; try discriminate. cbn [obind].
  rewrite arff_begin; auto; unfold str in *; lia.
Qed.
Lemma c102_begin_ex : Forall (cell_ok ",") [txt "1"; txt "a"; txt "2"] /\ (exists r, run_classes no_classes [txt "a"] = Ok r) /\
  load_arff false fresh (txt "1,a,2" ++ [newline]) = UB.
Proof.
  split; [|split; [eexists; vm_compute; reflexivity|vm_compute; reflexivity]].
  repeat constructor; try discriminate; try (vm_compute; intuition discriminate).
Qed.

(** Loading a second file: words that are already class names are not counted, so the points get one feature less than the lines have. *)
Lemma arff_short init : forall t k x y s, (-1 <= k)%Z -> Forall (fun u => is_number u = true) init -> init <> [] ->
  (Z.of_nat (List.length x) = k + Z.of_nat (List.length init))%Z ->
  arff_row true (map (fun u => (u, false)) init ++ [(t, true)]) k x y s = UB.
Proof.
  induction init as [|u init IH]; intros t k x y s K F N L; [congruence|]. inversion F as [|? ? Nu F']; subst. cbn [map app arff_row negb]. rewrite Nu.
  cbn [List.length] in L. destruct init as [|v init].
  - rewrite zset_out; auto. cbn [List.length] in L. lia.
  - destruct (zset_len _ x (k + 1) (atod u)) as (x1 & -> & L1); [cbn [List.length] in L; lia|]. cbn [obind]. apply IH; auto; [lia|discriminate|lia].
Qed.
Lemma c102_reload_refuted d n (ts : list line_of_data) : ts <> [] -> n <> 0 ->
  Forall (fun r => List.length (fst r) = n /\ Forall (fun t => cell_ok "," t /\ is_number t = true) (fst r) /\ cell_ok "," (snd r)) ts ->
  Forall (fun r => is_number (snd r) = false /\ In (string_of_list_ascii (snd r)) (d_cnames d)) ts ->
  load_arff true d (text_of "," (map (fun r => fst r ++ [snd r]) ts)) = UB.
Proof.
  intros N Nn F W. assert (Ok1 : forall fs : list (list ascii), Forall (fun t => cell_ok "," t /\ is_number t = true) fs -> Forall (cell_ok ",") fs /\ Forall (fun t => is_number t = true) fs).
  { intros fs H. split; (eapply Forall_impl; [|exact H]); cbv beta; tauto. }
  assert (Tb : table "," (S n) (map (fun r => fst r ++ [snd r]) ts)).
  { apply Forall_map. eapply Forall_impl; [|exact F]. intros r (A & B & C). split; [rewrite app_length; cbn; lia|]. apply Forall_app. split; auto. now apply Ok1. }
  unfold load_arff. cbv zeta. rewrite (table_lines "," (S n)) by (auto; discriminate). rewrite !map_map.
  rewrite (check_dims_const _ (Z.of_nat n)); [|apply Forall_map|auto|destruct ts; [congruence|discriminate]].
  2:{ apply Forall_forall. intros r Ir. rewrite Forall_forall in F, W. destruct (F r Ir) as (A & B & C), (W r Ir) as (W1 & W2). apply Ok1 in B as (B1 & B2).
      unfold arff_count. rewrite pieces_cells by auto. rewrite filter_app. cbn [filter fst]. unfold str in *. rewrite W1. cbn [orb].
      apply find_name_in in W2. unfold str in *. destruct (Nat.eqb_spec (find_name (string_of_list_ascii (snd r)) (d_cnames d)) (List.length (d_cnames d))); [lia|].
      rewrite app_nil_r. rewrite filter_id.
      - rewrite map_length. now f_equal.
      - apply Forall_map. eapply Forall_impl; [|exact B2]. cbn [fst]. intros t ->. reflexivity. }
  destruct (Z.eqb_spec (Z.of_nat n) 0); [lia|]. destruct ts as [|r ts]; [congruence|]. cbn [map arff_rows]. inversion F as [|? ? (A & B & C) _]; subst. apply Ok1 in B as (B1 & B2).
  rewrite pieces_cells by auto. rewrite arff_short; auto; [lia| |].
  - intros E. rewrite E in Nn. cbn in Nn. congruence.
  - rewrite repeat_length. unfold str in *. lia.
Qed.
Lemma c102_reload_ex : exists d, load_arff true fresh (txt "1,2,a" ++ newline :: txt "3,4,b" ++ [newline]) = Ok (d, true) /\ d_cnames d = ["a"; "b"]%string /\
  load_arff true d (txt "1,2,a" ++ newline :: txt "3,4,b" ++ [newline]) = UB.
Proof. eexists. split; [vm_compute; reflexivity|]. split; vm_compute; reflexivity. Qed.

(** *** C103 *)
Lemma txt_dims_all counts : forall first d m, txt_dims counts first d = Some m -> (first = false -> m = d) /\ Forall (fun c => c = m) counts /\ (counts = [] -> m = d).
Proof.
  induction counts as [|c r IH]; intros first d m E; cbn [txt_dims] in E.
  - injection E as <-. auto.
  - destruct first; cbn [negb andb] in E.
    + destruct (IH _ _ _ E) as (A & B & _). specialize (A eq_refl). subst m. split; [discriminate|]. split; [constructor; auto|discriminate].
    + destruct (Nat.eqb_spec c d) as [->|]; cbn [negb andb] in E; [|discriminate]. destruct (IH _ _ _ E) as (A & B & _). specialize (A eq_refl). subst m. split; [auto|]. split; [constructor; auto|discriminate].
Qed.
Lemma txt_dims_const counts n : forall first d, Forall (eq n) counts -> (first = false -> d = n) -> counts <> [] -> txt_dims counts first d = Some n.
Proof.
  induction counts as [|c r IH]; intros first d F H N; [congruence|]. inversion F; subst. cbn [txt_dims].
  replace (negb first && negb (Nat.eqb c d)) with false by (destruct first; [auto|rewrite H, Nat.eqb_refl by auto; auto]).
  destruct r; [reflexivity|]. apply IH; auto. discriminate.
Qed.
Lemma txt_features items : forall pre rest y, List.length rest = List.length items -> Forall (eq 0%Q) rest ->
  txt_row items (2 + Z.of_nat (List.length pre)) (pre ++ rest) y = Ok (pre ++ map (fun p => cell (fst p)) items, match items with [] => y | _ => 0%Z end).
Proof.
  induction items as [|[t e] items IH]; intros pre rest y L F; cbn [txt_row map].
  - destruct rest; [auto|discriminate].
  - destruct rest as [|q rest]; [discriminate|]. inversion F as [|? ? Q0 F']; subst. destruct (Z.leb_spec 2 (2 + Z.of_nat (List.length pre))); [|lia].
    replace (2 + Z.of_nat (List.length pre) - 2)%Z with (Z.of_nat (List.length pre)) by lia.
    assert (X : (if is_number t then zset (pre ++ 0%Q :: rest) (Z.of_nat (List.length pre)) (atod t) else Ok (pre ++ 0%Q :: rest)) = Ok ((pre ++ [cell t]) ++ rest)).
    { rewrite <- app_assoc. cbn [app]. unfold cell. destruct (is_number t); [apply zset_at|reflexivity]. }
    rewrite X. cbn [obind fst]. replace (2 + Z.of_nat (List.length pre) + 1)%Z with (2 + Z.of_nat (List.length (pre ++ [cell t])))%Z by (rewrite app_length; cbn [List.length]; lia).
    rewrite IH by (auto; cbn in L; lia). rewrite <- app_assoc. cbn [app]. destruct items; auto.
Qed.
Lemma txt_row_ok items n : List.length items - 2 = n ->
  txt_row items 0 (repeat 0%Q n) y_default = Ok (map (fun p => cell (fst p)) (skipn 2 items), match skipn 2 items with [] => y_default | _ => 0%Z end).
Proof.
  intros L. destruct items as [|a [|b items]]; cbn [List.length] in L.
  - subst n. reflexivity.
  - subst n. destruct a. reflexivity.
  - destruct a as [a ea], b as [b eb]. cbn [txt_row Z.leb]. cbn [skipn]. replace (S (S (List.length items)) - 2) with (List.length items) in L by lia. subst n.
    pose proof (txt_features items [] (repeat 0%Q (List.length items)) y_default (repeat_length _ _) (zeros_eq _)) as G. cbn [List.length app] in G.
    change (2 + Z.of_nat 0)%Z with (0 + 1 + 1)%Z in G. exact G.
Qed.
Lemma txt_rows_ok n ls : forall id, Forall (fun l => List.length (pieces " " [] l) - 2 = n) ls ->
  exists pts, txt_rows n ls id = Ok pts /\ map p_x pts = map (fun l => map (fun p => cell (fst p)) (skipn 2 (pieces " " [] l))) ls /\
    map p_id pts = iota id (List.length ls) /\ (n <> 0 -> Forall (fun p => p_y p = 0%Z) pts) /\ Forall (fun p => List.length (p_x p) = n) pts /\
    (n = 0 -> Forall (fun p => p_y p = y_default) pts).
Proof.
  induction ls as [|l ls IH]; intros id F; cbn [txt_rows].
  - exists []. cbn. repeat split; auto.
  - inversion F as [|? ? Ll F']; subst. destruct (IH (id + 1)%Z F') as (pts & E & X & I & Y & S0 & Y0). rewrite txt_row_ok by auto. cbn [obind]. rewrite E. cbn [obind].
    eexists. split; [reflexivity|]. cbn [map p_x p_id p_y]. rewrite X, I. split; auto. split.
    { unfold iota. cbn [List.length seq map]. f_equal; [lia|]. rewrite <- seq_shift, map_map. apply map_ext. intro i. lia. }
    assert (Ls : List.length (skipn 2 (pieces " " [] l)) = List.length (pieces " " [] l) - 2) by apply skipn_length.
    split; [|split].
    + intros N. constructor; auto. cbn [p_y]. destruct (skipn 2 (pieces " " [] l)); auto. cbn in Ls. lia.
    + constructor; auto. cbn [p_x]. rewrite map_length. auto.
    + intros N. constructor; auto. cbn [p_y]. destruct (skipn 2 (pieces " " [] l)); auto. cbn in Ls. lia.
Qed.
Lemma c103_safe d file : exists d' b, load_txt d file = Ok (d', b) /\ (b = false -> d' = d) /\
  (b = true -> d_size d' = List.length (lines file) /\ List.length (d_points d') = d_size d' /\ Forall (fun p => List.length (p_x p) = d_dim d') (d_points d') /\
    d_fnames d' = iota 1 (d_dim d') /\ map p_id (d_points d') = iota 1 (d_size d') /\ d_classes d' = d_classes d /\ d_dist d' = d_dist d).
Proof.
  unfold load_txt. cbv zeta. destruct (txt_dims _ _ _) as [n|] eqn:E; [|exists d, false; split; auto; split; [auto|discriminate]].
  apply txt_dims_all in E as (_ & F & _). rewrite Forall_map in F. destruct (txt_rows_ok n (lines file) 1 F) as (pts & Er & X & I & _ & S0 & _). rewrite Er. cbn [obind].
  assert (L : List.length pts = List.length (lines file)) by (rewrite <- (map_length p_x), X; apply map_length).
  eexists _, true. split; [reflexivity|]. split; [discriminate|]. intros _. cbn [loaded d_size d_points d_dim d_fnames d_classes d_dist cstate_of cs_classes cs_dist].
  split; [lia|]. split; auto. split; auto. split; auto. split; auto. now rewrite L.
Qed.
Lemma c103_table d n rows : rows <> [] -> n <> 0 -> table " " (n + 2) rows ->
  exists d', load_txt d (text_of " " rows) = Ok (d', true) /\ map p_x (d_points d') = map (fun r => map cell (skipn 2 r)) rows /\
    Forall (fun p => p_y p = 0%Z) (d_points d') /\ d_dim d' = n /\ d_size d' = List.length rows /\ map p_id (d_points d') = iota 1 (List.length rows).
Proof.
  intros N Nn Tb. unfold load_txt. cbv zeta. rewrite (table_lines " " (n + 2)) by (auto; discriminate).
  assert (F : Forall (fun l => List.length (pieces " " [] l) - 2 = n) (map (join_with " ") rows)).
  { apply Forall_map. eapply Forall_impl; [|exact Tb]. intros r (A & B). rewrite pieces_count by auto. unfold str in *. lia. }
  rewrite (txt_dims_const _ n); [|apply Forall_map; eapply Forall_impl; [|exact F]; cbv beta; auto|discriminate|destruct rows; [congruence|discriminate]].
  destruct (txt_rows_ok n _ 1 F) as (pts & Er & X & I & Y & _). rewrite Er. cbn [obind]. eexists. split; [reflexivity|].
  cbn [loaded d_points d_dim d_size]. rewrite map_map in X. rewrite map_length in I. split; [|split; [auto|split; [auto|split; auto]]].
  - rewrite X. clear - Tb. induction Tb as [|r rows (A & B) Tb IH]; cbn [map]; auto. rewrite IH. f_equal.
    rewrite <- (map_map fst cell). rewrite <- skipn_map. now rewrite pieces_row.
  - rewrite <- (map_length p_x), X. apply map_length.
Qed.
Lemma c103_table_ex : table " " 4 [[txt "7"; txt "x"; txt "1.5"; txt "y"]; [txt "8"; txt "x"; txt "2"; txt "3"]] /\
  exists d, load_txt fresh (text_of " " [[txt "7"; txt "x"; txt "1.5"; txt "y"]; [txt "8"; txt "x"; txt "2"; txt "3"]]) = Ok (d, true) /\
    map p_x (d_points d) = [[15 # 10; 0]; [2; 3]]%Q.
Proof.
  split; [repeat constructor; try discriminate; try (vm_compute; intuition discriminate)|]. eexists. split; [vm_compute; reflexivity|]. vm_compute. reflexivity.
Qed.
(** Two lines that differ in the number of features: nothing is read. *)
Lemma c103_ragged d r1 r2 rows : Forall (Forall (cell_ok " ")) rows -> In r1 rows -> In r2 rows -> List.length r1 - 2 <> List.length r2 - 2 ->
  load_txt d (text_of " " rows) = Ok (d, false).
Proof.
  intros F I1 I2 N. unfold load_txt. cbv zeta.
  assert (El : lines (text_of " " rows) = map (join_with " ") rows).
  { unfold text_of. rewrite <- (lines_ok (map (join_with " ") rows)); [now rewrite map_map|]. apply Forall_map. eapply Forall_impl; [|exact F]. intros r H.
    split; [apply row_newline; auto; discriminate|now apply row_trim]. }
  rewrite El. destruct (txt_dims _ _ _) as [n|] eqn:E; auto. exfalso. apply txt_dims_all in E as (_ & G & _). rewrite map_map in G. rewrite Forall_map, Forall_forall in G.
  rewrite Forall_forall in F. pose proof (G r1 I1) as A1. pose proof (G r2 I2) as A2. rewrite pieces_count in A1, A2 by auto. unfold str in *. lia.
Qed.
Lemma c103_ragged_ex : exists rows, Forall (Forall (cell_ok " ")) rows /\ load_txt fresh (text_of " " rows) = Ok (fresh, false) /\ List.length rows = 2.
Proof.
  exists [[txt "7"; txt "x"; txt "1.5"; txt "y"]; [txt "8"; txt "x"; txt "2"]]. split; [repeat constructor; try discriminate; try (vm_compute; intuition discriminate)|].
  split; vm_compute; reflexivity.
Qed.
(** The label 0 every point gets is in no class. *)
Lemma c103_classes_refuted n rows : rows <> [] -> n <> 0 -> table " " (n + 2) rows ->
  exists d', load_txt fresh (text_of " " rows) = Ok (d', true) /\ d_points d' <> [] /\ d_classes d' = [] /\ ~ class_ok d'.
Proof.
  intros N Nn Tb. destruct (c103_table fresh n rows N Nn Tb) as (d' & E & X & _ & _ & _ & _). exists d'. split; auto.
  assert (Np : d_points d' <> []) by (intros P0; rewrite P0 in X; destruct rows; [congruence|discriminate]). split; auto.
  destruct (c103_safe fresh (text_of " " rows)) as (d1 & b & E1 & _ & H). rewrite E in E1. injection E1 as <- <-. destruct (H eq_refl) as (_ & _ & _ & _ & _ & C & _).
  split; auto. intros K. destruct (d_points d') as [|p ps] eqn:P0; [congruence|]. pose proof (co_listed _ K p) as L. rewrite P0, C in L. apply L. now left.
Qed.

(** *** C104 *)
Lemma load_csv_counted atEnd d file d' : load_csv atEnd d file = Ok (d', true) -> load_csv atEnd (counted d) file = Ok (d', true).
Proof. unfold load_csv. cbv zeta. destruct (check_dims _ _) as [m|]; [|discriminate]. destruct (Z.ltb m 0); auto. Qed.
Lemma load_csv_uncounted atEnd d file d' : load_csv atEnd (counted d) file = Ok (d', true) -> load_csv atEnd d file = Ok (d', true).
Proof. unfold load_csv. cbv zeta. destruct (check_dims _ _) as [m|]; [|discriminate]. destruct (Z.ltb m 0); auto. Qed.
Lemma load_data_counted d file d' : load_data d file = Ok (d', true) -> load_data (counted d) file = Ok (d', true).
Proof. unfold load_data. cbv zeta. destruct (check_dims _ _) as [m|]; [|discriminate]. destruct (Z.ltb m 0); auto. Qed.
Lemma file_name dir stem ext : ends_with "/" dir -> stem <> [] -> ~ In "."%char stem -> ~ In "/"%char stem -> ~ In "/"%char ext ->
  dataset_name ((dir ++ stem) ++ "."%char :: ext) = Ok stem.
Proof.
  intros E N I1 I2 J. pose proof (c100_name dir 0 stem ("."%char :: ext) 0 E N I1 I2) as G. cbn [repeat app] in G. rewrite app_nil_r in G.
  rewrite <- app_assoc. apply G; [right; now exists ext|]. intros [H|H]; [discriminate|auto].
Qed.
Lemma c104_csv dir stem d : ends_with "/" dir -> stem <> [] -> ~ In "."%char stem -> ~ In "/"%char stem ->
  data_ok d -> (forall p, In p (d_points d) -> p_x p <> [] /\ Forall short (p_x p) /\ (Z.abs (p_y p) < 10 ^ 6)%Z) -> minus_one_ok (labels (d_points d)) ->
  exists path text d', write d (dir ++ stem) (txt "csv") = Ok (path, text) /\ load None fresh path text = Ok (d', stem, true) /\ data_ok d' /\
    Forall2 same_content (d_points d) (d_points d').
Proof.
  intros E N I1 I2 Hd Hs Hm. destruct (c17_csv_round_trip d Hd Hs Hm) as (text & d' & W & L & O & S0 & _).
  exists ((dir ++ stem) ++ "."%char :: txt "csv"), text, d'. unfold write. replace (string_of_list_ascii (txt "csv")) with "csv"%string by reflexivity. cbn [String.eqb Ascii.eqb Bool.eqb].
  rewrite W. cbn [obind]. split; auto. split; [|auto]. unfold load. rewrite (c19_extension (dir ++ stem) (txt "csv") TYPE_CSV) by (vm_compute; auto).
  cbn [obind]. rewrite file_name by (auto; vm_compute; intuition discriminate). cbn [obind]. now rewrite (load_csv_counted _ _ _ _ L).
Qed.
Lemma c104_data dir stem d : ends_with "/" dir -> stem <> [] -> ~ In "."%char stem -> ~ In "/"%char stem ->
  data_ok d -> (forall p, In p (d_points d) -> p_x p <> [] /\ Forall short (p_x p) /\ (Z.abs (p_y p) < 10 ^ 6)%Z) -> minus_one_ok (labels (d_points d)) ->
  (forall f, In f (d_fnames d) -> (f <= int_max)%Z) ->
  exists path text d', write d (dir ++ stem) (txt "data") = Ok (path, text) /\ load None fresh path text = Ok (d', stem, true) /\ data_ok d' /\
    Forall2 same_content (d_points d) (d_points d') /\ d_fnames d' = d_fnames d.
Proof.
  intros E N I1 I2 Hd Hs Hm Hf. destruct (c78_data_round_trip d Hd Hs Hf Hm) as (text & d' & W & L & O & S0 & _ & F & _).
  exists ((dir ++ stem) ++ "."%char :: txt "data"), text, d'. unfold write. replace (string_of_list_ascii (txt "data")) with "data"%string by reflexivity. cbn [String.eqb Ascii.eqb Bool.eqb].
  rewrite W. cbn [obind]. split; auto. split; [|auto]. unfold load. rewrite (c19_extension (dir ++ stem) (txt "data") TYPE_DATA) by (vm_compute; auto).
  cbn [obind]. rewrite file_name by (auto; vm_compute; intuition discriminate). cbn [obind]. now rewrite (load_data_counted _ _ _ L).
Qed.
Lemma c104_round_trip_ex : ends_with "/" (txt "out/") /\ data_ok exw /\ (forall p, In p (d_points exw) -> p_x p <> [] /\ Forall short (p_x p) /\ (Z.abs (p_y p) < 10 ^ 6)%Z) /\
  minus_one_ok (labels (d_points exw)) /\ (forall f, In f (d_fnames exw) -> (f <= int_max)%Z) /\
  exists text d, write exw (txt "out/exw") (txt "csv") = Ok (txt "out/exw.csv", text) /\ load None fresh (txt "out/exw.csv") text = Ok (d, txt "exw", true) /\
    labels (d_points d) = [1; -1; 1]%Z.
Proof.
  split; [right; now exists (txt "out")|]. split; [exact exw_ok|]. split; [exact exw_short|]. split; [exact exw_minus|].
  split; [cbn [exw d_fnames In]; intros f [<-|[<-|[]]]; vm_compute; discriminate|].
  eexists _, _. split; [vm_compute; reflexivity|]. split; [vm_compute; reflexivity|]. vm_compute. reflexivity.
Qed.
(** With the extension txt nothing is written: what is read back is empty. *)
Lemma c104_txt_refuted d dir stem : ends_with "/" dir -> stem <> [] -> ~ In "."%char stem -> ~ In "/"%char stem ->
  exists path d', write d (dir ++ stem) (txt "txt") = Ok (path, []) /\ load None fresh path [] = Ok (d', stem, true) /\ d_points d' = [] /\ d_isempty d' = false.
Proof.
  intros E N I1 I2. exists ((dir ++ stem) ++ "."%char :: txt "txt"). eexists. split; [reflexivity|]. split.
  - unfold load. rewrite (c19_extension (dir ++ stem) (txt "txt") TYPE_TXT) by (vm_compute; auto). cbn [obind].
    rewrite file_name by (auto; vm_compute; intuition discriminate). cbn [obind]. reflexivity.
  - split; reflexivity.
Qed.
Lemma c104_txt_ex : data_ok exw /\ d_points exw <> [] /\ ends_with "/" (txt "out/").
Proof. split; [exact exw_ok|]. split; [discriminate|]. right. now exists (txt "out"). Qed.

(** Reading a CSV file into a dataset that holds points: the points are replaced, the counts of the classes go on. *)
Lemma load_csv_cinv d file d' labs : cinv (cstate_of d) labs -> (Z.of_nat (List.length labs + List.length (lines file)) < 2 ^ 63)%Z ->
  (forall l c r, In l (lines file) -> l = c :: r -> c <> ","%char /\ c <> ";"%char) ->
  load_csv false d file = Ok (d', true) -> cinv (cstate_of d') (labs ++ map p_y (d_points d')).
Proof.
  intros I0 B G. unfold load_csv. cbv zeta. set (deli := match lines file with [] => ","%char | l :: _ => delimiter l end).
  assert (deli = ","%char \/ deli = ";"%char) as Dl.
  { unfold deli. clear. destruct (lines file) as [|l ll]; [now left|]. clear ll. induction l as [|c l IH]; cbn [delimiter]; [now left|]. destruct (Ascii.eqb c ","); [now left|]. destruct (Ascii.eqb c ";"); [now right|auto]. }
  destruct (check_dims _ 0) as [m|] eqn:C; [|discriminate]. destruct (Z.ltb_spec m 0) as [|Hm]; [discriminate|].
  apply check_dims_all in C as [_ C]. rewrite Forall_map, Forall_forall in C. intro E.
  destruct (csv_rows false deli (Z.to_nat m) (lines file) 1 (cstate_of d)) as [[qs s']| |] eqn:Q; [|discriminate|discriminate]. cbn [obind fst snd] in E. injection E as <-.
  pose proof (csv_rows_classes deli (Z.to_nat m) (lines file) 1 (cstate_of d) labs I0 B) as X.
  match goal with |- cinv ?a _ => replace a with s' by (now destruct s') end. change (cinv s' (labs ++ map p_y qs)). eapply X; [|exact Q].
  apply Forall_forall. intros l Hl. pose proof (lines_first file l Hl) as W. specialize (C l Hl). destruct l as [|c r]; [cbn in C; lia|].
  destruct (G _ c r Hl eq_refl) as [G1 G2]. assert (c <> deli) as Nc by (destruct Dl as [-> | ->]; auto).
  destruct (split_char deli (c :: r)) as [H|(t & u & Et & H)].
  - rewrite pieces_last by (auto; discriminate). exists (c :: r), true, []. split; [reflexivity|split; [exists c; split; [now left|auto]|cbn; lia]].
  - rewrite Et in *. rewrite pieces_step in * by auto. exists t, false, (pieces deli [] u). split; [reflexivity|]. split; [|cbn [List.length] in C; lia].
    destruct t as [|c' t]; [cbn in Et; congruence|]. cbn in Et. injection Et as <- _. exists c. split; [now left|auto].
Qed.
Lemma class_cinv (d : data Q) : class_ok d -> (forall c, In c (d_classes d) -> In c (labels (d_points d))) -> cinv (cstate_of d) (labels (d_points d)).
Proof.
  intros K H. constructor; cbn [cstate_of cs_classes cs_dist].
  - apply (co_nodup _ K).
  - apply (co_len _ K).
  - intros c. split; auto. unfold labels. intros I. apply in_map_iff in I as (p & <- & Ip). now apply (co_listed _ K).
  - intros i c E. exact (co_count _ K i c E).
Qed.
Lemma c104_again d file d' : class_ok d -> (forall c, In c (d_classes d) -> In c (labels (d_points d))) ->
  (Z.of_nat (List.length (d_points d) + List.length (lines file)) < 2 ^ 63)%Z ->
  (forall l c r, In l (lines file) -> l = c :: r -> c <> ","%char /\ c <> ";"%char) ->
  load_csv false d file = Ok (d', true) ->
  List.length (d_points d') = List.length (lines file) /\
  (forall c, In c (d_classes d') <-> In c (labels (d_points d)) \/ In c (labels (d_points d'))) /\
  forall i c, nth_error (d_classes d') i = Some c -> nth_error (d_dist d') i = Some (label_count c (d_points d) + label_count c (d_points d'))%Z.
Proof.
  intros K A B G E. destruct (c76_csv_safe d file (co_len _ K)) as (_ & Hs). destruct (Hs d' E) as (_ & L & _).
  destruct (load_csv_cinv d file d' (labels (d_points d)) (class_cinv d K A)) as [_ _ I Ct]; auto; [unfold labels; now rewrite map_length|].
  cbn [cstate_of cs_classes cs_dist] in I, Ct. split; auto. split.
  - intros c. rewrite I. apply in_app_iff.
  - intros i c Hi. rewrite (Ct i c Hi). unfold label_count. now rewrite count_occ_app, Nat2Z.inj_add.
Qed.
(** So the class counts are wrong as soon as there were points. *)
Lemma c104_again_refuted d file d' : class_ok d -> (forall c, In c (d_classes d) -> In c (labels (d_points d))) ->
  (Z.of_nat (List.length (d_points d) + List.length (lines file)) < 2 ^ 63)%Z ->
  (forall l c r, In l (lines file) -> l = c :: r -> c <> ","%char /\ c <> ";"%char) ->
  load_csv false d file = Ok (d', true) -> d_points d <> [] -> ~ class_ok d'.
Proof.
  intros K A B G E N K'. destruct (c104_again d file d' K A B G E) as (_ & I & Ct). destruct (d_points d) as [|p ps] eqn:Ep; [congruence|].
  assert (Ip : In (p_y p) (d_classes d')) by (apply I; left; now left). apply In_nth_error in Ip as (i & Hi).
  pose proof (Ct i _ Hi) as X. rewrite (co_count _ K' i _ Hi) in X. injection X as X.
  assert (0 < label_count (p_y p) (p :: ps))%Z; [|lia]. unfold label_count, labels. cbn [map count_occ]. destruct (Z.eq_dec (p_y p) (p_y p)); [lia|congruence].
Qed.
Definition two : list ascii := txt "1,5" ++ newline :: txt "2,6" ++ [newline].
Lemma c104_again_ex : exists d d', load_csv false fresh two = Ok (d, true) /\ class_ok d /\ (forall c, In c (d_classes d) -> In c (labels (d_points d))) /\ d_points d <> [] /\
  (forall l c r, In l (lines two) -> l = c :: r -> c <> ","%char /\ c <> ";"%char) /\
  load_csv false d two = Ok (d', true) /\ d_dist d' = [2; 2]%Z /\ labels (d_points d') = [1; 2]%Z.
Proof.
  assert (G : forall l c r, In l (lines two) -> l = c :: r -> c <> ","%char /\ c <> ";"%char).
  { change (lines two) with [txt "1,5"; txt "2,6"]. intros l c r [<-|[<-|[]]] E; injection E as <- _; split; discriminate. }
  eexists _, _. split; [vm_compute; reflexivity|]. split; [apply (c76_csv_classes two); [vm_compute; reflexivity|exact G|vm_compute; reflexivity]|].
  split; [vm_compute; intuition|]. split; [discriminate|]. split; [exact G|]. split; [vm_compute; reflexivity|]. split; vm_compute; reflexivity.
Qed.
(** After load, whether it worked or not, counting the classes does nothing. *)
Lemma c104_counting_refuted atEnd d path text d' name ok : load atEnd d path text = Ok (d', name, ok) -> computeClassesDistribution d' = Ok d'.
Proof.
  intros E. assert (F : d_cdist d' = true); [|unfold computeClassesDistribution; now rewrite F].
  unfold load in E. destruct (identifyFileType path) as [t| |]; cbn [obind] in E; try discriminate.
  destruct (dataset_name path) as [nm| |]; cbn [obind] in E; try discriminate.
  assert (C : d_cdist (counted d) = true) by reflexivity. revert E C. generalize (counted d) as d0. intros d0 E C.
  destruct t; cbn beta iota in E.
  - unfold load_data in E. cbv zeta in E. destruct (check_dims _ _) as [m|]; cbn [obind] in E; [|injection E as <- _ _; auto].
    destruct (Z.ltb m 0); cbn [obind] in E; [discriminate|]. destruct (data_rows _ _ _ _ _) as [[[pts fn] s]| |]; cbn [obind] in E; try discriminate. injection E as <- _ _. reflexivity.
  - unfold load_csv in E. cbv zeta in E. destruct (check_dims _ _) as [m|]; cbn [obind] in E; [|injection E as <- _ _; auto].
    destruct (Z.ltb m 0); cbn [obind] in E; [discriminate|]. destruct (csv_rows _ _ _ _ _ _) as [r| |]; cbn [obind] in E; try discriminate. injection E as <- _ _. reflexivity.
  - unfold load_arff in E. cbv zeta in E. destruct (check_dims _ _) as [m|]; cbn [obind] in E; [|injection E as <- _ _; auto].
    destruct (Z.eqb m 0); cbn [obind] in E; [discriminate|]. destruct (arff_rows _ _ _ _ _) as [r| |]; cbn [obind] in E; try discriminate. injection E as <- _ _. reflexivity.
  - unfold load_txt in E. cbv zeta in E. destruct (txt_dims _ _) as [m|]; cbn [obind] in E; [|injection E as <- _ _; auto].
    destruct (txt_rows _ _ _) as [r| |]; cbn [obind] in E; try discriminate. injection E as <- _ _. reflexivity.
  - cbn [obind] in E. injection E as <- _ _. auto.
Qed.
Lemma c104_counting_ex : exists d', load None fresh (txt "x.png") [] = Ok (d', txt "x", false) /\ d_cdist d' = true.
Proof. eexists. split; vm_compute; reflexivity. Qed.
(** *** .plt files and unknown types *)
Lemma plt_line_ok p : (Z.abs (p_y p) < 10 ^ 6)%Z -> Forall short (p_x p) -> p_x p <> [] ->
  exists fs, plt_line (List.length (p_x p)) p = Ok (join_with " " fs ++ [newline]) /\ fields p fs.
Proof.
  intros Y X N. destruct (fmt_label_ok _ Y) as (t & Et & Nt). destruct (fmt_all _ X) as (ts & F1 & F2).
  assert (ts <> []) as Nts by (intros ->; inversion F2; congruence).
  destruct (split_last _ _ N) as (xs & z & Ex).
  exists (t :: ts). split; [|exists t, ts; auto].
  unfold plt_line. rewrite Et. cbn [obind]. rewrite Ex, app_length. cbn [List.length]. rewrite Nat.add_1_r.
  rewrite Ex in F1. apply Forall2_snoc_l in F1 as (ts' & w & -> & F1 & Ew).
  rewrite (map_outcome_2 _ _ _ _ ts').
  - cbn [obind]. rewrite vget_snoc. cbn [obind]. rewrite Ew. cbn [obind]. f_equal. rewrite join_cons by auto. rewrite <- join_snoc.
    rewrite <- !app_assoc. cbn [app]. now rewrite <- !app_assoc.
  - eapply Forall2_firstn_seq; [exact F1|]. intros i v Hv. rewrite (vget_app_l _ _ _ _ _ Hv). reflexivity.
Qed.
Lemma numchar_white c : numchar c -> ~ white c.
Proof. intro H. unfold white. vm_compute in H. intro W. vm_compute in W. intuition (subst; discriminate). Qed.
(** Write with the extension plt gives one row per point: its label, then its feature values. *)
Lemma c104_plt d fname : data_ok d -> (forall p, In p (d_points d) -> p_x p <> [] /\ Forall short (p_x p) /\ (Z.abs (p_y p) < 10 ^ 6)%Z) ->
  exists rows, write d fname (txt "plt") = Ok (fname ++ txt ".plt", text_of " " rows) /\
    Forall2 (fun p r => Forall (cell_ok " ") r /\ exists t ts, r = t :: ts /\ numeral t (p_y p) /\ Forall2 (fun v u => is_number u = true /\ (atod u == dec_Q v)%Q) (p_x p) ts) (d_points d) rows.
Proof.
  intros D H. assert (forall pts, incl pts (d_points d) -> exists rows, Forall2 (fun p r => plt_line (dim d) p = Ok (join_with " " r ++ [newline])) pts rows /\ Forall2 fields pts rows) as X.
  { induction pts as [|p pts IH]; intro I; [exists []; auto|]. destruct IH as (rows & A & B); [intros x Hx; apply I; now right|]. destruct (H p (I p (or_introl eq_refl))) as (Np & Sp & Yp).
    destruct (plt_line_ok p Yp Sp Np) as (fs & E & F). exists (fs :: rows). split; constructor; auto. assert (dim d = d_dim d) as -> by (apply dim_ok'; exact D). rewrite <- (ok_dim _ D p (I p (or_introl eq_refl))). exact E. }
  destruct (X (d_points d) (incl_refl _)) as (rows & A & B). exists rows. split.
  - unfold write. replace (string_of_list_ascii (txt "plt")) with "plt"%string by reflexivity. cbn [String.eqb Ascii.eqb Bool.eqb].
    rewrite (map_outcome_2 _ _ _ _ (map (fun r => join_with " " r ++ [newline]) rows)); [reflexivity|]. rewrite (ok_size _ D).
    apply (Forall2_firstn_seq _ _ _ _ (fun p => plt_line (dim d) p)); [|intros i v Hv; unfold vget; now rewrite Hv].
    clear - A. induction A; cbn; constructor; auto.
  - clear - B. induction B as [|p r pts rows F B IH]; constructor; auto. pose proof (fields_numchar p r F) as C. split.
    + eapply Forall_impl; [|exact C]. cbv beta. intros u [Nu Fu]. split; [auto|]. split; [apply numchars_not in Fu; tauto|]. eapply Forall_impl; [|exact Fu]. apply numchar_white.
    + destruct F as (t & ts & -> & N & _ & F). exists t, ts. split; auto. split; auto. clear - F. induction F as [|v u ? ? (a & b & c) F IH]; constructor; auto. split; [now apply is_number_chars|auto].
Qed.
Lemma c104_plt_ex : data_ok exw /\ (forall p, In p (d_points exw) -> p_x p <> [] /\ Forall short (p_x p) /\ (Z.abs (p_y p) < 10 ^ 6)%Z) /\
  write exw (txt "exw") (txt "plt") = Ok (txt "exw.plt", txt "1 1.5 -0.25" ++ newline :: txt "-1 0 1200" ++ newline :: txt "1 0.0003 9.99999" ++ [newline]).
Proof. split; [exact exw_ok|split; [exact exw_short|vm_compute; reflexivity]]. Qed.
(** A point without features: the count of the columns before the last wraps around. *)
Lemma c104_plt_refuted d fname p pts : d_points d = p :: pts -> d_size d = S (List.length pts) -> p_x p = [] -> (Z.abs (p_y p) < 10 ^ 6)%Z -> write d fname (txt "plt") = UB.
Proof.
  intros E Sz Dm Y. destruct (fmt_label_ok _ Y) as (t & Et & _). unfold write. replace (string_of_list_ascii (txt "plt")) with "plt"%string by reflexivity. cbn [String.eqb Ascii.eqb Bool.eqb].
  rewrite Sz, E. cbn [seq map_outcome]. unfold vget. cbn [nth_error obind]. unfold plt_line, dim. rewrite E, Dm, Et. reflexivity.
Qed.
(** Files of type plt, and those whose extension contains no known type, are refused and the points stay. *)
Lemma c104_refused atEnd d dir stem ext text : ends_with "/" dir -> stem <> [] -> ~ In "."%char stem -> ~ In "/"%char stem ->
  ext = txt "plt" \/ (~ In "."%char ext /\ ~ In "/"%char ext /\ forall t k a b, known t k -> ext <> a ++ t ++ b) ->
  load atEnd d ((dir ++ stem) ++ "."%char :: ext) text =
    Ok (mkData (d_points d) (d_fnames d) (d_index d) (d_cnames d) (d_classes d) (d_dist d) (d_size d) (d_dim d) (d_isempty d) (d_normalized d) true (d_class d), stem, false).
Proof.
  intros E N I1 I2 H. unfold load.
  assert (identifyFileType ((dir ++ stem) ++ "."%char :: ext) = Ok TYPE_INVALID) as ->. { destruct H as [->|(A & _ & C)]; [apply c19_extension; vm_compute; auto 10|now apply c19_other]. }
  cbn [obind]. rewrite file_name; auto. destruct H as [->|(_ & B & _)]; [vm_compute; intuition discriminate|auto].
Qed.
Lemma c104_refused_ex : ends_with "/" (txt "out/") /\ ~ In "."%char (txt "gz") /\ ~ In "/"%char (txt "gz") /\ (forall t k a b, known t k -> txt "gz" <> a ++ t ++ b).
Proof. split; [right; now exists (txt "out")|]. split; [vm_compute; intuition discriminate|]. split; [vm_compute; intuition discriminate|]. exact (proj2 c19_other_ex). Qed.
