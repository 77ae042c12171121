(** C127: the look-ahead of the admissible ordered search. *)
From Coq Require Import ZArith Bool List Reals Permutation Sorted Lia Lra.
From Verif Require Import Base ListLib Loop M_Data S_Data L_Data L_Data2 L_Feat L_Join M_Point L_Vec M_Kmeans S_Fs T_Fs M_Pq S_Pq L_Pq T_Pq T_Prune T_Vis M_Aos S_Aos L_Aos L_Aos2 M_Look S_Look L_Look T_Aos.
Import ListNotations.
Local Open Scope nat_scope.

(** C127: the look-ahead from all features, with trainings that succeed: how many features it takes, which ones, and what it leaves in the queue. Every training is on the sample with all its
    features, so that the margin of each node is not one of the features left to it; from the second turn on a weight is taken for that of the feature at its place among those left. *)
Lemma c127_root : forall (d : data R) (c : aos_cfg) (lad : nat) (primal : bool) (tr : nat -> data R -> bool * (list R * R)) (w sol : list R) (n dn : nat), data_ok d -> d_points d <> [] ->
  2 <= length (d_fnames d) -> a_depth c = Z.of_nat dn -> length w = length (d_fnames d) -> (forall m, fst (tr m d) = true /\ length (fst (snd (tr m d))) = length (d_fnames d)) ->
  1 <= a_len c -> look_turns lad (length (d_fnames d)) dn <= a_width c -> look_turns lad (length (d_fnames d)) dn <= a_cap c ->
  exists fs st tab q sol' log, look_ahead c lad primal tr d [] w 0 ([], vis_new (a_len c) (a_width c), pq_new (a_cap c), [], n, sol, []) =
      Ok (0%R, (st, tab, q, map (fun j => fst (snd (tr (n + j) d))) (seq 0 (length fs)), n + length fs, sol', log)) /\
    length fs = look_turns lad (length (d_fnames d)) dn /\ NoDup fs /\ incl fs (d_fnames d) /\
    (forall j, j < length fs -> exists i, nth j fs 0%Z = nth i (filter (without (firstn j fs)) (d_fnames d)) 0%Z /\ least_first (weights_at primal tr n d w j) (length (d_fnames d) - j) i) /\
    length st = length fs /\
    (forall j, j < length fs -> exists nd, nth_error st j = Some (Some nd) /\ look_node (firstn (S j) fs) (snd (snd (tr (n + j) d))) nd) /\
    (exists ps, holds q ps /\ Permutation ps (seq 0 (length fs))) /\
    log = map (fun j => (d, handed primal tr n d w fs (S j))) (seq 0 (length fs)).
Proof.
  intros d c lad primal tr w sol n dn Od Nd N2 Hdep Hw Htr Hlen Hwid Hcap.
  assert (I0 : root_inv d c primal tr w n 0 [] [] (vis_new (a_len c) (a_width c)) (pq_new (a_cap c)) [] []).
  { split; auto; try (intros; lia); try constructor.
    - intros x [].
    - unfold vis_new. cbn [t_rows]. apply repeat_length.
    - assert (E : rw = []) by (apply nth_error_In in H; apply repeat_spec in H; auto). subst. cbn; lia.
    - assert (E : rw = []) by (apply nth_error_In in H; apply repeat_spec in H; auto). subst. intros p [].
    - unfold pq_new. cbn [pq_el]. apply repeat_length.
    - cbn [pq_size pq_new]. split; [lia|]. unfold g, pq_new. cbn [pq_el]. destruct (a_cap c + 1); auto.
    - exists []. split; [|constructor]. unfold pq_new. apply holds_row; cbn [pq_el pq_size]; [rewrite repeat_length; lia | auto]. }
  assert (Fe : filter (without []) (d_fnames d) = d_fnames d) by (clear; induction (d_fnames d); cbn [filter without existsb negb]; congruence).
  destruct (root_loop d Od Nd N2 c primal tr w n dn (look_turns lad (length (d_fnames d)) dn) Hdep Hw Htr Hlen Hwid Hcap lad 0 [] (copy d) [] [] (vis_new (a_len c) (a_width c)) (pq_new (a_cap c)) [] sol [] I0)
    as (fs & st & tab & q & ws & sol' & log & E & Iv & Hl).
  - rewrite (copy_ok d Od Nd). auto.
  - rewrite (copy_ok d Od Nd), (data_dim d Od Nd). lia.
  - lia.
  - cbn [Nat.add]. lia.
  - unfold handed. destruct primal; auto.
  - auto.
  - cbn [Nat.add] in E, Iv, Hl. destruct Iv as [Fl ND Inc Ch Sl St Rl Wd Rw Pq Ho Ws Lg]. rewrite <- Fl in *. exists fs, st, tab, q, sol', log. split.
    { unfold look_ahead. cbn [weights_at] in E. rewrite Nat.add_0_r in E. rewrite Ws in E. transitivity (let* r := Ok (st, tab, q, map (fun j => fst (snd (tr (n + j) d))) (seq 0 (length fs)), n + length fs, sol', log) in Ok (0%R, r)); [rewrite <- E; reflexivity | reflexivity]. }
    repeat (split; [auto; fail|]). auto.
Qed.

(** C127: without look-ahead the search is the one of C114 to C116. *)
Lemma c127_off : forall (fuel : nat) (c : aos_cfg) (primal : bool) srt tr (d : data R) (sol : list R), look_select fuel c 0 primal srt tr d sol = aos_select fuel c srt tr d.
Proof.
  intros. unfold look_select, aos_select. set (c' := aos_clamp d c). pose proof (main_off c' primal srt tr d (look_new c' d sol) eq_refl) as K. change (z_aos (look_new c' d sol)) with (mkAos [] (vis_new (a_len c') (a_width c')) (pq_new (a_cap c')) [] 0 (copy d) 0) in K.
  destruct (look_main _ _ _ _ _ _ _) as [[s'|]| |], (aos_main _ _ _ _ _) as [[x|]| |]; cbn [agree] in K; try contradiction; cbn [obind]; auto. destruct K as (<- & K). destruct (Nat.eqb _ _); auto. apply run_off; auto.
Qed.
(** C127: with look-ahead the margin given for the pruning has no effect at all: any two are as good. *)
Lemma c127_margin_refuted : forall (fuel : nat) (c : aos_cfg) (g : R) (lad : nat) (primal : bool) srt tr (d : data R) (sol : list R), 0 < lad ->
  look_select fuel (with_gm c g) lad primal srt tr d sol = look_select fuel c lad primal srt tr d sol.
Proof.
  intros fuel c g lad primal srt tr d sol Hl. unfold look_select. change (aos_clamp d (with_gm c g)) with (with_gm (aos_clamp d c) g). set (c' := aos_clamp d c). rewrite main_gm.
  assert (E : look_main c' lad primal srt tr d (look_new (with_gm c' g) d sol) = look_main c' lad primal srt tr d (look_new c' d sol)).
  { unfold look_main, look_new. cbn [z_aos s_q s_n s_st s_ws z_sol with_gm a_cap a_len a_width a_gm pq_size pq_new Nat.eqb]. destruct (snd (tr 0 d)) as [w m]. unfold look_expand, look_close. cbn [look_at z_aos s_lool Nat.ltb Nat.leb Nat.eqb andb orb]. destruct lad as [|lad]; [lia|]. reflexivity. }
  rewrite E. clear E. destruct (look_main c' lad primal srt tr d (look_new c' d sol)) as [[s|]| |]; cbn [obind]; auto. rewrite run_gm. reflexivity.
Qed.
(** C127: any look-ahead, whatever is in the queue and the table: it answers 0, trains at most as often as its depth says, and only on the sample it was given, with all the features of it; the nodes it
    adds lie below the one it starts from, and one that counts as trained has the margin of such a training. *)
Lemma c127_trained_refuted : forall (c : aos_cfg) (lad : nat) (primal : bool) tr (d : data R) (ofn : list Z) (w : list R) (level : nat) st tab q ws (n : nat) sol log a s', NoDup (d_fnames d) ->
  look_ahead c lad primal tr d ofn w level (st, tab, q, ws, n, sol, log) = Ok (a, s') ->
  a = 0%R /\ exists st' tab' q' ws' n' sol' new, s' = (st', tab', q', ws', n', sol', log ++ new) /\ length new <= lad /\ n' = n + length new /\ (forall x, In x new -> fst x = d) /\
    forall p nd, length st <= p -> nth_error st' p = Some (Some nd) -> level < n_level nd <= level + lad /\
      (n_rgamma nd = (-1)%R \/ exists m, n <= m < n' /\ fst (tr m d) = true /\ n_rgamma nd = snd (snd (tr m d))).
Proof.
  intros c lad primal tr d ofn w level st tab q ws n sol log a s' ND H. unfold look_ahead in H. apply obind_Ok in H as (r & H & E). injection E as <- <-. split; [auto|].
  apply (loop_any d ND c primal tr ofn level (length st) n) in H; [| auto | auto | | intros; cbn; lia].
  2:{ intros p nd P X. assert (p < length st) by (apply nth_error_Some; congruence). lia. }
  destruct H as (st' & tab' & q' & ws' & n' & sol' & new & -> & L1 & L2 & L3 & _ & L5 & _). exists st', tab', q', ws', n', sol', new. repeat (split; [auto; fail|]). intros p nd P X. apply (L5 p nd P X).
Qed.
(** C127: a primal classifier is handed the weights of earlier turns as well: from the second training on more than the node has features. *)
Lemma c127_start_refuted : forall (c : aos_cfg) (lad : nat) tr (d : data R) (ofn : list Z) (w : list R) (level : nat) st tab q ws (n : nat) sol log a st' tab' q' ws' n' sol' new j x, NoDup (d_fnames d) ->
  look_ahead c lad true tr d ofn w level (st, tab, q, ws, n, sol, log) = Ok (a, (st', tab', q', ws', n', sol', log ++ new)) -> 3 <= dim d -> 1 <= j -> nth_error new j = Some x ->
  dim d - S j < length (snd x).
Proof.
  intros c lad tr d ofn w level st tab q ws n sol log a st' tab' q' ws' n' sol' new j x ND H D3 J1 X. unfold look_ahead in H. apply obind_Ok in H as (r & H & E). injection E as <- ->.
  apply (loop_any d ND c true tr ofn level (length st) n) in H; [| auto | auto | | intros; cbn; lia].
  2:{ intros p nd P Y. assert (p < length st) by (apply nth_error_Some; congruence). lia. }
  destruct H as (st2 & tab2 & q2 & ws2 & n2 & sol2 & new2 & E & _ & _ & _ & L4 & _). injection E as _ _ _ _ _ _ E. apply app_inv_head in E. subst new2. specialize (L4 eq_refl j x X).
  destruct (dim d) as [|[|[|m]]] eqn:Ed; try lia. assert ((0 + S j) * (S (S (S m)) - 2) >= 2 * S m) by (apply Nat.mul_le_mono; lia). lia.
Qed.

Definition look_cfg : aos_cfg := aos_new fx 1 2 0 0.
Lemma c127_root_ex : data_ok fx /\ d_points fx <> [] /\ 2 <= length (d_fnames fx) /\ a_depth look_cfg = Z.of_nat 2 /\ length [1; 2; 3]%R = length (d_fnames fx) /\
  (forall m, fst (even_train 1 m fx) = true /\ length (fst (snd (even_train 1 m fx))) = length (d_fnames fx)) /\ 1 <= a_len look_cfg /\ look_turns 2 (length (d_fnames fx)) 2 <= a_width look_cfg /\
  look_turns 2 (length (d_fnames fx)) 2 <= a_cap look_cfg /\ look_turns 2 (length (d_fnames fx)) 2 = 2.
Proof.
  split; [apply fx_ok|]. split; [discriminate|]. change (length (d_fnames fx)) with 3. split; [lia|]. split; [reflexivity|]. split; [reflexivity|]. split; [intro m; split; reflexivity|]. unfold look_cfg, aos_new, look_turns. cbn [a_len a_width a_cap]. repeat split; lia.
Qed.
Lemma c127_margin_refuted_ex : 0 < 2 /\ a_gm (with_gm look_cfg 7) = 7%R /\ a_gm look_cfg = 0%R.
Proof. repeat split. lia. Qed.
Lemma c127_trained_refuted_ex : exists st tab q ws sol log, NoDup (d_fnames fx) /\
  look_ahead look_cfg 2 true (even_train 1) fx [] [1; 2; 3]%R 0 ([], vis_new (a_len look_cfg) (a_width look_cfg), pq_new (a_cap look_cfg), [], 0, [], []) = Ok (0%R, (st, tab, q, ws, 2, sol, [] ++ log)) /\
  map fst log = [fx; fx] /\ exists nd, nth_error st 0 = Some (Some nd) /\ n_fnames nd = [1]%Z /\ n_rgamma nd = 1%R.
Proof.
  destruct c127_root_ex as (A & B & C & D & E & F & G & H & I & J).
  destruct (c127_root fx look_cfg 2 true (even_train 1) [1; 2; 3]%R [] 0 2 A B C D E F G H I) as (fs & st & tab & q & sol & log & R0 & Lf & ND & Inc & Ch & Ls & Nn & Hh & Lg).
  rewrite Lf, J in *. exists st, tab, q, (map (fun j => fst (snd (even_train 1 (0 + j) fx))) (seq 0 2)), sol, log. split; [apply names_NoDup, fx_ok|]. split; [exact R0|]. split; [rewrite Lg; reflexivity|].
  destruct (Nn 0 ltac:(lia)) as (nd & N1 & (N2 & N3 & N4 & N5 & N6)). exists nd. split; [auto|]. split; [|rewrite N6; reflexivity].
  destruct (Ch 0 ltac:(lia)) as (i & Ei & (L1 & L2 & L3)). cbn [weights_at] in *. change (length (d_fnames fx)) with 3 in *.
  assert (Hi : i = 0). { destruct i as [|i]; auto. exfalso. specialize (L3 0 ltac:(lia)). destruct i as [|[|i]]; cbn [nth] in L3; [| | lia]; rewrite !Rabs_pos_eq in L3 by lra; lra. }
  subst i. cbn in Ei. destruct fs as [|f [|g [|]]]; cbn in Lf; try lia. cbn [nth] in Ei. subst f. cbn [firstn] in N3. apply Permutation_sym, Permutation_length_1_inv in N3. auto.
Qed.
Lemma c127_start_refuted_ex : exists st tab q ws sol new x, NoDup (d_fnames fx) /\
  look_ahead look_cfg 2 true (even_train 1) fx [] [1; 2; 3]%R 0 ([], vis_new (a_len look_cfg) (a_width look_cfg), pq_new (a_cap look_cfg), [], 0, [], []) = Ok (0%R, (st, tab, q, ws, 2, sol, [] ++ new)) /\
  3 <= dim fx /\ nth_error new 1 = Some x.
Proof.
  destruct c127_trained_refuted_ex as (st & tab & q & ws & sol & log & A & B & C & _). destruct log as [|x [|y l]]; try discriminate. exists st, tab, q, ws, sol, (x :: y :: l), y. split; [exact A|]. split; [exact B|]. split; [change (dim fx) with 3; lia | reflexivity].
Qed.
