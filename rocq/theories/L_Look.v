(** Lemmas on the look-ahead of the admissible ordered search. *)
From Coq Require Import ZArith Bool List Reals Permutation Sorted Lia Lra.
From Verif Require Import Base ListLib Loop M_Data S_Data L_Data L_Data2 L_Feat L_Join M_Point L_Vec M_Kmeans S_Fs T_Fs M_Pq S_Pq L_Pq T_Pq T_Prune T_Vis M_Aos S_Aos L_Aos L_Aos2 M_Look S_Look.
Import ListNotations.
Local Open Scope nat_scope.

Lemma choose_ok names w dm : length names = dm -> dm <= length w -> 1 <= dm ->
  exists i, look_choose names dm w = Ok (nth i names 0%Z) /\ least_first w dm i.
Proof.
  intros Ln Lw Hd. unfold look_choose.
  assert (V : forall i, i < dm -> vget w i = Ok (nth i w 0%R) /\ vget names i = Ok (nth i names 0%Z)).
  { intros i Hi. unfold vget. rewrite (nth_error_nth' w 0%R) by lia. rewrite (nth_error_nth' names 0%Z) by lia. auto. }
  destruct (V 0 ltac:(lia)) as (-> & ->). cbn [obind].
  assert (G : forall m i s, least_first w s i -> s + m <= dm ->
    exists i', ofold (fun (mf : R * Z) i => let* x := vget w i in if Rlt_dec (Rabs x) (fst mf) then let* f := vget names i in Ok (Rabs x, f) else Ok mf) (seq s m) (Rabs (nth i w 0%R), nth i names 0%Z)
       = Ok (Rabs (nth i' w 0%R), nth i' names 0%Z) /\ least_first w (s + m) i').
  { induction m as [|m IH]; intros i s L Hm; cbn [seq ofold].
    - exists i. rewrite Nat.add_0_r. auto.
    - destruct (V s ltac:(lia)) as (-> & ->). cbn [obind fst]. destruct L as (L1 & L2 & L3). destruct (Rlt_dec _ _) as [Lt | Ge]; cbn [obind].
      + destruct (IH s (S s)) as (i' & -> & H'); [|lia|].
        { split; [lia|]. split; intros j J; [destruct (Nat.eq_dec j s); [subst; lra|]|]; specialize (L2 j ltac:(lia)); lra. }
        exists i'. rewrite <- plus_n_Sm. auto.
      + destruct (IH i (S s)) as (i' & -> & H'); [|lia|].
        { split; [lia|]. split; intros j J; [destruct (Nat.eq_dec j s); [subst; lra | apply L2; lia] | apply L3; lia]. }
        exists i'. rewrite <- plus_n_Sm. auto. }
  destruct (G (dm - 1) 0 1) as (i & -> & H); [|lia|].
  { split; [lia|]. split; intros j J; [assert (j = 0) by lia; subst; lra | lia]. }
  cbn [obind snd]. exists i. split; [auto|]. replace dm with (1 + (dm - 1)) by lia. auto.
Qed.
Lemma keep_ok (d : data R) w f novo : dim d = length (d_fnames d) -> length (d_fnames d) <= length w -> look_keep d w f novo = Ok (novo ++ kept_weights d w f).
Proof.
  intros Hd Lw. unfold look_keep, kept_weights. rewrite Hd. set (m := length (d_fnames d)) in *. assert (G : forall k s acc, s + k <= m ->
    ofold (fun acc j => let* g := vget (d_fnames d) j in if Z.eqb g f then Ok acc else let* x := vget w j in Ok (acc ++ [x])) (seq s k) acc =
    Ok (acc ++ map (fun p => nth p w 0%R) (filter (fun p => negb (Z.eqb (nth p (d_fnames d) 0%Z) f)) (seq s k)))).
  { induction k as [|k IH]; intros s acc H; cbn [seq ofold filter map]; [rewrite app_nil_r; auto|]. unfold vget at 1. rewrite (nth_error_nth' (d_fnames d) 0%Z) by (fold m; lia). cbn [obind].
    destruct (Z.eqb (nth s (d_fnames d) 0%Z) f); cbn [obind negb]; [apply IH; lia|]. unfold vget. rewrite (nth_error_nth' w 0%R) by lia. cbn [obind map]. rewrite IH by lia. rewrite <- app_assoc. auto. }
  apply G. lia.
Qed.
Lemma handed_app primal tr n d w fs x m : m <= length fs -> handed primal tr n d w (fs ++ [x]) m = handed primal tr n d w fs m.
Proof.
  intros L. unfold handed. destruct primal; auto. rewrite !flat_map_concat_map. f_equal. apply map_ext_in. intros i J. apply in_seq in J. rewrite app_nth1 by lia. auto.
Qed.
Lemma look_names_ok level ofn feats : length ofn = level -> NoDup (ofn ++ feats) ->
  exists r, look_names level ofn feats = Ok r /\ desc r /\ Permutation r (ofn ++ feats).
Proof.
  intros L ND. unfold look_names. subst. rewrite Nat.ltb_irrefl, firstn_all. eexists. split; [reflexivity|].
  assert (P : Permutation (rev (isort Z.leb (ofn ++ feats))) (ofn ++ feats)) by (rewrite <- Permutation_rev; apply isort_perm).
  split; [|auto]. apply SS_rev, sorted_le_lt; [apply Zsort_sorted|]. rewrite isort_NoDup. auto.
Qed.

(** ** The first look-ahead: from an empty queue and an empty table *)
Section Root.
Context (d : data R) (Od : data_ok d) (Nd : d_points d <> []) (N2 : 2 <= length (d_fnames d)).
Context (c : aos_cfg) (primal : bool) (tr : nat -> data R -> bool * (list R * R)) (w : list R) (n dn K : nat).
Context (Hdep : a_depth c = Z.of_nat dn) (Hw : length w = length (d_fnames d)).
Context (Htr : forall m, fst (tr m d) = true /\ length (fst (snd (tr m d))) = length (d_fnames d)).
Context (Hlen : 1 <= a_len c) (Hwid : K <= a_width c) (Hcap : K <= a_cap c).
Notation N := (d_fnames d).
Definition chosen (feats : list Z) (j : nat) : Prop :=
  exists i, nth j feats 0%Z = nth i (filter (without (firstn j feats)) N) 0%Z /\ least_first (weights_at primal tr n d w j) (length N - j) i.
Record root_inv (count : nat) (feats : list Z) (st : store) (tab : visited) (q : pq) (ws : list (list R)) (log : list (data R * list R)) : Prop := {
  r_fl : length feats = count; r_nd : NoDup feats; r_in : incl feats N;
  r_ch : forall j, j < count -> chosen feats j;
  r_sl : length st = count;
  r_st : forall j, j < count -> exists nd, nth_error st j = Some (Some nd) /\ look_node (firstn (S j) feats) (snd (snd (tr (n + j) d))) nd;
  r_rl : length (t_rows tab) = a_len c; r_wd : t_width tab = a_width c;
  r_rw : forall i rw, nth_error (t_rows tab) i = Some rw -> length rw <= count /\ forall p, In p rw -> p < count;
  r_pq : pqstr (a_cap c) q;
  r_ho : exists ps, holds q ps /\ Permutation ps (seq 0 count);
  r_ws : ws = map (fun j => fst (snd (tr (n + j) d))) (seq 0 count);
  r_lg : map fst log = repeat d count }.

Lemma filter_length_in f : NoDup f -> incl f N -> length (filter (without f) N) = length N - length f.
Proof. intros A B. pose proof (without_length N f (names_NoDup d Od) A B). lia. Qed.

Lemma root_step count feats st tab q ws log : root_inv count feats st tab q ws log -> count < K -> S count < length N ->
  exists feat names st1 tab1, look_choose (filter (without feats) N) (length N - count) (weights_at primal tr n d w count) = Ok feat /\
   look_names 0 [] (feats ++ [feat]) = Ok names /\
   vis_add (st ++ [Some (mkNode names (S count) (-1) 0 (-1))]) tab (length st) = Ok (true, st1, tab1) /\
   (exists e, removeFeatures_copy d (feats ++ [feat]) (Some (S count)) = Ok e /\ d_fnames e = filter (without (feats ++ [feat])) N /\ dim e = length N - S count) /\
   exists st2 q2, assign st1 (length st) (mkNode names (S count) (snd (snd (tr (n + count) d))) 0 (snd (snd (tr (n + count) d)))) = Ok st2 /\
     pq_insert (a_cap c) st2 q (length st) true = Ok q2 /\
     forall x, root_inv (S count) (feats ++ [feat]) st2 tab1 (snd q2) (ws ++ [fst (snd (tr (n + count) d))]) (log ++ [(d, x)]).
Proof.
  intros [Fl ND Inc Ch Sl St Rl Wd Rw Pq Ho Ws Lg] Hk Hn.
  pose proof (filter_length_in feats ND Inc) as FL. rewrite Fl in FL.
  assert (Lw : length (weights_at primal tr n d w count) = length N) by (destruct count; cbn [weights_at]; [auto|]; destruct primal; [apply Htr | auto]).
  destruct (choose_ok (filter (without feats) N) (weights_at primal tr n d w count) (length N - count) FL ltac:(lia) ltac:(lia)) as (i & Ec & Lf).
  set (feat := nth i (filter (without feats) N) 0%Z) in *. exists feat.
  assert (If : In feat (filter (without feats) N)) by (apply nth_In; destruct Lf; lia).
  apply filter_In in If as (If & Wf). assert (Nf : ~ In feat feats).
  { intro X. unfold without in Wf. apply negb_true_iff in Wf. assert (T0 : existsb (Z.eqb feat) feats = true) by (apply existsb_exists; exists feat; split; [auto | apply Z.eqb_refl]). congruence. }
  assert (ND' : NoDup (feats ++ [feat])). { apply (Permutation_NoDup (Permutation_cons_append feats feat)). constructor; auto. }
  assert (Inc' : incl (feats ++ [feat]) N). { intros x X. apply in_app_or in X as [X | [<- | []]]; auto. }
  assert (Fl' : length (feats ++ [feat]) = S count) by (rewrite app_length; cbn [length]; lia).
  destruct (look_names_ok 0 [] (feats ++ [feat]) eq_refl ND') as (names & En & Dn & Pn). cbn [app] in Pn. exists names.
  assert (Lnm : length names = S count) by (apply Permutation_length in Pn; lia).
  set (nd := mkNode names (S count) (-1) 0 (-1)). assert (Tn : tidy nd) by (unfold tidy, nd; cbn; auto).
  assert (Ne : nth_error (st ++ [Some nd]) (length st) = Some (Some nd)) by apply nth_error_last.
  assert (De : deref (st ++ [Some nd]) (length st) = Ok nd) by (unfold deref; rewrite Ne; auto).
  destruct (hash_index_ok (a_len c) nd Tn Hlen) as (Hi & Hb).
  destruct (vget_lt (t_rows tab) (hval (a_len c) names) ltac:(rewrite Rl; auto)) as (rw & Er & Eg). destruct (Rw _ _ Er) as (Rln & Rp).
  assert (Old : forall p, p < count -> nth_error (st ++ [Some nd]) p = nth_error st p) by (intros; rewrite nth_error_app1; auto; lia).
  destruct (add_search_ok _ _ nd Ne Tn rw) as [(S1 & _) | (p & o & st' & _ & Ip & Op & Fo & _)].
  { intros p Ip. specialize (Rp p Ip). split; [lia|]. destruct (St p Rp) as (m & M & _ & Pm & Lm & _). exists m. rewrite Old by auto. split; [auto|]. unfold tidy. apply Permutation_length in Pm. lia. }
  2:{ exfalso. specialize (Rp p Ip). destruct (St p Rp) as (m & M & _ & Pm & Lm & _). rewrite Old, M in Op by auto. injection Op as <-. apply Permutation_length in Pm. rewrite firstn_length, Fl in Pm. rewrite Fo in Pm. cbn [n_fnames nd] in Pm. lia. }
  destruct (vupd_lt (hval (a_len c) names) (fun w => w ++ [length st]) (t_rows tab) ltac:(rewrite Rl; auto)) as (rows & Ur & Uv).
  exists (st ++ [Some nd]), (mkVis rows (t_width tab) (S (t_count tab))). split; [auto|]. split; [auto|]. split.
  { unfold vis_add. rewrite De. cbn [obind]. rewrite Rl, Hi. cbn [obind]. change (n_fnames nd) with names. rewrite Eg. cbn [obind]. rewrite S1. cbn [obind].
    destruct (Nat.leb_spec (t_width tab) (length rw)); [lia|]. rewrite Uv. auto. }
  split.
  { destruct (sub_ok d Od Nd (feats ++ [feat]) ltac:(intro X; apply app_eq_nil in X as (_ & X); discriminate) ND' Inc' ltac:(lia)) as (e & Ee & _ & _ & Re & De' & Ln').
    exists e. unfold removeFeatures_copy. rewrite Fl', Nat.ltb_irrefl. rewrite <- Fl', firstn_all, Ee. split; [auto|]. destruct Re as (Fe & _). split; [auto|]. lia. }
  set (m := snd (snd (tr (n + count) d))). destruct (assign_ok (st ++ [Some nd]) (length st) (mkNode names (S count) m 0 m)) as (st2 & Ea & A1 & A2 & A3). { exists nd. auto. }
  destruct Ho as (ps & Ho & Pp).
  assert (St2 : forall j, j < count -> nth_error st2 j = nth_error st j) by (intros j J; rewrite A3 by lia; auto).
  destruct (insert_safe (a_cap c) st2 q (length st) true ps ltac:(lia) Pq Ho) as (b & q' & ps' & Ei & P1 & P2 & P3 & P4 & P5 & P6).
  { apply (Permutation_NoDup (Permutation_sym Pp)). apply seq_NoDup. }
  { intros x X. apply (Permutation_in _ Pp) in X. apply in_seq in X. destruct (St x ltac:(lia)) as (o & O & _). exists o. rewrite St2 by lia. auto. }
  { eexists. exact A1. }
  { intro X. apply (Permutation_in _ Pp) in X. apply in_seq in X. lia. }
  exists st2, (b, q'). split; [auto|]. split; [auto|]. cbn [snd].
  assert (Sz : pq_size q < a_cap c). { destruct Ho as (_ & Hl). apply Permutation_length in Pp. rewrite seq_length in Pp. lia. }
  assert (Fj : forall j, j <= count -> firstn j (feats ++ [feat]) = firstn j feats) by (intros j J; rewrite firstn_app; replace (j - length feats) with 0 by lia; rewrite app_nil_r; auto).
  intro x. split; auto.
  - intros j J. destruct (Nat.eq_dec j count) as [-> | Nj].
    + exists i. rewrite app_nth2 by lia. replace (count - length feats) with 0 by lia. cbn [nth]. rewrite Fj, <- Fl, firstn_all by lia. rewrite Fl. auto.
    + destruct (Ch j ltac:(lia)) as (i' & I1 & I2). exists i'. rewrite app_nth1 by lia. rewrite Fj by lia. auto.
  - rewrite A2, app_length. cbn [length]. lia.
  - intros j J. destruct (Nat.eq_dec j count) as [-> | Nj].
    + exists (mkNode names (S count) m 0 m). split; [rewrite <- A1; f_equal; lia|]. rewrite <- Fl', firstn_all. unfold look_node. cbn. rewrite Fl'. auto.
    + destruct (St j ltac:(lia)) as (o & O & Lo). exists o. rewrite St2 by lia. split; [auto|]. rewrite Fj by lia. auto.
  - cbn [t_rows]. rewrite (upd_length _ _ _ _ Ur). auto.
  - cbn [t_rows]. intros k rk Ek. destruct (Nat.eq_dec k (hval (a_len c) names)) as [-> | Nk].
    + rewrite (upd_nth_same _ _ _ _ Ur), Er in Ek. cbn [option_map] in Ek. injection Ek as <-. rewrite app_length. cbn [length]. split; [lia|]. intros p P. apply in_app_or in P as [P | [<- | []]]; [specialize (Rp p P); lia | lia].
    + rewrite (upd_nth_other _ _ _ _ _ Ur) in Ek by auto. destruct (Rw _ _ Ek) as (B1 & B2). split; [lia|]. intros p P. specialize (B2 p P). lia.
  - exists ps'. split; [auto|]. rewrite seq_S. etransitivity; [apply P5; auto|]. rewrite Sl. etransitivity; [apply perm_skip; exact Pp|]. cbn [Nat.add]. apply Permutation_cons_append.
  - rewrite seq_S, map_app, Ws. auto.
  - rewrite map_app, Lg. cbn [map fst]. replace (S count) with (count + 1) by lia. rewrite repeat_app. auto.
Qed.

Lemma root_loop : forall k count feats stmp novo st tab q ws sol log, root_inv count feats st tab q ws log -> d_fnames stmp = filter (without feats) N -> dim stmp = length N - count ->
  count <= look_turns (count + k) (length N) dn -> look_turns (count + k) (length N) dn <= K ->
  novo = handed primal tr n d w feats count -> log = map (fun j => (d, handed primal tr n d w feats (S j))) (seq 0 count) ->
  exists feats' st' tab' q' ws' sol' log', look_loop k c primal tr d [] 0 count feats stmp (weights_at primal tr n d w count) novo (st, tab, q, ws, n + count, sol, log) =
    Ok (st', tab', q', ws', n + look_turns (count + k) (length N) dn, sol', log') /\ root_inv (look_turns (count + k) (length N) dn) feats' st' tab' q' ws' log' /\
    log' = map (fun j => (d, handed primal tr n d w feats' (S j))) (seq 0 (look_turns (count + k) (length N) dn)).
Proof.
  induction k as [|k IH]; intros count feats stmp novo st tab q ws sol log Hi Hf Hd Hc HK Hnv Hlg.
  - cbn [look_loop]. assert (E : look_turns (count + 0) (length N) dn = count) by (unfold look_turns in *; lia). rewrite E. exists feats, st, tab, q, ws, sol, log. auto.
  - assert (Dd : dim d = length N) by (apply data_dim; auto). cbn [look_loop]. rewrite Dd, Hdep, Hd. cbn [Nat.add].
    destruct (Nat.eqb_spec (S count) (length N)) as [E1 | E1]; cbn [orb].
    { assert (E : look_turns (count + S k) (length N) dn = count) by (unfold look_turns in *; lia). rewrite E. exists feats, st, tab, q, ws, sol, log. auto. }
    destruct (Z.eqb_spec (Z.of_nat (length N - count)) (Z.of_nat (length N) - Z.of_nat dn)) as [E2 | E2]; cbn [orb].
    { assert (E : look_turns (count + S k) (length N) dn = count) by (unfold look_turns in *; lia). rewrite E. exists feats, st, tab, q, ws, sol, log. auto. }
    destruct (Z.eqb_spec (Z.of_nat count) (Z.of_nat dn)) as [E3 | E3].
    { assert (E : look_turns (count + S k) (length N) dn = count) by (unfold look_turns in *; lia). rewrite E. exists feats, st, tab, q, ws, sol, log. auto. }
    destruct (root_step count feats st tab q ws log Hi) as (feat & names & st1 & tab1 & Ec & En & Ev & (e & Ee & Fe & De) & st2 & q2 & Ea & Ei & Hx); [unfold look_turns in *; lia | unfold look_turns in *; lia|].
    rewrite Hf, Ec. cbn [obind].
    assert (Lf : length feats = count) by (destruct Hi; auto).
    assert (Kp : (if primal then look_keep d (weights_at primal tr n d w count) feat novo else Ok novo) = Ok (handed primal tr n d w (feats ++ [feat]) (S count))).
    { pose proof (handed_app primal tr n d w feats feat count ltac:(lia)) as Ha. rewrite Hnv, <- Ha. unfold handed. destruct primal eqn:Ep; auto.
      rewrite keep_ok; [|auto|]. 2:{ destruct count; cbn [weights_at]; [lia|]. destruct (Htr (n + count)); lia. }
      rewrite (seq_S count 0), flat_map_app. cbn [flat_map Nat.add]. rewrite app_nth2 by lia. replace (count - length feats) with 0 by lia. cbn [nth]. rewrite app_nil_r. auto. }
    rewrite Kp. clear Kp. set (novo1 := handed primal tr n d w (feats ++ [feat]) (S count)). cbn [obind]. rewrite Ee. cbn [obind]. rewrite En. cbn [obind]. rewrite Ev. cbn [obind].
    destruct (tr (n + count) d) as [ok [w1 m]] eqn:Et. destruct (Htr (n + count)) as (T1 & T2). rewrite Et in T1, T2. cbn [fst snd] in T1, T2, Ea, Hx. subst ok. cbn [negb]. rewrite Ea. cbn [obind]. rewrite Ei. cbn [obind].
    replace (if primal then w1 else weights_at primal tr n d w count) with (weights_at primal tr n d w (S count)).
    2:{ cbn [weights_at]. rewrite Et. cbn [fst snd]. destruct primal eqn:Ep; auto. destruct count; auto. }
    replace (S (n + count)) with (n + S count) by lia. replace (count + S k) with (S count + k) in * by lia.
    apply IH; [apply Hx | auto | auto | unfold look_turns in *; lia | auto | auto |].
    rewrite (seq_S count 0), map_app. replace (map (fun j => (d, handed primal tr n d w (feats ++ [feat]) (S j))) (seq 0 count)) with log; [auto|]. rewrite Hlg. apply map_ext_in. intros j J. apply in_seq in J. rewrite handed_app by lia. auto.
Qed.
End Root.

(** ** Any look-ahead *)
Lemma obind_Ok {A B} (m : outcome A) (f : A -> outcome B) r : obind m f = Ok r -> exists a, m = Ok a /\ f a = Ok r.
Proof. destruct m; cbn [obind]; intro H; try discriminate; eauto. Qed.
Lemma keep_length (d : data R) w f novo r : NoDup (d_fnames d) -> look_keep d w f novo = Ok r -> length novo + (dim d - 2) <= length r.
Proof.
  intros ND. unfold look_keep.
  assert (G : forall k s acc, ofold (fun acc j => let* g := vget (d_fnames d) j in if Z.eqb g f then Ok acc else let* x := vget w j in Ok (acc ++ [x])) (seq s k) acc = Ok r ->
     length acc <= length r /\ length acc + k <= length r + 1 /\ ((forall i, s <= i -> nth_error (d_fnames d) i <> Some f) -> length acc + k <= length r)).
  { induction k as [|k IH]; intros s acc; cbn [seq ofold]; intro H.
    - injection H as <-. split; [lia|]. split; [lia | intros; lia].
    - apply obind_Ok in H as (a & Ha & H). apply obind_Ok in Ha as (g & Hg & Ha). unfold vget in Hg. destruct (nth_error (d_fnames d) s) as [g'|] eqn:E; try discriminate. injection Hg as ->.
      destruct (Z.eqb_spec g f) as [-> | Ng].
      + injection Ha as <-. apply IH in H as (H0 & _ & H2). specialize (H2 ltac:(intros i Hi X; assert (s = i) by (apply (proj1 (NoDup_nth_error (d_fnames d)) ND); [apply nth_error_Some; congruence | congruence]); lia)).
        split; [lia|]. split; [lia|]. intro X. exfalso. apply (X s); auto.
      + apply obind_Ok in Ha as (x & _ & Ha). injection Ha as <-. apply IH in H as (H0 & H1 & H2). rewrite app_length in *. cbn [length] in *. split; [lia|]. split; [lia|]. intro X. specialize (H2 ltac:(intros; apply X; lia)). lia. }
  intro H. apply G in H as (H0 & H & _). lia.
Qed.
Lemma upd_split {A} (f : A -> A) : forall l i r, upd i f l = Some r -> length r = length l /\ (forall j, j <> i -> nth_error r j = nth_error l j) /\ nth_error r i = option_map f (nth_error l i).
Proof. intros l i r H. split; [apply (upd_length _ _ _ _ H)|]. split; [intros; apply (upd_nth_other _ _ _ _ _ H); auto | apply (upd_nth_same _ _ _ _ H)]. Qed.
Definition like (a b : option (option node)) : Prop :=
  match b with
  | Some (Some m) => exists o, a = Some (Some o) /\ n_fnames o = n_fnames m /\ n_level o = n_level m /\ n_rgamma o = n_rgamma m
  | _ => True
  end.
Lemma like_refl a : like a a.
Proof. destruct a as [[m|]|]; cbn; eauto. Qed.
Lemma like_trans a b c : like a b -> like b c -> like a c.
Proof. destruct c as [[m|]|]; cbn; auto. intros H (o & -> & H1 & H2 & H3). destruct H as (p & -> & P1 & P2 & P3). exists p. split; [auto|]. split; [congruence|]. split; congruence. Qed.
Lemma assign_like st p n st' o : deref st p = Ok o -> n_fnames n = n_fnames o -> n_level n = n_level o -> n_rgamma n = n_rgamma o -> assign st p n = Ok st' ->
  length st' = length st /\ forall q, like (nth_error st q) (nth_error st' q).
Proof.
  intros D H1 H2 H3 A. unfold assign in A. rewrite D in A. cbn [obind] in A. apply vupd_Ok, upd_split in A as (L & O & S0). split; [auto|]. intro q. destruct (Nat.eq_dec q p) as [-> | Nq]; [|rewrite O by auto; apply like_refl].
  unfold deref in D. destruct (nth_error st p) as [[m|]|] eqn:E; try discriminate. injection D as ->. rewrite S0. cbn. eauto.
Qed.
Lemma release_like st p st' : release st p = Ok st' -> length st' = length st /\ (forall q, like (nth_error st q) (nth_error st' q)) /\ nth_error st' p = Some None.
Proof.
  intros A. unfold release in A. apply obind_Ok in A as (o & D & A). apply vupd_Ok, upd_split in A as (L & O & S0). unfold deref in D. destruct (nth_error st p) as [[m|]|] eqn:E; try discriminate.
  split; [auto|]. split; [|auto]. intro q. destruct (Nat.eq_dec q p) as [-> | Nq]; [|rewrite O by auto; apply like_refl]. rewrite S0. cbn. auto.
Qed.
Lemma search_like st e : forall rw st', add_search st e rw = Ok (Some st') -> length st' = length st /\ (forall q, like (nth_error st q) (nth_error st' q)) /\ nth_error st' e = Some None.
Proof.
  induction rw as [|p rw IH]; intros st' H; cbn [add_search] in H; [discriminate|].
  apply obind_Ok in H as (n & Dn & H). apply obind_Ok in H as (o & Do & H). apply obind_Ok in H as (b & _ & H). destruct b; [|auto].
  apply obind_Ok in H as (st1 & H1 & H). apply obind_Ok in H as (st2 & H2 & H). injection H as <-. apply release_like in H2 as (L2 & K2 & E2).
  assert (K : length st1 = length st /\ forall q, like (nth_error st q) (nth_error st1 q)).
  { destruct (Rlt_dec (n_rgamma o) 0); [|injection H1 as <-; split; [auto | intro; apply like_refl]]. destruct (Rlt_dec (n_value o) (n_value n)); [|injection H1 as <-; split; [auto | intro; apply like_refl]].
    apply (assign_like st p _ st1 o Do) in H1; auto. }
  destruct K as (L1 & K1). split; [lia|]. split; [|auto]. intro q. apply (like_trans _ _ _ (K1 q) (K2 q)).
Qed.
Lemma vis_add_like st nd tab b st1 tab1 : vis_add (st ++ [Some nd]) tab (length st) = Ok (b, st1, tab1) ->
  (b = true -> st1 = st ++ [Some nd]) /\ (b = false -> length st1 = S (length st) /\ (forall q, like (nth_error (st ++ [Some nd]) q) (nth_error st1 q)) /\ nth_error st1 (length st) = Some None).
Proof.
  intro H. unfold vis_add in H. apply obind_Ok in H as (n & _ & H). apply obind_Ok in H as (i & _ & H). apply obind_Ok in H as (rw & _ & H). apply obind_Ok in H as (r & Hr & H). destruct r as [st'|].
  - injection H as <- <- <-. split; [discriminate|]. intros _. apply search_like in Hr as (L & K & E). rewrite app_length in L. cbn [length] in L. split; [lia | auto].
  - destruct (Nat.leb _ _); [discriminate|]. apply obind_Ok in H as (rows & _ & H). injection H as <- <- <-. split; [auto | discriminate].
Qed.

Section Any.
Context (d : data R) (ND : NoDup (d_fnames d)) (c : aos_cfg) (primal : bool) (tr : nat -> data R -> bool * (list R * R)) (ofn : list Z) (level base n0 : nat).
Definition node_good (top n : nat) (nd : node) : Prop :=
  level < n_level nd <= level + top /\ (n_rgamma nd = (-1)%R \/ exists m, n0 <= m < n /\ fst (tr m d) = true /\ n_rgamma nd = snd (snd (tr m d))).
Definition nodes_good (top n : nat) (st : store) : Prop := forall p nd, base <= p -> nth_error st p = Some (Some nd) -> node_good top n nd.
Lemma node_good_mono top n top' n' nd : top <= top' -> n <= n' -> node_good top n nd -> node_good top' n' nd.
Proof. intros H1 H2 (A & [B | (m & B1 & B2)]); (split; [lia|]); [auto|]. right. exists m. split; [lia | auto]. Qed.
Lemma nodes_like top n st st' : (forall q, like (nth_error st q) (nth_error st' q)) -> nodes_good top n st -> nodes_good top n st'.
Proof. intros L G p nd B E. specialize (L p). rewrite E in L. cbn in L. destruct L as (o & Eo & H1 & H2 & H3). specialize (G p o B Eo). unfold node_good in *. rewrite <- H2, <- H3. auto. Qed.
Lemma loop_any : forall k count feats stmp w novo st tab q ws n sol log s', look_loop k c primal tr d ofn level count feats stmp w novo (st, tab, q, ws, n, sol, log) = Ok s' ->
  base <= length st -> n0 <= n -> nodes_good count n st -> (primal = true -> count * (dim d - 2) <= length novo) ->
  exists st' tab' q' ws' n' sol' new, s' = (st', tab', q', ws', n', sol', log ++ new) /\ length new <= k /\ n' = n + length new /\ (forall x, In x new -> fst x = d) /\
    (primal = true -> forall j x, nth_error new j = Some x -> (count + S j) * (dim d - 2) <= length (snd x)) /\ nodes_good (count + k) n' st' /\ length st' <= length st + k.
Proof.
  induction k as [|k IH]; intros count feats stmp w novo st tab q ws n sol log s' H Hb Hn Hg Hv; cbn [look_loop] in H.
  - injection H as <-. exists st, tab, q, ws, n, sol, []. rewrite app_nil_r, !Nat.add_0_r. repeat (split; [auto; fail|]). split; [intros x []|]. split; [intros _ [|j] x X; discriminate|]. auto.
  - match type of H with (if ?b then _ else _) = _ => destruct b end.
    { injection H as <-. exists st, tab, q, ws, n, sol, []. rewrite app_nil_r, Nat.add_0_r. split; [auto|]. split; [cbn; lia|]. split; [auto|]. split; [intros x []|]. split; [intros _ [|j] x X; discriminate|]. split; [|lia]. intros p nd P E. apply (node_good_mono count n); [lia | lia|]. apply (Hg p); auto. }
    apply obind_Ok in H as (feat & _ & H). apply obind_Ok in H as (novo1 & Hk & H). apply obind_Ok in H as (stmp1 & _ & H). apply obind_Ok in H as (names & _ & H).
    assert (Hv1 : primal = true -> S count * (dim d - 2) <= length novo1).
    { intro Ep. rewrite Ep in Hk. apply keep_length in Hk; auto. specialize (Hv Ep). cbn [Nat.mul]. lia. }
    apply obind_Ok in H as (((b & st1) & tab1) & Ha & H). apply vis_add_like in Ha as (At & Af). destruct b.
    + specialize (At eq_refl). subst st1. destruct (tr n d) as [ok [w1 m]] eqn:Et. destruct ok; cbn [negb] in H.
      * apply obind_Ok in H as (st2 & Hs & H). apply obind_Ok in H as (i & _ & H).
        assert (Es : st2 = st ++ [Some (mkNode names (S (level + count)) m 0 m)]).
        { unfold assign in Hs. apply obind_Ok in Hs as (o & _ & Hs). apply vupd_Ok in Hs. clear -Hs. revert st2 Hs. induction st as [|x st IHs]; intros r U; cbn in U; [injection U as <-; auto|]. destruct (upd _ _ _) eqn:E; [|discriminate]. injection U as <-. cbn [app]. f_equal. apply IHs. auto. }
        apply IH in H; [| rewrite Es, app_length; lia | lia | | auto].
        2:{ intros p nd P E. rewrite Es in E. destruct (Nat.lt_ge_cases p (length st)) as [Lp | Lp].
            - rewrite nth_error_app1 in E by auto. apply (node_good_mono count n); [lia | lia|]. apply (Hg p); auto.
            - rewrite nth_error_app2 in E by auto. destruct (p - length st) as [|[|]]; cbn in E; try discriminate. injection E as <-. split; cbn [n_level n_rgamma]; [lia|]. right. exists n. rewrite Et. cbn [fst snd]. split; [lia | auto]. }
        destruct H as (st' & tab' & q' & ws' & n' & sol' & new & -> & L1 & L2 & L3 & L4 & L5 & L6).
        exists st', tab', q', ws', n', sol', ((d, novo1) :: new). rewrite <- app_assoc. cbn [app length]. split; [auto|]. split; [lia|]. split; [lia|]. split; [intros x [<- | X]; auto|].
        split; [|split; [replace (count + S k) with (S count + k) by lia; auto | rewrite Es, app_length in L6; cbn [length] in L6; lia]].
        intros Ep [|j] x X; cbn [nth_error] in X; [injection X as <-; cbn [snd]; specialize (Hv1 Ep); replace (count + 1) with (S count) by lia; auto|]. specialize (L4 Ep j x X). replace (count + S (S j)) with (S count + S j) by lia. auto.
      * injection H as <-. exists (st ++ [Some (mkNode names (S (level + count)) (-1) 0 (-1))]), tab1, q, (ws ++ [[]]), (S n), w1, [(d, novo1)]. split; [auto|]. cbn [length]. split; [lia|]. split; [lia|]. split; [intros x [<- | []]; auto|].
        split; [intros Ep [|[|j]] x X; cbn [nth_error] in X; try discriminate; injection X as <-; cbn [snd]; specialize (Hv1 Ep); replace (count + 1) with (S count) by lia; auto|]. split; [|rewrite app_length; cbn [length]; lia].
        intros p nd P E. destruct (Nat.lt_ge_cases p (length st)) as [Lp | Lp].
        -- rewrite nth_error_app1 in E by auto. apply (node_good_mono count n); [lia | lia|]. apply (Hg p); auto.
        -- rewrite nth_error_app2 in E by auto. destruct (p - length st) as [|[|]]; cbn in E; try discriminate. injection E as <-. split; cbn [n_level n_rgamma]; [lia | auto].
    + destruct (Af eq_refl) as (Ls & Lk & Le). apply IH in H; [|lia | auto | | auto].
      2:{ intros p nd P E. assert (Np : p <> length st) by (intro X; subst; rewrite Le in E; discriminate). specialize (Lk p). rewrite E in Lk. cbn in Lk. destruct Lk as (o & Eo & H1 & H2 & H3).
          assert (Go : node_good count n o). { destruct (Nat.lt_ge_cases p (length st)) as [Lp | Lp]; [rewrite nth_error_app1 in Eo by auto; apply (Hg p); auto|]. rewrite nth_error_app2 in Eo by auto. destruct (p - length st) as [|[|]] eqn:Ep; cbn in Eo; try discriminate. lia. }
          apply (node_good_mono count n); [lia | lia|]. unfold node_good in *. rewrite <- H2, <- H3. auto. }
      destruct H as (st' & tab' & q' & ws' & n' & sol' & new & -> & L1 & L2 & L3 & L4 & L5 & L6). exists st', tab', q', ws', n', sol', new. split; [auto|]. split; [lia|]. split; [auto|]. split; [auto|].
      split; [|split; [replace (count + S k) with (S count + k) by lia; auto | lia]]. intros Ep j x X. specialize (L4 Ep j x X). etransitivity; [|exact L4]. apply Nat.mul_le_mono_r. lia.
Qed.
End Any.

(** ** g_margin *)
Lemma loop_gm k c g primal tr d ofn level : forall count feats stmp w novo s,
  look_loop k (with_gm c g) primal tr d ofn level count feats stmp w novo s = look_loop k c primal tr d ofn level count feats stmp w novo s.
Proof.
  induction k as [|k IH]; intros; [auto|]. cbn [look_loop]. change (a_depth (with_gm c g)) with (a_depth c). change (a_cap (with_gm c g)) with (a_cap c).
  destruct (_ || _); [auto|]. destruct (look_choose _ _ _); cbn [obind]; auto. destruct (if primal then _ else _); cbn [obind]; auto. destruct (removeFeatures_copy _ _ _); cbn [obind]; auto. destruct (look_names _ _ _); cbn [obind]; auto.
  destruct s as [[[[[[st tab] q] ws] n] sol] log]. destruct (vis_add _ _ _) as [[[b st1] tab1]| |]; cbn [obind]; auto. destruct b; [|apply IH]. destruct (tr n d) as [ok [w1 m]]. destruct (negb ok); [auto|].
  destruct (assign _ _ _); cbn [obind]; auto. destruct (pq_insert _ _ _ _ _); cbn [obind]; auto.
Qed.
Lemma expand_gm c g lad primal srt tr d level ofn w m s : look_expand (with_gm c g) lad primal srt tr d level ofn w m s = look_expand c lad primal srt tr d level ofn w m s.
Proof.
  unfold look_expand, look_close, look_ahead. change (a_cut (with_gm c g)) with (a_cut c). rewrite loop_gm. reflexivity.
Qed.
Lemma main_gm c g lad primal srt tr d s : look_main (with_gm c g) lad primal srt tr d s = look_main c lad primal srt tr d s.
Proof.
  unfold look_main. change (a_depth (with_gm c g)) with (a_depth c). change (a_cap (with_gm c g)) with (a_cap c). destruct (Nat.eqb _ _).
  - destruct (snd _). apply expand_gm.
  - destruct (pq_pop _ _) as [r| |]; cbn [obind]; auto. destruct (fst r) as [p|]; auto. destruct (deref _ _); cbn [obind]; auto. destruct (Z.ltb _ _); auto. destruct (Rlt_dec _ _).
    + destruct (vget _ _); cbn [obind]; auto. apply expand_gm.
    + destruct (tr _ _) as [ok [w m]]. destruct (negb ok); auto. destruct (assign _ _ _); cbn [obind]; auto. destruct (value_at _ _ _); cbn [obind]; auto. destruct (_ || _); [auto|]. apply expand_gm.
Qed.
Lemma run_gm c g lad primal srt tr d : forall fuel s, look_run fuel (with_gm c g) lad primal srt tr d s = look_run fuel c lad primal srt tr d s.
Proof.
  induction fuel as [|f IH]; intro s; [auto|]. cbn [look_run]. change (a_depth (with_gm c g)) with (a_depth c). destruct (Nat.eqb _ _); auto. destruct (slot _ _); cbn [obind]; auto. destruct (deref _ _); cbn [obind]; auto. destruct (removeFeatures _ _); cbn [obind]; auto.
  destruct (_ && _); auto. rewrite main_gm. destruct (look_main _ _ _ _ _ _ _) as [[s'|]| |]; cbn [obind]; auto.
Qed.

(** ** Without look-ahead *)
Lemma close_off c primal tr d ofn w level s : z_gm s = a_gm c ->
  match look_close c 0 primal tr d ofn w level s with
  | Ok s' => exists st q part, aos_close c d level (if Nat.ltb (s_lool (z_aos s)) level then level else s_lool (z_aos s)) (Nat.ltb (s_lool (z_aos s)) level) (s_st (z_aos s)) (s_q (z_aos s)) (s_part (z_aos s)) = Ok (st, q, part) /\
      z_gm s' = a_gm c /\ z_aos s' = mkAos st (s_tab (z_aos s)) q (s_ws (z_aos s)) (if Nat.ltb (s_lool (z_aos s)) level then level else s_lool (z_aos s)) part (s_n (z_aos s))
  | UB => aos_close c d level (if Nat.ltb (s_lool (z_aos s)) level then level else s_lool (z_aos s)) (Nat.ltb (s_lool (z_aos s)) level) (s_st (z_aos s)) (s_q (z_aos s)) (s_part (z_aos s)) = UB
  | Abort => aos_close c d level (if Nat.ltb (s_lool (z_aos s)) level then level else s_lool (z_aos s)) (Nat.ltb (s_lool (z_aos s)) level) (s_st (z_aos s)) (s_q (z_aos s)) (s_part (z_aos s)) = Abort
  end.
Proof.
  intro Hg. unfold look_close, aos_close. destruct (_ && _).
  - change (Nat.ltb 0 0) with false. cbv iota. cbn [obind]. rewrite Hg. destruct (pq_prune _ _ _ _ _) as [r| |]; cbn [obind]; auto. do 3 eexists. split; [reflexivity|]. auto.
  - do 3 eexists. split; [reflexivity|]. auto.
Qed.
(** The two searches agree. *)
Definition agree (c : aos_cfg) (a : outcome (option lsearch)) (b : outcome (option aos)) : Prop :=
  match a, b with
  | Ok (Some s), Ok (Some x) => z_aos s = x /\ z_gm s = a_gm c
  | Ok None, Ok None => True
  | UB, UB => True
  | Abort, Abort => True
  | _, _ => False
  end.
Lemma with_self c : with_gm c (a_gm c) = c.
Proof. destruct c; auto. Qed.
Lemma expand_off c primal srt tr d level ofn w m s : z_gm s = a_gm c -> agree c (look_expand c 0 primal srt tr d level ofn w m s) (aos_expand c srt d level ofn w m (z_aos s)).
Proof.
  intro Hg. unfold look_expand, aos_expand. pose proof (close_off c primal tr d ofn w level s Hg) as K. destruct (look_close _ _ _ _ _ _ _ _ _) as [s1| |]; cbn [obind].
  - destruct K as (st & q & part & -> & G & ->). cbn [obind s_st s_tab s_q s_ws s_lool s_part s_n]. rewrite G, with_self.
    destruct (map_outcome _ _); cbn [obind agree]; auto. destruct (pnorm2 w); cbn [obind agree]; auto. destruct (_ && _); cbn [agree]; auto. destruct (ofold _ _ _) as [[[[st1 tab1] q1] nw]| |]; cbn [obind agree]; auto.
  - rewrite K. cbn. auto.
  - rewrite K. cbn. auto.
Qed.
Lemma main_off c primal srt tr d s : z_gm s = a_gm c -> agree c (look_main c 0 primal srt tr d s) (aos_main c srt tr d (z_aos s)).
Proof.
  intro Hg. unfold look_main, aos_main. destruct (Nat.eqb _ _).
  - destruct (snd _). apply (expand_off c primal srt tr d 0 [] l r (look_at s (s_st (z_aos s)) (s_q (z_aos s)) (s_ws (z_aos s)) (S (s_n (z_aos s))) l)). auto.
  - destruct (pq_pop _ _) as [r| |]; cbn [obind agree]; auto. destruct (fst r) as [p|]; cbn [agree]; auto. destruct (deref _ _) as [n| |]; cbn [obind agree]; auto. destruct (Z.ltb _ _); cbn [agree]; auto. destruct (Rlt_dec _ _).
    + destruct (vget _ _) as [w| |]; cbn [obind agree]; auto. apply (expand_off c primal srt tr d (n_level n) (n_fnames n) w (n_rgamma n) (look_at s (s_st (z_aos s)) (snd r) (s_ws (z_aos s)) (s_n (z_aos s)) (z_sol s))). auto.
    + destruct (tr _ _) as [ok [w m]]. destruct (negb ok); cbn [agree]; auto. destruct (assign _ _ _) as [st| |]; cbn [obind agree]; auto. destruct (value_at _ _ _); cbn [obind agree]; auto. destruct (_ || _).
      * destruct (vupd _ _ _); cbn [obind agree]; auto. destruct (pq_insert _ _ _ _ _); cbn [obind agree]; auto.
      * apply (expand_off c primal srt tr d (n_level n) (n_fnames n) w m (look_at s st (snd r) (s_ws (z_aos s)) (S (s_n (z_aos s))) w)). auto.
Qed.
Lemma run_off c primal srt tr d : forall fuel s, z_gm s = a_gm c -> look_run fuel c 0 primal srt tr d s = aos_loop fuel c srt tr d (z_aos s).
Proof.
  induction fuel as [|f IH]; intros s Hg; [auto|]. cbn [look_run aos_loop]. destruct (Nat.eqb _ _); auto. destruct (slot _ _); cbn [obind]; auto. destruct (deref _ _); cbn [obind]; auto. destruct (removeFeatures _ _) as [e| |]; cbn [obind]; auto. destruct (_ && _); auto.
  pose proof (main_off c primal srt tr (copy (fst e)) s Hg) as K. destruct (look_main _ _ _ _ _ _ _) as [[s'|]| |], (aos_main _ _ _ _ _) as [[x|]| |]; cbn [agree] in K; try contradiction; cbn [obind]; auto. destruct K as (<- & K). auto.
Qed.
