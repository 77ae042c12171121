(** The invariant of the admissible ordered search. *)
From Coq Require Import ZArith Bool List Reals Permutation Sorted Lia Lra.
From Verif Require Import Base ListLib Loop M_Data S_Data L_Data L_Data2 L_Feat L_Join M_Point L_Vec M_Kmeans S_Fs T_Fs M_Pq S_Pq L_Pq T_Pq T_Prune T_Vis M_Aos S_Aos L_Aos.
Import ListNotations.
Local Open Scope nat_scope.

Section Search.
Context (d : data R) (tr : nat -> data R -> bool * (list R * R)).
Context (len width cap dn cut : nat).
Notation N := (d_fnames d).
Let c1 := Nat.max cut 1.
(** What is known of the weights kept for a trained node. *)
Definition good (f : list Z) (w : list R) : Prop :=
  length w + length f = length N /\ length f <= dn /\ (exists x, In x w /\ x <> 0%R) /\ exists k e, removeFeatures (copy d) f = Ok (e, true) /\ fst (tr k e) = true.
Record front_ok (lool : nat) (gs : list (list Z)) (ps : list nat) (st : store) (tab : visited) (q : pq) (nw : list (list R)) : Prop := {
  f_gl : length gs = length st;
  f_wl : length nw = length st;
  f_node : forall p n, nth_error st p = Some (Some n) -> n_fnames n = nth p gs [] /\ tidy n /\ (0 <= n_value n)%R /\ (n_rgamma n = -1 \/ 0 < n_rgamma n)%R;
  f_gs : forall f, In f gs -> desc f /\ incl f N /\ 1 <= length f <= S dn;
  f_len : length (t_rows tab) = len;
  f_wd : t_width tab = width;
  f_row : forall i rw, nth_error (t_rows tab) i = Some rw -> NoDup (map (fun p => nth p gs []) rw) /\
    forall p, In p rw -> p < length st /\ hval len (nth p gs []) = i /\ length (nth p gs []) <= S lool /\ (live st p \/ length (nth p gs []) + c1 <= lool);
  f_pq : pqstr cap q;
  f_holds : holds q ps;
  f_nd : NoDup ps;
  f_ps : forall p, In p ps -> live st p /\ length (nth p gs []) <= S lool /\ lool < length (nth p gs []) + c1;
  f_tr : forall p n, In p ps -> nth_error st p = Some (Some n) -> (0 < n_rgamma n)%R -> good (nth p gs []) (nth p nw []) }.

Definition rg (st : store) (p : nat) : option R := match nth_error st p with Some (Some n) => Some (n_rgamma n) | _ => None end.
Lemma live_lt st p : live st p -> p < length st.
Proof. intros (n & E). apply nth_error_Some. congruence. Qed.
Lemma same_row_hval f f' : 1 <= len -> hval len f = hval len f' -> same_row len f f'.
Proof.
  intros Hl H. unfold hval in H. rewrite !fold_squares in H. unfold same_row. cbn in H. pose proof (Z.mod_pos_bound (squares f) (Z.of_nat len) ltac:(lia)). pose proof (Z.mod_pos_bound (squares f') (Z.of_nat len) ltac:(lia)). lia.
Qed.

Lemma front_add lool gs ps st tab q nw r level tp : 1 <= len -> apart len N (S dn) -> roomy len width N (S dn) -> front_ok lool gs ps st tab q nw ->
  desc r -> incl r N -> length r = S level -> level <= dn -> level <= lool -> lool < level + c1 -> (0 <= tp)%R ->
  exists b st1 tab1, vis_add (st ++ [Some (mkNode r (S level) tp tp (-1))]) tab (length st) = Ok (b, st1, tab1) /\ front_ok lool (gs ++ [r]) ps st1 tab1 q (nw ++ [[]]) /\ length st1 = S (length st) /\
    (b = true -> nth_error st1 (length st) = Some (Some (mkNode r (S level) tp tp (-1)))) /\
    ((forall i rw p, nth_error (t_rows tab) i = Some rw -> In p rw -> nth p gs [] <> r) -> b = true) /\
    (forall p, p < length st -> rg st1 p = rg st p).
Proof.
  intros Hl Ap Ro FO Dr Ir Lr Ld Ll Lc Tp. destruct FO as [Gl Wl Nd0 Gs Le Wd Rw Ks Hh ND Ps Tr]. set (n := mkNode r (S level) tp tp (-1)).
  assert (Tn : tidy n) by (unfold tidy, n; cbn; lia). assert (Ne : nth_error (st ++ [Some n]) (length st) = Some (Some n)) by apply nth_error_last.
  destruct (hash_index_ok len n Tn Hl) as (Hi & Hb). unfold vis_add. assert (De : deref (st ++ [Some n]) (length st) = Ok n) by (unfold deref; rewrite Ne; auto). rewrite De. cbn [obind]. rewrite Le, Hi. cbn [obind].
  change (n_fnames n) with r in *. destruct (vget_lt (t_rows tab) (hval len r) ltac:(lia)) as (rw & Er & ->). cbn [obind]. destruct (Rw _ _ Er) as (NDr & Rp).
  assert (Lold : forall p, p < length st -> nth_error (st ++ [Some n]) p = nth_error st p) by (intros; rewrite nth_error_app1; auto).
  assert (Gold : forall p, p < length st -> nth p (gs ++ [r]) [] = nth p gs []) by (intros; rewrite app_nth1; auto; lia).
  assert (Gin : forall p, p < length st -> In (nth p gs []) gs) by (intros; apply nth_In; lia).
  assert (Rl : forall p, In p rw -> p <> length st /\ exists m, nth_error (st ++ [Some n]) p = Some (Some m) /\ tidy m).
  { intros p Ip. destruct (Rp p Ip) as (Lp & Hp & _ & [Lv | Dead]); (split; [lia|]).
    - destruct Lv as (m & M). exists m. rewrite Lold by auto. split; [auto|]. apply (Nd0 p m M).
    - exfalso. destruct (Gs _ (Gin p Lp)) as (A1 & A2 & A3). apply (Ap (nth p gs []) r); [split; [auto|split; [auto|lia]] | split; [auto|split; [auto|lia]] | lia | lia |]. apply same_row_hval; auto. }
  assert (Gs' : forall f, In f (gs ++ [r]) -> desc f /\ incl f N /\ 1 <= length f <= S dn). { intros f F. apply in_app_or in F as [F | [<- | []]]; [auto|]. split; [auto|]. split; [auto | lia]. }
  assert (Wn : forall p, p < length st -> nth p (nw ++ [[]]) [] = nth p nw []) by (intros; rewrite app_nth1; auto; lia).
  destruct (add_search_ok _ _ n Ne Tn rw Rl) as [(S1 & D) | (p & o & st' & S1 & Ip & Op & Fo & P1 & P2 & P3 & P4)].
  - rewrite S1. cbn [obind]. assert (Fresh : ~ In r (map (fun p => nth p gs []) rw)).
    { intro I. apply in_map_iff in I as (p & E & Ip). destruct (Rl p Ip) as (_ & m & M & _). destruct (Rp p Ip) as (Lp & _). apply (D p m Ip M). rewrite Lold in M by auto. destruct (Nd0 p m M) as (F & _). rewrite F. auto. }
    assert (Room : length rw < t_width tab).
    { rewrite Wd. assert (Q : length (r :: map (fun p => nth p gs []) rw) <= width); [|cbn [length] in Q; rewrite map_length in Q; lia]. apply Ro.
      - constructor; auto.
      - intros f [<- | F]; [split; [auto|split; [auto|lia]]|]. apply in_map_iff in F as (p & <- & Ip). destruct (Rp p Ip) as (Lp & _). destruct (Gs _ (Gin p Lp)) as (A1 & A2 & A3). split; [auto|split; [auto|lia]].
      - assert (Hv : forall f, In f (r :: map (fun p => nth p gs []) rw) -> hval len f = hval len r). { intros f [<- | F]; [auto|]. apply in_map_iff in F as (p & <- & Ip). apply Rp. auto. }
        intros f f' F F'. apply same_row_hval; auto. rewrite (Hv f), (Hv f') by auto. auto. }
    destruct (Nat.leb (t_width tab) (length rw)) eqn:Lb; [apply Nat.leb_le in Lb; lia|]. destruct (vupd_lt (hval len r) (fun w => w ++ [length st]) (t_rows tab) ltac:(lia)) as (rows & U & V). rewrite V. cbn [obind].
    eexists true, _, _. split; [reflexivity|]. split; [|split; [rewrite app_length; cbn; lia | split; [intros _; auto | split; [auto | intros p Lp; unfold rg; rewrite Lold by auto; auto]]]].
    constructor; cbn [t_rows t_width]; auto.
    + rewrite !app_length. cbn. lia.
    + rewrite !app_length. cbn. lia.
    + intros p m M. destruct (Nat.lt_ge_cases p (length st)) as [Lp | Gp]; [rewrite Lold in M by auto; rewrite Gold by auto; auto|]. assert (p = length st) as -> by (assert (p < length (st ++ [Some n])) by (apply nth_error_Some; congruence); rewrite app_length in *; cbn in *; lia).
      rewrite Ne in M. injection M as <-. split; [unfold n; cbn [n_fnames]; rewrite app_nth2, Gl, Nat.sub_diag by lia; auto|]. split; [auto|]. split; [auto | left; auto].
    + apply upd_length in U. lia.
    + intros i rw2 Ei. assert (Old : forall i rw, nth_error (t_rows tab) i = Some rw -> NoDup (map (fun p => nth p (gs ++ [r]) []) rw) /\ forall p, In p rw -> p < length (st ++ [Some n]) /\ hval len (nth p (gs ++ [r]) []) = i /\ length (nth p (gs ++ [r]) []) <= S lool /\ (live (st ++ [Some n]) p \/ length (nth p (gs ++ [r]) []) + c1 <= lool)).
      { clear i rw2 Ei. intros i rw0 Ei. destruct (Rw _ _ Ei) as (A & B). split.
        - erewrite map_ext_in; [exact A|]. intros p Ip. cbv beta. apply Gold. apply B. auto.
        - intros p Ip. destruct (B p Ip) as (B1 & B2 & B3 & B4). rewrite Gold by auto. split; [rewrite app_length; lia|]. split; [auto|]. split; [auto|]. destruct B4 as [(m & M) | B4]; [left; exists m; rewrite Lold; auto | auto]. }
      destruct (Nat.eq_dec i (hval len r)) as [-> | Nh].
      * rewrite (upd_nth_same _ _ _ _ U), Er in Ei. cbn [option_map] in Ei. injection Ei as <-. destruct (Old _ _ Er) as (A & B). rewrite map_app. cbn [map]. assert (Gr : nth (length st) (gs ++ [r]) [] = r) by (rewrite app_nth2, Gl, Nat.sub_diag by lia; auto). rewrite Gr. split.
        -- apply (Permutation_NoDup (Permutation_cons_append _ _)). constructor; [|auto]. erewrite map_ext_in; [exact Fresh|]. intros p Ip. cbv beta. apply Gold. apply Rp. auto.
        -- intros p Ip. apply in_app_or in Ip as [Ip | [<- | []]]; [auto|]. rewrite Gr. split; [rewrite app_length; cbn; lia|]. split; [auto|]. split; [lia|]. left. exists n. auto.
      * rewrite (upd_nth_other _ _ _ _ _ U) in Ei by auto. auto.
    + intros p Ip. destruct (Ps p Ip) as (Lv & A). pose proof (live_lt _ _ Lv). rewrite Gold by auto. split; [destruct Lv as (m & M); exists m; rewrite Lold; auto | auto].
    + intros p m Ip M Rm. destruct (Ps p Ip) as (Lv & A). pose proof (live_lt _ _ Lv). rewrite Gold, Wn by auto. rewrite Lold in M by auto. apply (Tr p m); auto.
  - rewrite S1. cbn [obind]. eexists false, st', tab. split; [reflexivity|]. destruct (Rp p Ip) as (Lp & Hp & _ & _). rewrite Lold in Op by auto. rewrite app_length in P3. cbn [length] in P3.
    assert (Rn : n_rgamma (raise o n) = n_rgamma o /\ n_fnames (raise o n) = n_fnames o /\ n_level (raise o n) = n_level o /\ (n_value (raise o n) = n_value o \/ n_value (raise o n) = n_value n)).
    { unfold raise. destruct (Rlt_dec (n_rgamma o) 0); [destruct (Rlt_dec (n_value o) (n_value n))|]; cbn; auto. }
    destruct Rn as (Rn1 & Rn2 & Rn3 & Rn4).
    assert (Oth : forall x, x < length st -> x <> p -> nth_error st' x = nth_error st x) by (intros x X1 X2; rewrite P4 by lia; apply Lold; auto).
    assert (Lv' : forall x, x < length st -> (live st' x <-> live st x)). { intros x X. destruct (Nat.eq_dec x p) as [-> | Nx]; [split; intros _; [exists o | exists (raise o n)]; auto | unfold live; rewrite Oth by auto; reflexivity]. }
    split; [|split; [lia | split; [discriminate | split]]].
    + constructor; auto.
      * rewrite app_length. cbn. lia.
      * rewrite app_length. cbn. lia.
      * intros x m M. destruct (Nat.eq_dec x p) as [-> | Nx].
        -- rewrite P1 in M. injection M as <-. rewrite Gold by auto. destruct (Nd0 p o Op) as (F1 & F2 & F3 & F4). rewrite Rn2, Rn1. split; [auto|]. split; [unfold tidy in *; rewrite Rn2, Rn3; auto|]. split; [destruct Rn4 as [-> | ->]; auto|]. auto.
        -- assert (Lx : x < length st'). { apply nth_error_Some. congruence. } destruct (Nat.eq_dec x (length st)) as [-> | Ny]; [congruence|]. rewrite Oth in M by lia. rewrite Gold by lia. auto.
      * intros i rw2 Ei. destruct (Rw _ _ Ei) as (A & B). split.
        -- erewrite map_ext_in; [exact A|]. intros x Ix. cbv beta. apply Gold. apply B. auto.
        -- intros x Ix. destruct (B x Ix) as (B1 & B2 & B3 & B4). rewrite Gold by auto. split; [lia|]. split; [auto|]. split; [auto|]. rewrite Lv' by auto. auto.
      * intros x Ix. destruct (Ps x Ix) as (Lv & A). pose proof (live_lt _ _ Lv). rewrite Gold by auto. split; [apply Lv'; auto | auto].
      * intros x m Ix M Rm. destruct (Ps x Ix) as (Lv & A). pose proof (live_lt _ _ Lv). rewrite Gold, Wn by auto. destruct (Nat.eq_dec x p) as [-> | Nx]; [rewrite P1 in M; injection M as <-; apply (Tr p o); auto; rewrite <- Rn1; auto | rewrite Oth in M by auto; apply (Tr x m); auto].
    + intro Fr. exfalso. apply (Fr _ _ p Er Ip). destruct (Nd0 p o Op) as (F1 & _). rewrite <- F1, Fo. auto.
    + intros x X. unfold rg. destruct (Nat.eq_dec x p) as [-> | Nx]; [rewrite P1, Op, Rn1; auto | rewrite Oth by auto; auto].
Qed.

Lemma front_live lool gs ps st tab q nw : front_ok lool gs ps st tab q nw -> forall p, In p ps -> live st p.
Proof. intros FO p Ip. apply (f_ps _ _ _ _ _ _ _ FO p Ip). Qed.
Lemma front_insert lool gs ps st tab q nw p f : 1 <= cap -> front_ok lool gs ps st tab q nw -> live st p -> ~ In p ps -> length (nth p gs []) <= S lool -> lool < length (nth p gs []) + c1 ->
  (forall n, nth_error st p = Some (Some n) -> (0 < n_rgamma n)%R -> good (nth p gs []) (nth p nw [])) ->
  exists b q' ps', pq_insert cap st q p f = Ok (b, q') /\ front_ok lool gs ps' st tab q' nw /\ incl ps' (p :: ps) /\ (pq_size q < cap -> Permutation ps' (p :: ps)) /\ ps' <> [].
Proof.
  intros Hc FO Lp Np L1 L2 Gd. pose proof (front_live _ _ _ _ _ _ _ FO) as Lv. pose proof FO as [Gl Wl Nd0 Gs Le Wd Rw Ks Hh ND Ps Tr].
  destruct (insert_safe cap st q p f ps Hc Ks Hh ND Lv Lp Np) as (b & h' & ps' & R & K' & H' & ND' & I' & P' & N').
  exists b, h', ps'. split; [auto|]. split; [|split; [auto|split; auto]]. constructor; auto.
  - intros x X. apply I' in X as [<- | X]; [split; [auto | lia] | auto].
  - intros x n X. apply I' in X as [<- | X]; [apply Gd | apply Tr; auto].
Qed.

Lemma front_prune lool lool' gs ps st tab q nw gm : front_ok lool gs ps st tab q nw -> lool <= lool' -> (gm <= 0)%R ->
  exists st' q' ps', pq_prune lool' cut gm st q = Ok (st', q') /\ front_ok lool' gs ps' st' tab q' nw /\ incl ps' ps /\ length st' = length st /\ (forall p, In p ps' -> rg st' p = rg st p) /\
    (forall p, In p ps -> lool' < length (nth p gs []) -> In p ps').
Proof.
  intros FO Ll Gm. pose proof (front_live _ _ _ _ _ _ _ FO) as Lv. pose proof FO as [Gl Wl Nd0 Gs Le Wd Rw (K1 & K2 & K3) Hh ND Ps Tr]. pose proof Hh as (_ & Hlen).
  assert (Hr : row (pq_el q) 1 (pq_size q) = map Some ps) by (apply holds_row; auto; lia).
  destruct (cut_ok lool' cut gm (pq_size q) st (pq_el q) (pq_size q) 0 ps) as (st' & el' & size' & count' & ps' & Rr & Lel & Sz & Z0 & Rw' & ND' & In' & (G1 & G2) & Ct); auto; try lia.
  assert (Lst : length st' = length st).
  { assert (Sub : forall a b : store, (forall p, nth_error a p = None -> nth_error b p = None) -> length b <= length a).
    { intros a b H. apply nth_error_None. apply H. apply nth_error_None. auto. }
    assert (Nn : forall p, nth_error st p = None <-> nth_error st' p = None).
    { intro p. destruct (in_dec Nat.eq_dec p ps) as [I | I]; [destruct (stale_dec lool' cut gm st p) as [Sp | Sp]|].
      - pose proof (G1 p I Sp). destruct (Lv p I) as (n & E). split; congruence.
      - rewrite G2 by tauto. reflexivity.
      - rewrite G2 by tauto. reflexivity. }
    apply Nat.le_antisymm; apply Sub; intros p; apply Nn. }
  assert (Stl : forall p, In p ps -> stale lool' cut gm st p -> length (nth p gs []) + c1 <= lool').
  { intros p I (n & E & L1 & L2). destruct (Nd0 p n E) as (F & T & V & _). rewrite <- F, T. destruct L2 as [L2 | L2]; [exfalso; lra | unfold c1; lia]. }
  assert (Nst : forall p, In p ps -> ~ stale lool' cut gm st p -> lool' < length (nth p gs []) + c1).
  { intros p I H. destruct (Lv p I) as (n & E). destruct (Nd0 p n E) as (F & T & _). rewrite <- F, T. destruct (Nat.lt_ge_cases lool' (n_level n + c1)); [auto|]. exfalso. apply H. exists n. split; [auto|]. unfold c1 in *. split; [lia | right; lia]. }
  exists st'. eexists. exists ps'. unfold pq_prune. rewrite Rr. cbn [obind]. split; [reflexivity|]. split; [|split; [intros p; rewrite In'; tauto | split; [auto | split]]].
  - constructor; auto; try lia.
    + intros p n E. destruct (in_dec Nat.eq_dec p ps) as [I | I]; [destruct (stale_dec lool' cut gm st p) as [Sp | Sp]; [rewrite G1 in E by auto; discriminate|]|]; (rewrite G2 in E by tauto; auto).
    + intros i rw Ei. destruct (Rw _ _ Ei) as (A & B). split; [auto|]. intros p Ip. destruct (B p Ip) as (B1 & B2 & B3 & B4). split; [lia|]. split; [auto|]. split; [lia|].
      destruct B4 as [B4 | B4]; [|right; lia]. destruct (in_dec Nat.eq_dec p ps) as [I | I]; [destruct (stale_dec lool' cut gm st p) as [Sp | Sp]; [right; apply Stl; auto|]|]; (left; unfold live; rewrite G2 by tauto; auto).
    + split; [cbn [pq_el]; lia|]. split; [cbn [pq_size]; lia|]. cbn [pq_el]. congruence.
    + apply holds_row; cbn [pq_el pq_size]; [lia | auto].
    + intros p Ip. apply In' in Ip as (I & Ns). destruct (Ps p I) as (P1 & P2 & P3). split; [unfold live; rewrite G2 by tauto; auto|]. split; [lia|]. apply Nst; auto.
    + intros p n Ip. apply In' in Ip as (I & Ns). rewrite G2 by tauto. apply Tr. auto.
  - intros p Ip. apply In' in Ip as (I & Ns). unfold rg. rewrite G2 by tauto. auto.
  - intros p I L. apply In'. split; [auto|]. intro Sp. specialize (Stl p I Sp). unfold c1 in Stl. lia.
Qed.

Lemma front_assign lool gs ps st tab q nw p n m : front_ok lool gs ps st tab q nw -> ~ In p ps -> nth_error st p = Some (Some n) -> (0 < m)%R ->
  exists st', assign st p (mkNode (n_fnames n) (n_level n) m (n_pgamma n) m) = Ok st' /\ front_ok lool gs ps st' tab q nw /\ nth_error st' p = Some (Some (mkNode (n_fnames n) (n_level n) m (n_pgamma n) m)) /\ (forall x, x <> p -> nth_error st' x = nth_error st x).
Proof.
  intros FO Np E M. pose proof FO as [Gl Wl Nd0 Gs Le Wd Rw Ks Hh ND Ps Tr]. destruct (assign_ok st p (mkNode (n_fnames n) (n_level n) m (n_pgamma n) m)) as (st' & A & B & C & D); [exists n; auto|].
  exists st'. split; [auto|]. split; [|auto]. constructor; auto; try lia.
  - intros x k X. destruct (Nat.eq_dec x p) as [-> | Nx]; [|rewrite D in X by auto; auto]. rewrite B in X. injection X as <-. destruct (Nd0 p n E) as (F & T & _). cbn [n_fnames n_value n_rgamma]. split; [auto|]. split; [exact T|]. split; [lra | right; auto].
  - intros i rw Ei. destruct (Rw _ _ Ei) as (A1 & B1). split; [auto|]. intros x Ix. destruct (B1 x Ix) as (X1 & X2 & X3 & X4). split; [lia|]. split; [auto|]. split; [auto|]. destruct X4 as [X4 | X4]; [left | auto].
    destruct (Nat.eq_dec x p) as [-> | Nx]; [eexists; eauto | unfold live; rewrite D by auto; auto].
  - intros x Ix. assert (x <> p) by (intros ->; auto). unfold live. rewrite D by auto. apply Ps. auto.
  - intros x k Ix. assert (x <> p) by (intros ->; auto). rewrite D by auto. apply Tr. auto.
Qed.
Lemma front_keep lool gs ps st tab q nw p w : front_ok lool gs ps st tab q nw -> ~ In p ps -> p < length st ->
  exists nw', vupd p (fun _ => w) nw = Ok nw' /\ front_ok lool gs ps st tab q nw' /\ nth p nw' [] = w.
Proof.
  intros FO Np Lp. pose proof FO as [Gl Wl Nd0 Gs Le Wd Rw Ks Hh ND Ps Tr]. destruct (vupd_lt p (fun _ => w) nw ltac:(lia)) as (nw' & U & V). exists nw'. split; [auto|]. split.
  - constructor; auto; try lia.
    + apply upd_length in U. lia.
    + intros x k Ix E Rk. assert (x <> p) by (intros ->; auto). assert (Q : nth x nw' [] = nth x nw []). { pose proof (upd_nth_other _ x _ _ _ U ltac:(auto)) as On. destruct (nth_error nw x) as [y|] eqn:Ey; [rewrite (nth_error_nth _ _ [] Ey), (nth_error_nth _ _ [] On); auto | rewrite !nth_overflow; auto; apply nth_error_None; auto]. }
      rewrite Q. apply (Tr x k); auto.
  - pose proof (upd_nth_same _ _ _ _ U) as Sn. destruct (nth_error nw p) eqn:E; [|apply nth_error_None in E; lia]. cbn [option_map] in Sn. apply (nth_error_nth _ _ []) in Sn. auto.
Qed.
Lemma front_perm lool gs ps st tab q nw ps' q' : front_ok lool gs ps st tab q nw -> pqstr cap q' -> holds q' ps' -> NoDup ps' -> incl ps' ps -> front_ok lool gs ps' st tab q' nw.
Proof. intros [Gl Wl Nd0 Gs Le Wd Rw Ks Hh ND Ps Tr] K H N1 I. constructor; auto. intros p n X. apply Tr. apply I. auto. Qed.
End Search.
