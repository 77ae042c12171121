(** The table of visited nodes of AOS. *)
From Coq Require Import ZArith Bool List Reals Permutation Lia Lra.
From Verif Require Import Base ListLib Loop M_Pq S_Pq L_Pq T_Pq T_Prune.
Import ListNotations.
Local Open Scope nat_scope.

Lemma same_prefix_ok : forall a b, length a = length b -> same_prefix (length a) a b = Ok (if list_eq_dec Z.eq_dec a b then true else false).
Proof.
  induction a as [|x a IH]; intros [|y b] L; try discriminate; [auto|]. cbn [length same_prefix]. destruct (Z.eqb x y) eqn:E.
  - apply Z.eqb_eq in E. subst. rewrite IH by (cbn in L; lia). destruct (list_eq_dec Z.eq_dec a b), (list_eq_dec Z.eq_dec (y :: a) (y :: b)); auto; congruence.
  - apply Z.eqb_neq in E. destruct (list_eq_dec Z.eq_dec (x :: a) (y :: b)); auto. congruence.
Qed.
Lemma node_equal_ok a b : tidy a -> tidy b -> node_equal a b = Ok (if list_eq_dec Z.eq_dec (n_fnames a) (n_fnames b) then true else false).
Proof.
  unfold tidy, node_equal. intros Ta Tb. rewrite <- Ta, <- Tb. destruct (Nat.eqb _ _) eqn:E.
  - apply Nat.eqb_eq in E. apply same_prefix_ok. auto.
  - apply Nat.eqb_neq in E. destruct (list_eq_dec Z.eq_dec (n_fnames a) (n_fnames b)) as [Q|]; auto. rewrite Q in E. congruence.
Qed.
Definition hval (len : nat) (f : list Z) : nat := Z.to_nat (fold_left (fun s x => (s + x * x)%Z) f 0%Z mod Z.of_nat len).
Lemma hash_index_ok len n : tidy n -> 1 <= len -> hash_index len n = Ok (hval len (n_fnames n)) /\ hval len (n_fnames n) < len.
Proof.
  intros T L. unfold hash_index. rewrite T, Nat.ltb_irrefl. destruct (Nat.eqb len 0) eqn:E; [apply Nat.eqb_eq in E; lia|]. rewrite <- T, firstn_all. split; [auto|]. unfold hval.
  assert (0 <= fold_left (fun s x => (s + x * x)%Z) (n_fnames n) 0%Z mod Z.of_nat len < Z.of_nat len)%Z by (apply Z.mod_pos_bound; lia). lia.
Qed.
(** what one addition leaves *)
Definition raise (o n : node) : node := if Rlt_dec (n_rgamma o) 0 then if Rlt_dec (n_value o) (n_value n) then mkNode (n_fnames o) (n_level o) (n_value n) (n_pgamma n) (n_rgamma o) else o else o.
Lemma assign_ok st p n : live st p -> exists st', assign st p n = Ok st' /\ nth_error st' p = Some (Some n) /\ length st' = length st /\ forall q, q <> p -> nth_error st' q = nth_error st q.
Proof.
  intros (m & N). unfold assign, deref. rewrite N. cbn [obind]. destruct (vupd_lt p (fun _ : option node => Some n) st) as (r & U & V); [apply nth_error_Some; congruence|]. exists r. split; [auto|]. split; [|split].
  - rewrite (upd_nth_same _ _ _ _ U), N. auto.
  - apply (upd_length _ _ _ _ U).
  - intros q Q. apply (upd_nth_other _ _ _ _ _ U). auto.
Qed.
Lemma add_search_ok st e n : nth_error st e = Some (Some n) -> tidy n -> forall rw, (forall p, In p rw -> p <> e /\ exists m, nth_error st p = Some (Some m) /\ tidy m) ->
  (add_search st e rw = Ok None /\ forall p m, In p rw -> nth_error st p = Some (Some m) -> n_fnames m <> n_fnames n) \/
  (exists p o st', add_search st e rw = Ok (Some st') /\ In p rw /\ nth_error st p = Some (Some o) /\ n_fnames o = n_fnames n /\ nth_error st' p = Some (Some (raise o n)) /\ nth_error st' e = Some None /\ length st' = length st /\
     forall q, q <> p -> q <> e -> nth_error st' q = nth_error st q).
Proof.
  intros N Tn. induction rw as [|p rw IH]; intro H; [left; split; [auto | intros p m []]|]. destruct (H p) as (Npe & o & O & To); [left; auto|]. assert (De : deref st e = Ok n) by (unfold deref; rewrite N; auto). assert (Dp : deref st p = Ok o) by (unfold deref; rewrite O; auto). 
  assert (St : add_search st e (p :: rw) = if list_eq_dec Z.eq_dec (n_fnames n) (n_fnames o) then
     let* st1 := (if Rlt_dec (n_rgamma o) 0 then if Rlt_dec (n_value o) (n_value n) then assign st p (mkNode (n_fnames o) (n_level o) (n_value n) (n_pgamma n) (n_rgamma o)) else Ok st else Ok st) in let* st2 := release st1 e in Ok (Some st2)
     else add_search st e rw).
  { cbn [add_search]. rewrite De, Dp. cbn [obind]. rewrite node_equal_ok by auto. cbn [obind]. destruct (list_eq_dec _ _ _); auto. }
  rewrite !St. clear St.
  destruct (list_eq_dec Z.eq_dec (n_fnames n) (n_fnames o)) as [E | E].
  - right. exists p, o.
    assert (K : exists st1, (if Rlt_dec (n_rgamma o) 0 then if Rlt_dec (n_value o) (n_value n) then assign st p (mkNode (n_fnames o) (n_level o) (n_value n) (n_pgamma n) (n_rgamma o)) else Ok st else Ok st) = Ok st1 /\
       nth_error st1 p = Some (Some (raise o n)) /\ length st1 = length st /\ forall q, q <> p -> nth_error st1 q = nth_error st q).
    { unfold raise. destruct (Rlt_dec (n_rgamma o) 0); [|exists st; auto]. destruct (Rlt_dec (n_value o) (n_value n)); [|exists st; auto]. destruct (assign_ok st p (mkNode (n_fnames o) (n_level o) (n_value n) (n_pgamma n) (n_rgamma o))) as (st1 & A & B & C & D); [exists o; auto|]. exists st1. auto. }
    destruct K as (st1 & -> & K1 & K2 & K3). cbn [obind]. assert (live st1 e) as Le by (exists n; rewrite K3; auto). destruct (release_ok st1 e Le) as (st2 & E2 & F2 & O2). rewrite E2. cbn [obind]. exists st2. split; [auto|]. split; [left; auto|]. split; [auto|]. split; [auto|].
    split; [rewrite O2; auto|]. split; [auto|]. split.
    + unfold release in E2. destruct (deref st1 e); cbn [obind] in E2; try discriminate. apply vupd_Ok in E2. apply upd_length in E2. lia.
    + intros q Q1 Q2. rewrite O2, K3; auto.
  - destruct IH as [(R & D) | (q & o' & st' & R & I & W)].
    + intros q Q. apply H. right. auto.
    + left. split; [auto|]. intros q m [<- | Iq] M; [congruence | apply (D q); auto].
    + right. exists q, o', st'. split; [auto|]. split; [right; auto|]. auto.
Qed.
Record inv (len : nat) (old : list node) (st : store) (t : visited) : Prop := {
  i_len : length (t_rows t) = len;
  i_row : forall i rw p, nth_error (t_rows t) i = Some rw -> In p rw -> p < length st /\ exists m, nth_error st p = Some (Some m) /\ tidy m /\ hval len (n_fnames m) = i;
  i_cnt : t_count t = length (tabled t);
  i_nd : NoDup (tabled t);
  i_one : forall p q m k, In p (tabled t) -> In q (tabled t) -> nth_error st p = Some (Some m) -> nth_error st q = Some (Some k) -> n_fnames m = n_fnames k -> p = q;
  i_all : forall pre n post, old = pre ++ n :: post -> ~ In (n_fnames n) (map n_fnames pre) -> exists p m, In p (tabled t) /\ nth_error st p = Some (Some m) /\ kept n post m;
  i_from : forall p m, In p (tabled t) -> nth_error st p = Some (Some m) -> In (n_fnames m) (map n_fnames old) }.
Lemma tabled_row t p : In p (tabled t) <-> exists i rw, nth_error (t_rows t) i = Some rw /\ In p rw.
Proof.
  unfold tabled. rewrite in_concat. split.
  - intros (rw & I & P). apply In_nth_error in I as (i & E). eauto.
  - intros (i & rw & E & P). exists rw. split; [eapply nth_error_In; eauto | auto].
Qed.
Lemma kept_self n : kept n [] n.
Proof. unfold kept. repeat split; auto. - exists n. cbn. auto. - intros k [<- | []] _. lra. Qed.
Lemma kept_snoc_other n later m x : kept n later m -> n_fnames x <> n_fnames n -> kept n (later ++ [x]) m.
Proof.
  intros (A & B & C & D & E) N. unfold kept. repeat split; auto.
  - destruct (E H) as ((k & I & K) & _). exists k. split; [destruct I; [left; auto | right; apply in_or_app; auto] | auto].
  - intros k I F. destruct (E H) as (_ & M). apply M; auto. destruct I as [-> | I]; [left; auto|]. apply in_app_or in I as [I | [-> | []]]; [right; auto | congruence].
Qed.
Lemma kept_snoc_same n later m x : kept n later m -> n_fnames x = n_fnames n -> kept n (later ++ [x]) (raise m x).
Proof.
  intros (A & B & C & D & E) N. unfold raise. destruct (Rlt_dec (n_rgamma m) 0) as [L | G].
  - assert (n_rgamma n < 0)%R as Ln by (rewrite <- C; auto). destruct (E Ln) as ((k & I & F & V & P) & M). destruct (Rlt_dec (n_value m) (n_value x)) as [Lt | Ge]; unfold kept; cbn [n_fnames n_level n_rgamma n_value n_pgamma]; repeat split; auto; try (intro; exfalso; lra).
    + exists x. split; [right; apply in_or_app; cbn; auto | auto].
    + intros j I2 F2. destruct I2 as [<- | I2]; [assert (n_value n <= n_value m)%R by (apply M; cbn; auto); lra|]. apply in_app_or in I2 as [I2 | [-> | []]]; [assert (n_value j <= n_value m)%R by (apply M; cbn; auto); lra | lra].
    + exists k. split; [destruct I; [left; auto | right; apply in_or_app; auto] | auto].
    + intros j I2 F2. destruct I2 as [<- | I2]; [apply M; cbn; auto|]. apply in_app_or in I2 as [I2 | [-> | []]]; [apply M; cbn; auto | lra].
  - unfold kept. repeat split; auto; exfalso; lra.
Qed.
Lemma concat_snoc_at {A} (l : list (list A)) i (x : A) r : upd i (fun w => w ++ [x]) l = Some r -> Permutation (concat r) (x :: concat l).
Proof.
  revert i r. induction l as [|w l IH]; intros [|i] r U; cbn [upd] in U; try discriminate.
  - injection U as <-. cbn [concat]. rewrite <- app_assoc. cbn [app]. apply Permutation_sym, Permutation_middle.
  - destruct (upd i _ l) as [r'|] eqn:E; [|discriminate]. injection U as <-. cbn [concat]. rewrite (IH _ _ E). apply Permutation_sym, Permutation_middle.
Qed.
Lemma nth_error_snoc_lt {A} (l : list A) x p : p < length l -> nth_error (l ++ [x]) p = nth_error l p.
Proof. intro H. apply nth_error_app1. auto. Qed.

Lemma add_step len old st t n : 1 <= len -> inv len old st t -> tidy n ->
  (In (n_fnames n) (map n_fnames old) -> exists st', vis_add (st ++ [Some n]) t (length st) = Ok (false, st', t) /\ length st' = S (length st) /\ inv len (old ++ [n]) st' t /\
     nth_error st' (length st) = Some None /\ (forall q, ~ In q (tabled t) -> q < length st -> nth_error st' q = nth_error st q) /\
     (forall q m, In q (tabled t) -> nth_error st q = Some (Some m) -> exists m', nth_error st' q = Some (Some m') /\ n_fnames m' = n_fnames m)) /\
  (~ In (n_fnames n) (map n_fnames old) -> (forall i rw, nth_error (t_rows t) i = Some rw -> i = hval len (n_fnames n) -> length rw < t_width t) ->
     exists t', vis_add (st ++ [Some n]) t (length st) = Ok (true, st ++ [Some n], t') /\ t_width t' = t_width t /\ inv len (old ++ [n]) (st ++ [Some n]) t' /\ t_count t' = S (t_count t) /\ Permutation (tabled t') (length st :: tabled t) /\
       (forall i rw, nth_error (t_rows t) i = Some rw -> nth_error (t_rows t') i = Some (if Nat.eqb i (hval len (n_fnames n)) then rw ++ [length st] else rw))) /\
  (~ In (n_fnames n) (map n_fnames old) -> (exists rw, nth_error (t_rows t) (hval len (n_fnames n)) = Some rw /\ t_width t <= length rw) -> vis_add (st ++ [Some n]) t (length st) = Abort).
Proof.
  intros Hl IV Tn. pose proof IV as [Il Ir Ic Ind Io Ia If]. assert (Ne : nth_error (st ++ [Some n]) (length st) = Some (Some n)) by apply nth_error_last.
  destruct (hash_index_ok len n Tn Hl) as (Hi & Hb). unfold vis_add. assert (De : deref (st ++ [Some n]) (length st) = Ok n) by (unfold deref; rewrite Ne; auto). rewrite De. cbn [obind]. rewrite Il, Hi. cbn [obind].
  destruct (vget_lt (t_rows t) (hval len (n_fnames n)) ltac:(lia)) as (rw & Rw & ->). cbn [obind].
  assert (Rp : forall p, In p rw -> p <> length st /\ exists m, nth_error (st ++ [Some n]) p = Some (Some m) /\ tidy m).
  { intros p Ip. destruct (Ir _ _ _ Rw Ip) as (Lp & m & M & Tm & _). split; [lia|]. exists m. rewrite nth_error_snoc_lt; auto. }
  destruct (add_search_ok _ _ n Ne Tn rw Rp) as [(S1 & D) | (p & o & st' & S1 & Ip & Op & Fo & P1 & P2 & P3 & P4)].
  - assert (New : ~ In (n_fnames n) (map n_fnames old)).
    { intro I. apply in_map_iff in I as (k & Fk & Ik). assert (Ex : exists pre n0 post, old = pre ++ n0 :: post /\ n_fnames n0 = n_fnames n /\ ~ In (n_fnames n0) (map n_fnames pre)).
      { clear -Fk Ik. induction old as [|a old IH]; [destruct Ik|]. destruct (list_eq_dec Z.eq_dec (n_fnames a) (n_fnames n)) as [E | E]; [exists [], a, old; cbn; auto|]. destruct Ik as [-> | Ik]; [congruence|]. destruct (IH Ik) as (pre & n0 & post & -> & F & N). exists (a :: pre), n0, post. split; [auto|]. split; [auto|]. intros [Q | Q]; [congruence | auto]. }
      destruct Ex as (pre & n0 & post & -> & F & N). destruct (Ia pre n0 post eq_refl N) as (p & m & Ip & M & Kp). apply tabled_row in Ip as (i & rw2 & R2 & I2). destruct (Ir _ _ _ R2 I2) as (Lp & m2 & M2 & _ & Hi2).
      assert (m2 = m) as -> by congruence. destruct Kp as (Fm & _). assert (i = hval len (n_fnames n)) as -> by (rewrite <- Hi2, Fm, F; auto). assert (rw2 = rw) as -> by congruence. apply (D p m); auto; [rewrite nth_error_snoc_lt; auto | congruence]. }
    split; [intro; contradiction|]. split.
    + intros _ Wd. rewrite S1. cbn [obind]. specialize (Wd _ _ Rw eq_refl). destruct (Nat.leb (t_width t) (length rw)) eqn:B; [apply Nat.leb_le in B; lia|].
      destruct (vupd_lt (hval len (n_fnames n)) (fun w => w ++ [length st]) (t_rows t) ltac:(lia)) as (rows & U & ->). cbn [obind]. eexists. split; [reflexivity|]. split; [auto|]. cbn [t_rows t_count]. split; [|split; [auto | split; [apply (concat_snoc_at _ _ _ _ U) |]]].
      2: { intros i rw2 R2. destruct (Nat.eqb i (hval len (n_fnames n))) eqn:Ei; [apply Nat.eqb_eq in Ei; subst i; rewrite (upd_nth_same _ _ _ _ U), R2; auto | apply Nat.eqb_neq in Ei; rewrite (upd_nth_other _ i _ _ _ U); auto]. }
      assert (Pc : Permutation (concat rows) (length st :: tabled t)) by (apply (concat_snoc_at _ _ _ _ U)).
      assert (Old : forall p, In p (tabled t) -> p < length st /\ exists m, nth_error st p = Some (Some m) /\ In (n_fnames m) (map n_fnames old)). { intros p Ip. pose proof Ip as Ip'. apply tabled_row in Ip as (i & rw2 & R2 & I2). destruct (Ir _ _ _ R2 I2) as (Lp & m & M & _). split; [auto|]. exists m. split; [auto|]. apply (If p m); auto. }
      split; cbn [t_rows t_count].
      * rewrite (upd_length _ _ _ _ U). auto.
      * intros i rw2 p R2 I2. destruct (Nat.eq_dec i (hval len (n_fnames n))) as [-> | Ni].
        -- rewrite (upd_nth_same _ _ _ _ U), Rw in R2. cbn in R2. injection R2 as <-. rewrite app_length. cbn [length]. apply in_app_or in I2 as [I2 | [<- | []]].
           ++ destruct (Ir _ _ _ Rw I2) as (Lp & m & M & H). split; [lia|]. exists m. rewrite nth_error_snoc_lt; auto.
           ++ split; [lia|]. exists n. auto.
        -- rewrite (upd_nth_other _ i _ _ _ U) in R2 by auto. destruct (Ir _ _ _ R2 I2) as (Lp & m & M & H). rewrite app_length. split; [lia|]. exists m. rewrite nth_error_snoc_lt; auto.
      * unfold tabled. cbn [t_rows]. rewrite (Permutation_length Pc). cbn [length]. auto.
      * unfold tabled. cbn [t_rows]. apply (Permutation_NoDup (Permutation_sym Pc)). constructor; [|auto]. intro I. destruct (Old _ I). lia.
      * intros p q m k Hp Hq Mp Mq F. unfold tabled in Hp, Hq. cbn [t_rows] in Hp, Hq. apply (Permutation_in _ Pc) in Hp, Hq.
        destruct Hp as [<- | Hp], Hq as [<- | Hq]; [auto | | |].
        -- exfalso. rewrite Ne in Mp. injection Mp as <-. destruct (Old _ Hq) as (Lq & k' & Mk & I). rewrite nth_error_snoc_lt in Mq by auto. apply New. rewrite F. congruence.
        -- exfalso. rewrite Ne in Mq. injection Mq as <-. destruct (Old _ Hp) as (Lq & k' & Mk & I). rewrite nth_error_snoc_lt in Mp by auto. apply New. rewrite <- F. congruence.
        -- destruct (Old _ Hp) as (L1 & _), (Old _ Hq) as (L2 & _). rewrite nth_error_snoc_lt in Mp, Mq by auto. apply (Io p q m k); auto.
      * intros pre n0 post E Nf. unfold tabled. cbn [t_rows]. destruct (list_eq_dec Z.eq_dec (n_fnames n0) (n_fnames n)) as [F | F].
        -- assert (post = []) as ->.
           { destruct (rev post) as [|z rp] eqn:Er; [apply (f_equal (@rev _)) in Er; rewrite rev_involutive in Er; auto|]. exfalso. apply (f_equal (@rev _)) in Er. rewrite rev_involutive in Er. cbn in Er. rewrite Er in E. rewrite app_comm_cons, app_assoc in E. apply app_inj_tail in E as (E & _). apply New. rewrite <- F, E. apply in_map, in_or_app. right. left. auto. }
           apply app_inj_tail in E as (-> & ->). exists (length st), n0. split; [apply (Permutation_in _ (Permutation_sym Pc)); left; auto|]. split; [auto|]. apply kept_self.
        -- assert (exists post', post = post' ++ [n] /\ old = pre ++ n0 :: post') as (post' & -> & Eo).
           { destruct (rev post) as [|z rp] eqn:Er; apply (f_equal (@rev _)) in Er; rewrite rev_involutive in Er; cbn in Er; subst post; [apply app_inj_tail in E as (_ & ->); congruence|]. rewrite app_comm_cons, app_assoc in E. apply app_inj_tail in E as (-> & ->). exists (rev rp). auto. }
           destruct (Ia pre n0 post' Eo Nf) as (p & m & Ip & M & Kp). exists p, m. split; [apply (Permutation_in _ (Permutation_sym Pc)); right; auto|]. split; [rewrite nth_error_snoc_lt; auto; apply Old; auto|]. apply kept_snoc_other; auto.
      * intros p m Ip M. unfold tabled in Ip. cbn [t_rows] in Ip. apply (Permutation_in _ Pc) in Ip. rewrite map_app, in_app_iff. destruct Ip as [<- | Ip]; [right; left; congruence|]. left. destruct (Old _ Ip) as (Lp & m' & M' & I). rewrite nth_error_snoc_lt in M by auto. congruence.
    + intros _ (rw2 & R2 & Wd). rewrite S1. cbn [obind]. assert (rw2 = rw) as -> by congruence. destruct (Nat.leb (t_width t) (length rw)) eqn:B; [auto|]. apply Nat.leb_gt in B. lia.
  - assert (Lp : p < length st) by (destruct (Ir _ _ _ Rw Ip); auto). assert (Op' : nth_error st p = Some (Some o)) by (rewrite nth_error_snoc_lt in Op; auto).
    assert (Tp : In p (tabled t)) by (apply tabled_row; eauto). pose proof (If p o Tp Op') as Iold. rewrite Fo in Iold. split; [|split; intro; contradiction].
    intros _. rewrite S1. cbn [obind]. exists st'. split; [auto|]. split; [rewrite P3, app_length; cbn; lia|]. split; [|split; [auto | split; [intros q Nq Lq; rewrite P4; [apply nth_error_snoc_lt; auto | intros ->; contradiction | lia] |]]].
    2: { intros q m Iq M. assert (q < length st) as Lq by (apply tabled_row in Iq as (i & rw2 & R2 & I2); destruct (Ir _ _ _ R2 I2); auto). destruct (Nat.eq_dec q p) as [-> | Nq].
         - exists (raise o n). split; [auto|]. assert (m = o) as -> by congruence. unfold raise. destruct (Rlt_dec _ _); [destruct (Rlt_dec _ _)|]; auto.
         - exists m. rewrite P4 by lia. rewrite nth_error_snoc_lt; auto. }
    assert (Same : forall q, q < length st -> q <> p -> nth_error st' q = nth_error st q) by (intros q Lq Nq; rewrite P4 by lia; apply nth_error_snoc_lt; auto).
    assert (Fr : n_fnames (raise o n) = n_fnames o) by (unfold raise; destruct (Rlt_dec _ _); [destruct (Rlt_dec _ _)|]; auto). assert (Lr : n_level (raise o n) = n_level o) by (unfold raise; destruct (Rlt_dec _ _); [destruct (Rlt_dec _ _)|]; auto).
    assert (Tr : forall q, In q (tabled t) -> q < length st) by (intros q Iq; apply tabled_row in Iq as (i & rw2 & R2 & I2); destruct (Ir _ _ _ R2 I2); auto).
    assert (Old : forall q m, In q (tabled t) -> nth_error st' q = Some (Some m) -> exists m', nth_error st q = Some (Some m') /\ n_fnames m' = n_fnames m).
    { intros q m Iq M. destruct (Nat.eq_dec q p) as [-> | Nq]; [exists o; split; [auto | congruence]|]. exists m. rewrite Same in M by auto. auto. }
    split; auto.
    + intros i rw2 q R2 I2. destruct (Ir _ _ _ R2 I2) as (Lq & m & M & Tm & Hm). rewrite P3, app_length. split; [lia|]. destruct (Nat.eq_dec q p) as [-> | Nq].
      * exists (raise o n). assert (m = o) as -> by congruence. split; [auto|]. unfold tidy. rewrite Fr, Lr. auto.
      * exists m. rewrite Same; auto.
    + intros q1 q2 m k H1 H2 M1 M2 F. destruct (Old _ _ H1 M1) as (m' & A1 & B1), (Old _ _ H2 M2) as (k' & A2 & B2). apply (Io q1 q2 m' k'); auto. congruence.
    + intros pre n0 post E Nf. destruct (rev post) as [|z rp] eqn:Er; apply (f_equal (@rev _)) in Er; rewrite rev_involutive in Er; cbn in Er; subst post.
      * exfalso. apply app_inj_tail in E as (-> & ->). apply Nf. rewrite <- Fo. auto. rewrite Fo. auto.
      * rewrite app_comm_cons, app_assoc in E. apply app_inj_tail in E as (-> & ->). destruct (Ia pre n0 (rev rp) eq_refl Nf) as (q & m & Iq & M & Kp). exists q. destruct (Nat.eq_dec q p) as [-> | Nq].
        -- exists (raise o z). split; [auto|]. split; [auto|]. assert (m = o) as -> by congruence. apply kept_snoc_same; auto. destruct Kp as (Fk & _). congruence.
        -- exists m. split; [auto|]. split; [rewrite Same; auto|]. apply kept_snoc_other; auto. intro F. apply Nq. apply (Io q p m o); auto. destruct Kp as (Fk & _). congruence.
    + intros q m Iq M. destruct (Old _ _ Iq M) as (m' & A1 & B1). rewrite map_app, in_app_iff. left. rewrite <- B1. apply (If q m'); auto.
Qed.

Lemma firsts_cons seen ns n : firsts seen (ns ++ [n]) = firsts seen ns ++ [negb (if in_dec (list_eq_dec Z.eq_dec) (n_fnames n) (rev (map n_fnames ns) ++ seen) then true else false)].
Proof.
  revert seen. induction ns as [|a ns IH]; intro seen; [auto|]. cbn [firsts app map rev]. rewrite IH, <- app_assoc. auto.
Qed.
Lemma firsts_length seen ns : length (firsts seen ns) = length ns.
Proof. revert seen. induction ns; intro seen; cbn [firsts length]; auto. Qed.
Definition full_inv (len base : nat) (st0 : store) (old : list node) (st : store) (t : visited) : Prop :=
  inv len old st t /\ length st = base + length old /\ (forall p, In p (tabled t) -> base <= p) /\ (forall p, p < base -> nth_error st p = nth_error st0 p) /\
  (forall k b n, nth_error (firsts [] old) k = Some b -> nth_error old k = Some n -> if b then In (base + k) (tabled t) /\ exists m, nth_error st (base + k) = Some (Some m) /\ n_fnames m = n_fnames n
     else nth_error st (base + k) = Some None /\ ~ In (base + k) (tabled t)) /\
  t_count t = length (filter (fun b => b) (firsts [] old)).
Lemma full_step len base st0 old st t n : 1 <= len -> full_inv len base st0 old st t -> tidy n ->
  (forall i rw, nth_error (t_rows t) i = Some rw -> ~ In (n_fnames n) (map n_fnames old) -> i = hval len (n_fnames n) -> length rw < t_width t) ->
  exists st' t', vis_add (st ++ [Some n]) t (length st) = Ok (negb (if in_dec (list_eq_dec Z.eq_dec) (n_fnames n) (map n_fnames old) then true else false), st', t') /\ t_width t' = t_width t /\ full_inv len base st0 (old ++ [n]) st' t' /\
    (In (n_fnames n) (map n_fnames old) -> t' = t).
Proof.
  intros Hl (IV & Ls & Bt & Bs & Ps & Ct) Tn Wd. destruct (add_step len old st t n Hl IV Tn) as (Dup & New & _). pose proof IV as [Il Ir Ic Ind Io Ia If].
  assert (Iff : In (n_fnames n) (rev (map n_fnames old) ++ []) <-> In (n_fnames n) (map n_fnames old)) by (rewrite app_nil_r; symmetry; apply in_rev).
  assert (Lt : forall p, In p (tabled t) -> p < length st) by (intros q Iq; apply tabled_row in Iq as (i & rw2 & R2 & I2); destruct (Ir _ _ _ R2 I2); auto).
  destruct (in_dec (list_eq_dec Z.eq_dec) (n_fnames n) (map n_fnames old)) as [I | N].
  - destruct (Dup I) as (st' & R & L' & IV' & De & Un & Kf). exists st', t. split; [auto|]. split; [auto|]. split; [|auto]. split; [auto|]. rewrite firsts_cons. rewrite app_length. cbn [length]. split; [lia|]. split; [auto|].
    destruct (in_dec (list_eq_dec Z.eq_dec) (n_fnames n) (rev (map n_fnames old) ++ [])) as [_ | K]; [|exfalso; apply K, Iff; auto]. cbn [negb]. split; [|split].
    + intros p Hp. rewrite Un; [auto | intro Ip; apply Bt in Ip; lia | lia].
    + intros k b nk K Kn. destruct (Nat.eq_dec k (length old)) as [-> | Nk].
      * rewrite <- (firsts_length [] old), nth_error_last in K. injection K as <-. rewrite <- Ls. split; [auto|]. intro Q. apply Lt in Q. lia.
      * assert (k < length old) as Lk. { assert (nth_error (firsts [] old ++ [false]) k <> None) as Q by congruence. apply nth_error_Some in Q. rewrite app_length, firsts_length in Q. cbn in Q. lia. }
        rewrite nth_error_app1 in K by (rewrite firsts_length; auto). rewrite nth_error_app1 in Kn by auto. specialize (Ps k b nk K Kn). destruct b; [destruct Ps as (P1 & m & M & Fm); split; [auto|]; destruct (Kf _ _ P1 M) as (m' & M' & Fm'); exists m'; split; congruence|]. destruct Ps as (P1 & P2). split; [|auto]. rewrite Un; auto. lia.
    + rewrite filter_app, app_length. cbn [filter length]. lia.
  - destruct (New N) as (t' & R & W' & IV' & Cn & Pt & _). { intros i rw Ri Ei. apply (Wd i rw); auto. } exists (st ++ [Some n]), t'. split; [auto|]. split; [auto|]. split; [|intro; contradiction]. split; [auto|]. rewrite firsts_cons. rewrite !app_length. cbn [length]. split; [lia|].
    destruct (in_dec (list_eq_dec Z.eq_dec) (n_fnames n) (rev (map n_fnames old) ++ [])) as [K | _]; [exfalso; apply N, Iff; auto|]. cbn [negb]. split; [|split; [|split]].
    + intros p Ip. apply (Permutation_in _ Pt) in Ip as [<- | Ip]; [lia | auto].
    + intros p Hp. rewrite nth_error_snoc_lt by lia. auto.
    + intros k b nk K Kn. destruct (Nat.eq_dec k (length old)) as [-> | Nk].
      * rewrite <- (firsts_length [] old), nth_error_last in K. injection K as <-. rewrite nth_error_last in Kn. injection Kn as <-. rewrite <- Ls. split; [apply (Permutation_in _ (Permutation_sym Pt)); left; auto|]. exists n. rewrite nth_error_last. auto.
      * assert (k < length old) as Lk. { assert (nth_error (firsts [] old ++ [true]) k <> None) as Q by congruence. apply nth_error_Some in Q. rewrite app_length, firsts_length in Q. cbn in Q. lia. }
        rewrite nth_error_app1 in K by (rewrite firsts_length; auto). rewrite nth_error_app1 in Kn by auto. specialize (Ps k b nk K Kn). destruct b; [destruct Ps as (P1 & m & M & Fm); split; [apply (Permutation_in _ (Permutation_sym Pt)); right; auto | exists m; rewrite nth_error_snoc_lt; auto; lia]|]. destruct Ps as (P1 & P2). split; [rewrite nth_error_snoc_lt; auto; lia|]. intro Q. apply (Permutation_in _ Pt) in Q as [Q | Q]; [lia | auto].
    + rewrite filter_app, app_length. cbn [filter length]. lia.
Qed.
Lemma row_le t i rw : nth_error (t_rows t) i = Some rw -> length rw <= length (tabled t).
Proof. intro H. apply nth_error_split in H as (a & b & E & _). unfold tabled. rewrite E, concat_app. cbn [concat]. rewrite !app_length. lia. Qed.
Lemma count_nodup : forall ns seen, length (filter (fun b => b) (firsts seen ns)) <= length (nodup (list_eq_dec Z.eq_dec) (map n_fnames ns)) /\
  (forall n, In n ns -> ~ In (n_fnames n) seen -> 1 <= length (filter (fun b => b) (firsts seen ns))).
Proof.
  assert (K : forall ns seen, exists fs, incl fs (map n_fnames ns) /\ NoDup fs /\ (forall f, In f fs -> ~ In f seen) /\ length fs = length (filter (fun b => b) (firsts seen ns)) /\ forall n, In n ns -> ~ In (n_fnames n) seen -> In (n_fnames n) fs).
  { induction ns as [|n ns IH]; intro seen; [exists []; cbn; repeat split; auto; [intros x [] | constructor]|]. cbn [firsts map]. destruct (IH (n_fnames n :: seen)) as (fs & A & B & C & D & E). destruct (in_dec (list_eq_dec Z.eq_dec) (n_fnames n) seen) as [I | N]; cbn [negb filter length].
    - exists fs. repeat split; auto; [intros f F; right; auto | intros f F S1; apply (C f F); right; auto |]. intros m [<- | M] Nm; [contradiction|]. apply E; auto. intros [Q | Q]; [rewrite <- Q in Nm; contradiction | auto].
    - exists (n_fnames n :: fs). repeat split; cbn [length]; auto.
      + intros f [<- | F]; [left; auto | right; auto].
      + constructor; [intro Q; apply (C _ Q); left; auto | auto].
      + intros f [<- | F]; [auto | intro S1; apply (C f F); right; auto].
      + intros m [<- | M] Nm; [left; auto|]. destruct (list_eq_dec Z.eq_dec (n_fnames m) (n_fnames n)) as [Q | Q]; [left; auto|]. right. apply E; auto. intros [W | W]; auto. }
  intros ns seen. destruct (K ns seen) as (fs & A & B & C & D & E). rewrite <- D. split.
  - apply NoDup_incl_length; auto. intros f F. apply nodup_In, A. auto.
  - intros n I N. specialize (E n I N). destruct fs; [destruct E | cbn; lia].
Qed.
Lemma additions_ok len base st0 all : 1 <= len -> forall ns old st t, all = old ++ ns -> (forall n, In n all -> tidy n) -> full_inv len base st0 old st t -> length (nodup (list_eq_dec Z.eq_dec) (map n_fnames all)) <= t_width t ->
  exists st' t', additions st t ns = Ok (firsts (rev (map n_fnames old)) ns, st', t') /\ full_inv len base st0 all st' t'.
Proof.
  intro Hl. induction ns as [|n ns IH]; intros old st t E Td FI W; [exists st, t; rewrite app_nil_r in E; subst; auto|].
  pose proof FI as (IV & Ls & Bt & Bs & Ps & Ct).
  destruct (full_step len base st0 old st t n Hl FI) as (st1 & t1 & R & W1 & FI1 & _).
  - apply Td. rewrite E. apply in_or_app. right. left. auto.
  - intros i rw Ri N _. apply row_le in Ri. destruct IV as [_ _ Ic _ _ _ _]. rewrite <- Ic, Ct in Ri.
    assert (length (filter (fun b => b) (firsts [] (old ++ [n]))) <= length (nodup (list_eq_dec Z.eq_dec) (map n_fnames (old ++ [n])))) as Q by apply count_nodup.
    rewrite firsts_cons, filter_app, app_length in Q. destruct (in_dec (list_eq_dec Z.eq_dec) (n_fnames n) (rev (map n_fnames old) ++ [])) as [K | _]; [exfalso; apply N; rewrite app_nil_r in K; apply in_rev; auto|]. cbn [negb filter length] in Q.
    assert (length (nodup (list_eq_dec Z.eq_dec) (map n_fnames (old ++ [n]))) <= length (nodup (list_eq_dec Z.eq_dec) (map n_fnames all))). { apply NoDup_incl_length; [apply NoDup_nodup|]. intros f F. apply nodup_In in F. apply nodup_In. rewrite E. rewrite map_app in *. apply in_app_or in F as [F | [<- | []]]; apply in_or_app; [left; auto | right; left; auto]. } lia.
  - cbn [additions]. rewrite R. cbn [obind]. destruct (IH (old ++ [n]) st1 t1) as (st' & t' & R' & FI'); auto; [rewrite <- app_assoc; auto | lia |]. rewrite R'. cbn [obind]. exists st', t'. split; [|auto]. f_equal. f_equal. f_equal. cbn [firsts]. f_equal.
    + f_equal. destruct (in_dec (list_eq_dec Z.eq_dec) (n_fnames n) (map n_fnames old)) as [I | N], (in_dec (list_eq_dec Z.eq_dec) (n_fnames n) (rev (map n_fnames old))) as [I2 | N2]; auto; exfalso; [apply N2 | apply N]; apply in_rev; [rewrite rev_involutive|]; auto.
    + rewrite map_app, rev_app_distr. auto.
Qed.
Lemma full_new len width st : 1 <= len -> full_inv len (length st) st [] st (vis_new len width).
Proof.
  intro Hl. assert (Em : tabled (vis_new len width) = []) by (unfold tabled, vis_new; cbn [t_rows]; induction len; cbn; auto; destruct len; auto; apply IHlen; lia). split; [split|].
  - cbn. apply repeat_length.
  - intros i rw p R I. exfalso. assert (In p (tabled (vis_new len width))) by (apply tabled_row; eauto). rewrite Em in *. auto.
  - rewrite Em. auto.
  - rewrite Em. constructor.
  - intros p q m k H. rewrite Em in H. destruct H.
  - intros pre n post E. destruct pre; discriminate.
  - intros p m H. rewrite Em in H. destruct H.
  - split; [cbn; lia|]. split; [intros p H; rewrite Em in H; destruct H|]. split; [auto|]. split; [|auto]. intros k b nk K. destruct k; discriminate.
Qed.
Lemma c111_table : forall (len width : nat) (st : store) (ns : list node), 1 <= len -> (forall n, In n ns -> tidy n) -> length (nodup (list_eq_dec Z.eq_dec) (map n_fnames ns)) <= width ->
  exists st' t', additions st (vis_new len width) ns = Ok (firsts [] ns, st', t') /\
    (forall pre n post, ns = pre ++ n :: post -> ~ In (n_fnames n) (map n_fnames pre) -> exists m, In (length st + length pre) (tabled t') /\ nth_error st' (length st + length pre) = Some (Some m) /\ kept n post m) /\
    (forall pre n post, ns = pre ++ n :: post -> In (n_fnames n) (map n_fnames pre) -> nth_error st' (length st + length pre) = Some None /\ ~ In (length st + length pre) (tabled t')) /\
    (forall p, In p (tabled t') -> length st <= p < length st + length ns) /\ NoDup (tabled t') /\ t_count t' = length (tabled t') /\ (forall p, p < length st -> nth_error st' p = nth_error st p).
Proof.
  intros len width st ns Hl Td W. destruct (additions_ok len (length st) st ns Hl ns [] st (vis_new len width)) as (st' & t' & R & IV & Ls & Bt & Bs & Ps & Ct); auto; [apply full_new; auto|].
  exists st', t'. split; [auto|]. pose proof IV as [Il Ir Ic Ind Io Ia If].
  assert (Fk : forall pre n post, ns = pre ++ n :: post -> nth_error (firsts [] ns) (length pre) = Some (negb (if in_dec (list_eq_dec Z.eq_dec) (n_fnames n) (map n_fnames pre) then true else false))).
  { intros pre n post ->. change (n :: post) with ([n] ++ post). rewrite app_assoc. assert (Fa : forall a b seen, exists c, firsts seen (a ++ b) = firsts seen a ++ c) by (induction a as [|x a IH]; intros b seen; cbn [app firsts]; [eauto | destruct (IH b (n_fnames x :: seen)) as (c & ->); eauto]).
    destruct (Fa (pre ++ [n]) post []) as (c & ->). rewrite nth_error_app1 by (rewrite firsts_length, app_length; cbn; lia). rewrite firsts_cons. rewrite <- (firsts_length [] pre) at 1. rewrite nth_error_last. f_equal. f_equal. rewrite app_nil_r.
    destruct (in_dec (list_eq_dec Z.eq_dec) (n_fnames n) (map n_fnames pre)) as [I | N], (in_dec (list_eq_dec Z.eq_dec) (n_fnames n) (rev (map n_fnames pre))) as [I2 | N2]; auto; exfalso; [apply N2 | apply N]; apply in_rev; [rewrite rev_involutive|]; auto. }
  split; [|split; [|split; [|split; [auto | split; [auto | auto]]]]].
  - intros pre n post E N. pose proof (Fk pre n post E) as K. destruct (in_dec (list_eq_dec Z.eq_dec) (n_fnames n) (map n_fnames pre)) as [I | _]; [contradiction|]. apply (Ps _ _ n) in K; [|rewrite E; rewrite nth_error_app2, Nat.sub_diag by lia; auto]. cbn [negb] in K. destruct K as (K & k & Mk & Fn).
    destruct (Ia pre n post E N) as (p & m & Ip & M & Kp).
    assert (length st + length pre = p) as <-. { apply (Io (length st + length pre) p k m); auto. destruct Kp as (Q & _). congruence. }
    exists m. auto.
  - intros pre n post E I. pose proof (Fk pre n post E) as K. destruct (in_dec (list_eq_dec Z.eq_dec) (n_fnames n) (map n_fnames pre)) as [_ | N]; [|contradiction]. apply (Ps _ _ n) in K; [|rewrite E; rewrite nth_error_app2, Nat.sub_diag by lia; auto]. auto.
  - intros p Ip. split; [apply Bt; auto|]. apply tabled_row in Ip as (i & rw & Ri & Ii). destruct (Ir _ _ _ Ri Ii) as (Lp & _). lia.
Qed.

Lemma fold_squares f : forall s, fold_left (fun s x => (s + x * x)%Z) f s = (s + squares f)%Z.
Proof. induction f as [|x f IH]; intro s; cbn [fold_left squares fold_right]; [lia|]. rewrite IH. unfold squares. lia. Qed.
Lemma hval_row len f f' : same_row len f f' -> hval len f = hval len f'.
Proof. unfold same_row, hval. rewrite !fold_squares. cbn. intros ->. auto. Qed.
Lemma fill_row len i width : 1 <= len -> forall ns old st t rw, inv len old st t -> t_width t = width -> nth_error (t_rows t) i = Some rw -> length rw = length old -> length old + length ns = S width ->
  (forall n, In n ns -> tidy n /\ hval len (n_fnames n) = i) -> NoDup (map n_fnames (old ++ ns)) -> additions st t ns = Abort \/ ns = [].
Proof.
  intro Hl. induction ns as [|n ns IH]; intros old st t rw IV W Rw Lr Ln Tn ND; [auto|]. left. destruct (Tn n (or_introl eq_refl)) as (Td & Hn). destruct (add_step len old st t n Hl IV Td) as (_ & New & Ab).
  assert (N : ~ In (n_fnames n) (map n_fnames old)). { rewrite map_app in ND. cbn [map] in ND. apply NoDup_remove_2 in ND. intro I. apply ND, in_or_app. auto. }
  cbn [additions]. destruct (Nat.le_gt_cases width (length rw)) as [Le | Gt].
  - rewrite Ab; auto. exists rw. rewrite Hn. split; [auto | lia].
  - destruct (New N) as (t' & R & W' & IV' & _ & _ & Rows). { intros k rw2 R2 ->. rewrite Hn, Rw in R2. injection R2 as <-. lia. }
    rewrite R. cbn [obind]. specialize (Rows i rw Rw). rewrite Hn, Nat.eqb_refl in Rows.
    destruct (IH (old ++ [n]) (st ++ [Some n]) t' (rw ++ [length st])) as [Q | Q]; auto; try congruence.
    + rewrite !app_length. cbn. lia.
    + rewrite app_length. cbn in *. lia.
    + intros m M. apply Tn. right. auto.
    + rewrite <- app_assoc. auto.
    + rewrite Q. auto.
    + subst ns. cbn [length] in Ln. lia.
Qed.
Lemma c111_full_refuted : forall (len width : nat) (st : store) (ns : list node), 1 <= len -> (forall n, In n ns -> tidy n) -> NoDup (map n_fnames ns) -> (forall n m, In n ns -> In m ns -> same_row len (n_fnames n) (n_fnames m)) ->
  length ns = S width -> additions st (vis_new len width) ns = Abort.
Proof.
  intros len width st ns Hl Td ND Sr Ln. destruct ns as [|n0 ns]; [discriminate|]. destruct (full_new len width st Hl) as (IV & _). destruct (hash_index_ok len n0) as (_ & Hb); auto; [apply Td; left; auto|].
  destruct (fill_row len (hval len (n_fnames n0)) width Hl (n0 :: ns) [] st (vis_new len width) []) as [R | R]; auto; [|intros n I; split; [auto | apply hval_row, Sr; auto; left; auto] | discriminate].
  cbn [vis_new t_rows]. rewrite (nth_error_nth' (repeat [] len) []) by (rewrite repeat_length; auto). f_equal. apply nth_repeat.
Qed.
Lemma c111_equal : forall a b : node, tidy a -> tidy b -> exists e, node_equal a b = Ok e /\ (e = true <-> n_fnames a = n_fnames b).
Proof. intros a b Ta Tb. eexists. split; [apply node_equal_ok; auto|]. destruct (list_eq_dec Z.eq_dec _ _); split; auto; discriminate. Qed.
Lemma c111_weight_refuted : forall w : R, weight_equal w w = false.
Proof. intro w. unfold weight_equal. destruct (Rlt_dec (Rabs w) (Rabs w)); auto. Qed.
Definition tn (fs : list Z) (v : R) : node := mkNode fs (length fs) v v (-1).
Lemma c111_table_ex : 1 <= 161 /\ (forall n, In n [tn [7] 3; tn [6; 3; 2] 2; tn [7] 4; tn [5] 1; tn [4; 3] 2] -> tidy n)%Z /\ length (nodup (list_eq_dec Z.eq_dec) (map n_fnames [tn [7] 3; tn [6; 3; 2] 2; tn [7] 4; tn [5] 1; tn [4; 3] 2]%Z)) <= 100.
Proof. split; [lia|]. split; [|cbn; lia]. intros n H. cbn [In] in H. repeat destruct H as [<- | H]; try reflexivity. destruct H. Qed.
Lemma c111_full_refuted_ex : 1 <= 161 /\ (forall n, In n [tn [7] 3; tn [6; 3; 2] 2] -> tidy n)%Z /\ NoDup (map n_fnames [tn [7] 3; tn [6; 3; 2] 2]%Z) /\
  (forall n m, In n [tn [7] 3; tn [6; 3; 2] 2] -> In m [tn [7] 3; tn [6; 3; 2] 2] -> same_row 161 (n_fnames n) (n_fnames m))%Z /\ length [tn [7] 3; tn [6; 3; 2] 2]%Z = 2.
Proof.
  split; [lia|]. split; [intros n H; cbn [In] in H; repeat destruct H as [<- | H]; try reflexivity; destruct H|]. split; [|split; [|auto]].
  - cbn. constructor; [intros [E | []]; discriminate | constructor; [intros [] | constructor]].
  - intros n m [<- | [<- | []]] [<- | [<- | []]]; reflexivity.
Qed.
Lemma c111_equal_ex : tidy (tn [7]%Z 3) /\ tidy (tn [6; 3; 2]%Z 2).
Proof. split; reflexivity. Qed.
