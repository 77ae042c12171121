(** The priority queue of AOS together with the table of visited nodes. *)
From Coq Require Import ZArith Bool List Reals Permutation Lia Lra.
From Verif Require Import Base ListLib Loop M_Pq S_Pq L_Pq T_Pq T_Prune T_Vis.
Import ListNotations.
Local Open Scope nat_scope.

Lemma c113_merge_refuted : forall (len width cap : nat) (a b c : node), 1 <= len -> 2 <= width -> 2 <= cap -> tidy a -> tidy b -> tidy c -> n_fnames a <> n_fnames b -> n_fnames c = n_fnames b ->
  (n_rgamma b < 0)%R -> (n_value b <= n_value a < n_value c)%R ->
  exists st t h st' h', additions [] (vis_new len width) [a; b] = Ok ([true; true], st, t) /\ calls cap st (pq_new cap) [Insert 0 true; Insert 1 true] = Ok ([Inserted true; Inserted true], h) /\
    vis_add (st ++ [Some c]) t 2 = Ok (false, st', t) /\ holds h [0; 1] /\ worth st' 0 (n_value a) /\ worth st' 1 (n_value c) /\ pq_pop st' h = Ok (Some 0, h').
Proof.
  intros len width cap a b c Hl Hw Hc Ta Tb Tc Nab Ecb Rb (V1 & V2).
  destruct (additions_ok len 0 [] [a; b] Hl [a; b] [] [] (vis_new len width)) as (st & t & R & FI); auto.
  { intros n [<- | [<- | []]]; auto. } { apply (full_new len width []); auto. }
  { cbn [t_width vis_new]. transitivity 2; [|lia]. transitivity (length (map n_fnames [a; b])); [apply NoDup_incl_length; [apply NoDup_nodup | intros f F; apply nodup_In in F; auto] | cbn; lia]. }
  assert (Fs : firsts [] [a; b] = [true; true]) by (cbn [firsts]; destruct (in_dec _ _ []) as [[]|]; cbn [negb]; destruct (in_dec _ _ [n_fnames a]) as [[E | []]|]; [congruence | auto]).
  cbn [rev map app] in R. rewrite Fs in R.
  assert (St : st = [Some a; Some b]).
  { clear -R Hl Ta Tb Nab Hw. cbn [additions app length] in R. destruct (add_step len [] [] (vis_new len width) a Hl (proj1 (full_new len width [] Hl)) Ta) as (_ & New & _).
    destruct New as (t1 & R1 & W1 & IV1 & _ & _ & Rows); [intros [] | intros i rw Ri _; cbn [vis_new t_rows] in Ri; apply nth_error_In, repeat_spec in Ri; subst; cbn; lia |].
    cbn [app length] in R1. rewrite R1 in R. cbn [obind length app] in R. destruct (add_step len [a] [Some a] t1 b Hl IV1 Tb) as (_ & New & _).
    destruct New as (t2 & R2 & _); [intros [E | []]; congruence | |].
    - intros i rw Ri _. assert (i < len) as Hi by (rewrite <- (i_len _ _ _ _ IV1); apply nth_error_Some; congruence). assert (nth_error (repeat (@nil nat) len) i = Some []) as Rn by (rewrite (nth_error_nth' _ []) by (rewrite repeat_length; auto); f_equal; apply nth_repeat).
      specialize (Rows i [] Rn). rewrite Ri in Rows. injection Rows as ->. rewrite W1. cbn [vis_new t_width]. destruct (Nat.eqb _ _); cbn; lia.
    - cbn [app length] in R2. rewrite R2 in R. cbn [obind] in R. injection R as <- <-. auto. }
  subst st. exists [Some a; Some b], t.
  destruct FI as (IV & _). pose proof IV as [Il Ir Ic Ind Io Ia If].
  destruct (add_step len [a; b] [Some a; Some b] t c Hl IV Tc) as (Dup & _ & _). destruct Dup as (st' & Ra & Lst & IV' & De & Un & Kf). { cbn. rewrite Ecb. auto. }
  (* the node kept *)
  assert (Ka : nth_error st' 0 = Some (Some a) /\ exists m, nth_error st' 1 = Some (Some m) /\ n_value m = n_value c).
  { clear -Ra IV IV' Ecb Nab V1 V2 Rb Il Ir Io Ia If Tc Ta Tb Hl. unfold vis_add in Ra. cbn [app length] in Ra. unfold deref at 1 in Ra. cbn [nth_error obind] in Ra. destruct (hash_index_ok len c Tc Hl) as (Hi & Hb). rewrite Il, Hi in Ra. cbn [obind] in Ra.
    destruct (vget_lt (t_rows t) (hval len (n_fnames c)) ltac:(lia)) as (rw & Rw & Vg). rewrite Vg in Ra. cbn [obind] in Ra.
    assert (Rp : forall p, In p rw -> p <> 2 /\ exists m, nth_error [Some a; Some b; Some c] p = Some (Some m) /\ tidy m).
    { intros p Ip. destruct (Ir _ _ _ Rw Ip) as (Lp & m & M & Tm & _). cbn in Lp. split; [lia|]. exists m. split; [|auto]. destruct p as [|[|p]]; auto; lia. }
    destruct (add_search_ok [Some a; Some b; Some c] 2 c eq_refl Tc rw Rp) as [(S1 & D) | (p & o & s2 & S1 & Ip & Op & Fo & P1 & P2 & P3 & P4)].
    - rewrite S1 in Ra. cbn [obind] in Ra. destruct (Nat.leb _ _); [discriminate|]. destruct (vupd _ _ _); discriminate.
    - rewrite S1 in Ra. cbn [obind] in Ra. injection Ra as <-. destruct (Rp p Ip) as (Np & _). assert (p = 1) as ->. { destruct p as [|[|p]]; auto. - cbn in Op. injection Op as <-. congruence. - exfalso. destruct p; [lia|]. destruct p; discriminate. }
      cbn in Op. injection Op as <-. split; [rewrite P4 by lia; auto|]. exists (raise b c). split; [auto|]. unfold raise. destruct (Rlt_dec (n_rgamma b) 0); [|lra]. destruct (Rlt_dec (n_value b) (n_value c)); [auto | lra]. }
  destruct Ka as (K0 & m & K1 & Vm).
  set (el := fun (x y : option nat) => None :: x :: y :: repeat (@None nat) (cap - 2)).
  assert (Hcap : repeat (@None nat) (cap + 1) = el None None). { unfold el. replace (cap + 1) with (S (S (S (cap - 2)))) by lia. auto. }
  exists (mkPq (el (Some 0) (Some 1)) 2 2 0 2 0), st'. eexists. split; [exact R|]. split; [|split; [exact Ra|]].
  - unfold pq_new. rewrite Hcap. unfold el. cbn [calls]. unfold pq_insert at 1, deref. cbn [nth_error obind pq_size]. destruct (Nat.eqb 0 cap) eqn:E; [apply Nat.eqb_eq in E; lia|]. cbn [obind]. cbn -[n_value Rlt_dec pq_insert Nat.eqb].
    unfold pq_insert at 1, deref. cbn [nth_error obind pq_size]. destruct (Nat.eqb 1 cap) eqn:E1; [apply Nat.eqb_eq in E1; lia|]. cbn -[n_value Rlt_dec]. destruct (Rlt_dec _ _); [lra|]. cbn. auto.
  - split; [split; reflexivity|]. split; [exists a; auto|]. split; [exists m; auto|]. unfold pq_pop, el. cbn. reflexivity.
Qed.

Lemma c113_dangling_refuted : forall (len width cap levelat cut : nat) (gm : R) (n m : node), 1 <= len -> 1 <= width -> 1 <= cap -> tidy n -> tidy m -> same_row len (n_fnames m) (n_fnames n) ->
  n_level n < levelat -> (n_value n < 95 / 100 * gm)%R \/ n_level n + cut <= levelat ->
  exists st t h st' h', additions [] (vis_new len width) [n] = Ok ([true], st, t) /\ calls cap st (pq_new cap) [Insert 0 true] = Ok ([Inserted true], h) /\
    pq_prune levelat cut gm st h = Ok (st', h') /\ vis_add (st' ++ [Some m]) t (length st') = UB.
Proof.
  intros len width cap levelat cut gm n m Hl Hw Hc Tn Tm Sr Ll Cond.
  destruct (add_step len [] [] (vis_new len width) n Hl (proj1 (full_new len width [] Hl)) Tn) as (_ & New & _).
  assert (Rn : forall i, i < len -> nth_error (repeat (@nil nat) len) i = Some []) by (intros i Hi; rewrite (nth_error_nth' _ []) by (rewrite repeat_length; auto); f_equal; apply nth_repeat).
  destruct New as (t1 & R1 & W1 & IV1 & _ & _ & Rows); [intros [] | intros i rw Ri _; cbn [vis_new t_rows] in Ri; apply nth_error_In, repeat_spec in Ri; subst; cbn; lia |]. cbn [app length] in R1.
  set (el := fun (x : option nat) => None :: x :: repeat (@None nat) (cap - 1)).
  assert (Hcap : repeat (@None nat) (cap + 1) = el None). { unfold el. replace (cap + 1) with (S (S (cap - 1))) by lia. auto. }
  exists [Some n], t1, (mkPq (el (Some 0)) 1 1 0 1 0), [None]. eexists. split; [cbn [additions app length]; rewrite R1; auto|]. split; [|split].
  - unfold pq_new. rewrite Hcap. unfold el. cbn [calls]. unfold pq_insert at 1, deref. cbn [nth_error obind pq_size]. destruct (Nat.eqb 0 cap) eqn:E; [apply Nat.eqb_eq in E; lia|]. cbn. auto.
  - assert (Ob : obsolete levelat cut gm n = true) by (apply (stale_obsolete levelat cut gm [Some n] 0 n eq_refl); exists n; auto).
    unfold pq_prune, el. cbn [pq_el pq_size cut_loop]. unfold slot, deref. cbn [nth_error obind]. rewrite Ob. cbn. reflexivity.
  - unfold vis_add. cbn [app length]. unfold deref at 1. cbn [nth_error obind]. rewrite (i_len _ _ _ _ IV1). destruct (hash_index_ok len m Tm Hl) as (Hi & Hb). rewrite Hi. cbn [obind]. rewrite (hval_row _ _ _ Sr) in *.
    specialize (Rows _ [] (Rn _ Hb)). rewrite Nat.eqb_refl in Rows. cbn [app length] in Rows. unfold vget. rewrite Rows. cbn [obind add_search]. unfold deref. cbn [nth_error obind]. auto.
Qed.
Lemma c113_merge_refuted_ex : 1 <= 161 /\ 2 <= 100 /\ 2 <= 500 /\ tidy (tn [3]%Z 5) /\ tidy (tn [4]%Z 4) /\ tidy (tn [4]%Z 6) /\ n_fnames (tn [3]%Z 5) <> n_fnames (tn [4]%Z 4) /\ n_fnames (tn [4]%Z 6) = n_fnames (tn [4]%Z 4) /\
  (n_rgamma (tn [4]%Z 4) < 0)%R /\ (n_value (tn [4]%Z 4) <= n_value (tn [3]%Z 5) < n_value (tn [4]%Z 6))%R.
Proof. repeat (split; [reflexivity || lia || discriminate || (cbn; lra)|]). cbn; lra. Qed.
Lemma c113_dangling_refuted_ex : 1 <= 161 /\ 1 <= 100 /\ 1 <= 500 /\ tidy (tn [7]%Z 5) /\ tidy (tn [6; 3; 2]%Z 4) /\ same_row 161 (n_fnames (tn [6; 3; 2]%Z 4)) (n_fnames (tn [7]%Z 5)) /\ n_level (tn [7]%Z 5) < 2 /\
  ((n_value (tn [7]%Z 5) < 95 / 100 * 0)%R \/ n_level (tn [7]%Z 5) + 0 <= 2).
Proof. repeat (split; [reflexivity || lia || (cbn; lia)|]). right. cbn. lia. Qed.
(** Otherwise the nodes already there keep what they are worth, so the queue, whose order depends on nothing else, is not affected. *)
Lemma c113_apart : forall (len width : nat) (st : store) (ns : list node) (n : node), 1 <= len -> (forall k, In k (ns ++ [n]) -> tidy k) -> length (nodup (list_eq_dec Z.eq_dec) (map n_fnames (ns ++ [n]))) <= width ->
  ~ In (n_fnames n) (map n_fnames ns) \/ (exists k, In k ns /\ n_fnames k = n_fnames n /\ (n_value n <= n_value k)%R) ->
  exists st' t' st'' t'', additions st (vis_new len width) ns = Ok (firsts [] ns, st', t') /\ additions st (vis_new len width) (ns ++ [n]) = Ok (firsts [] (ns ++ [n]), st'', t'') /\
    length st' = length st + length ns /\ forall p v, p < length st' -> (worth st' p v <-> worth st'' p v).
Proof.
  intros len width st ns n Hl Td W Cond.
  assert (W' : length (nodup (list_eq_dec Z.eq_dec) (map n_fnames ns)) <= width).
  { transitivity (length (nodup (list_eq_dec Z.eq_dec) (map n_fnames (ns ++ [n])))); [|auto]. apply NoDup_incl_length; [apply NoDup_nodup|]. intros f F. apply nodup_In in F. apply nodup_In. rewrite map_app. apply in_or_app. auto. }
  destruct (additions_ok len (length st) st ns Hl ns [] st (vis_new len width)) as (s0 & t0 & R0 & _ & Ls & _); auto; [intros k K; apply Td, in_or_app; auto | apply full_new; auto|].
  destruct (c111_table len width st ns Hl) as (st' & t' & R & F1 & F2 & F3 & F4 & F5 & F6); auto; [intros k K; apply Td, in_or_app; auto|].
  cbn [rev map app] in R0. rewrite R0 in R. injection R as <- <-.
  destruct (c111_table len width st (ns ++ [n]) Hl) as (st'' & t'' & R2 & G1 & G2 & G3 & G4 & G5 & G6); auto.
  exists s0, t0, st'', t''. split; [auto|]. split; [auto|]. split; [auto|]. intros p v Hp. rewrite Ls in Hp.
  destruct (Nat.lt_ge_cases p (length st)) as [Lo | Hi]; [unfold worth; rewrite F6, G6 by auto; reflexivity|].
  destruct (nth_error ns (p - length st)) as [n0|] eqn:N0; [|apply nth_error_None in N0; lia]. apply nth_error_split in N0 as (pre & post & E & Lp). assert (p = length st + length pre) as -> by lia.
  assert (E' : ns ++ [n] = pre ++ n0 :: (post ++ [n])) by (rewrite E, <- app_assoc; auto).
  destruct (in_dec (list_eq_dec Z.eq_dec) (n_fnames n0) (map n_fnames pre)) as [I | N].
  - destruct (F2 _ _ _ E I) as (A & _), (G2 _ _ _ E' I) as (B & _). unfold worth. rewrite A, B. reflexivity.
  - destruct (F1 _ _ _ E N) as (m & _ & A & Ka), (G1 _ _ _ E' N) as (m' & _ & B & Kb).
    assert (V : n_value m = n_value m').
    { destruct Ka as (_ & _ & _ & A1 & A2), Kb as (_ & _ & _ & B1 & B2). destruct (Rlt_le_dec (n_rgamma n0) 0) as [Lt | Ge]; [|rewrite (A1 Ge), (B1 Ge); auto].
      destruct (A2 Lt) as ((k & Ik & Fk & Vk & _) & Ma), (B2 Lt) as ((k' & Ik' & Fk' & Vk' & _) & Mb). apply Rle_antisym.
      - rewrite Vk. apply Mb; auto. destruct Ik; [left; auto | right; apply in_or_app; auto].
      - rewrite Vk'. destruct Ik' as [<- | Ik']; [apply Ma; [left|]; auto|]. apply in_app_or in Ik' as [Ik' | [<- | []]]; [apply Ma; [right|]; auto|].
        destruct Cond as [C | (z & Iz & Fz & Vz)]; [exfalso; apply C; rewrite Fk'; apply in_map; rewrite E; apply in_or_app; right; left; auto|].
        apply (Rle_trans _ _ _ Vz). apply Ma; [|congruence]. rewrite E in Iz. apply in_app_or in Iz as [Iz | Iz]; auto. exfalso. apply N. rewrite <- Fk', <- Fz. apply in_map. auto. }
    unfold worth. rewrite A, B. split; intros (x & Ex & Vx); injection Ex as <-; eexists; split; [reflexivity | congruence | reflexivity | congruence].
Qed.
Lemma c113_apart_ex : 1 <= 161 /\ (forall k, In k ([tn [7]%Z 5; tn [6; 3; 2]%Z 4] ++ [tn [7]%Z 4]) -> tidy k) /\ length (nodup (list_eq_dec Z.eq_dec) (map n_fnames ([tn [7]%Z 5; tn [6; 3; 2]%Z 4] ++ [tn [7]%Z 4]))) <= 100 /\
  (~ In (n_fnames (tn [7]%Z 4)) (map n_fnames [tn [7]%Z 5; tn [6; 3; 2]%Z 4]) \/ (exists k, In k [tn [7]%Z 5; tn [6; 3; 2]%Z 4] /\ n_fnames k = n_fnames (tn [7]%Z 4) /\ (n_value (tn [7]%Z 4) <= n_value k)%R)).
Proof.
  split; [lia|]. split; [intros k [<- | [<- | [<- | []]]]; reflexivity|]. split; [vm_compute; lia|]. right. exists (tn [7]%Z 5). split; [left; auto|]. split; [auto|]. cbn. lra.
Qed.
