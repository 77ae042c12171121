(** Pruning the priority queue of AOS, and the queue together with the table of visited nodes. *)
From Coq Require Import ZArith Bool List Reals Permutation Lia Lra.
From Verif Require Import Base ListLib Loop M_Pq S_Pq L_Pq T_Pq.
Import ListNotations.
Local Open Scope nat_scope.

Lemma stale_obsolete levelat cut gm st p n : nth_error st p = Some (Some n) -> (stale levelat cut gm st p <-> obsolete levelat cut gm n = true).
Proof.
  intro N. unfold obsolete. split.
  - intros (m & M & L & C). assert (m = n) as -> by congruence. apply andb_true_iff. split; [apply Nat.ltb_lt; auto|]. apply orb_true_iff. destruct C as [C | C]; [left | right; apply Nat.leb_le; lia]. destruct (Rlt_dec _ _); auto. exfalso. lra.
  - intro E. apply andb_true_iff in E as [L C]. apply Nat.ltb_lt in L. exists n. split; [auto|]. split; [auto|]. apply orb_true_iff in C as [C | C]; [left; destruct (Rlt_dec _ _); [lra | discriminate] | right; apply Nat.leb_le in C; lia].
Qed.
Lemma release_ok st p : live st p -> exists st', release st p = Ok st' /\ nth_error st' p = Some None /\ forall q, q <> p -> nth_error st' q = nth_error st q.
Proof.
  intros (n & N). unfold release, deref. rewrite N. cbn [obind]. destruct (vupd_lt p (fun _ : option node => None) st) as (r & U & V); [apply nth_error_Some; congruence|]. exists r. split; [auto|]. split.
  - rewrite (upd_nth_same _ _ _ _ U), N. auto.
  - intros q Q. apply (upd_nth_other _ _ _ _ _ U). auto.
Qed.
Definition gone (levelat cut : nat) (gm : R) (st : store) (ps : list nat) (st' : store) : Prop :=
  (forall p, In p ps -> stale levelat cut gm st p -> nth_error st' p = Some None) /\ (forall p, ~ (In p ps /\ stale levelat cut gm st p) -> nth_error st' p = nth_error st p).
Lemma stale_dec levelat cut gm st p : {stale levelat cut gm st p} + {~ stale levelat cut gm st p}.
Proof.
  destruct (nth_error st p) as [[n|]|] eqn:N.
  - destruct (obsolete levelat cut gm n) eqn:O; [left | right]; [apply (stale_obsolete _ _ _ _ _ _ N); auto | intro K; apply (stale_obsolete _ _ _ _ _ _ N) in K; congruence].
  - right. intros (n & M & _). congruence.
  - right. intros (n & M & _). congruence.
Qed.
Lemma cut_ok levelat cut gm : forall i st el size count ps, length el > size -> i <= size -> row el 1 size = map Some ps -> NoDup ps -> (forall p, In p ps -> live st p) ->
  (forall k p, i < k <= size -> g el k = Some p -> ~ stale levelat cut gm st p) ->
  exists st' el' size' count' ps', cut_loop i levelat cut gm st el size count = Ok (st', el', size', count') /\ length el' = length el /\ size' <= size /\ g el' 0 = g el 0 /\ row el' 1 size' = map Some ps' /\ NoDup ps' /\
    (forall p, In p ps' <-> In p ps /\ ~ stale levelat cut gm st p) /\ gone levelat cut gm st ps st' /\ size' + count' = size + count.
Proof.
  induction i as [|j IH]; intros st el size count ps L I R ND Lv Sv.
  - exists st, el, size, count, ps. repeat (split; [auto; fail|]). split; [|split; [|auto]].
    + intro p. split; [|tauto]. intro Ip. split; [auto|]. assert (In (Some p) (row el 1 size)) as Ir by (rewrite R; apply in_map; auto). unfold row in Ir. apply in_map_iff in Ir as (k & E & K). apply in_seq in K. apply (Sv k p); auto. lia.
    + split; [|auto]. intros p Ip St. exfalso. assert (In (Some p) (row el 1 size)) as Ir by (rewrite R; apply in_map; auto). unfold row in Ir. apply in_map_iff in Ir as (k & E & K). apply in_seq in K. apply (Sv k p); auto. lia.
  - assert (Al : forall k, 1 <= k <= size -> alive st (g el k)) by (apply (row_alive st el size ps R); auto).
    destruct (Al (S j) ltac:(lia)) as (p & Ep & Lp). cbn [cut_loop]. rewrite (slot_g el (S j) p) by (auto; lia). cbn [obind]. destruct (deref_live _ _ Lp) as (n & N & D). rewrite D. cbn [obind].
    destruct (obsolete levelat cut gm n) eqn:Ob.
    + assert (Sp : stale levelat cut gm st p) by (apply (stale_obsolete _ _ _ _ _ _ N); auto).
      destruct (release_ok st p Lp) as (st1 & E1 & F1 & O1). rewrite E1. cbn [obind]. assert (Es : size = S (size - 1)) by lia.
      assert (In p ps) as Ip. { assert (In (Some p) (row el 1 size)) as Ir by (rewrite <- Ep; apply in_map, in_seq; lia). rewrite R in Ir. apply in_map_iff in Ir as (x & E & Ix). congruence. }
      assert (Uniq : forall k, 1 <= k <= size -> g el k = Some p -> k = S j).
      { intros k K Ek. assert (NoDup (row el 1 size)) as NDr by (rewrite R; apply FinFun.Injective_map_NoDup; auto; intros x y E; congruence).
        destruct (Nat.eq_dec k (S j)) as [|N2]; auto. exfalso. unfold row in NDr. assert (W : nth_error (map (g el) (seq 1 size)) (k - 1) = nth_error (map (g el) (seq 1 size)) (S j - 1)).
        { assert (Q : forall x, 1 <= x <= size -> nth_error (map (g el) (seq 1 size)) (x - 1) = Some (g el x)). { intros x X. rewrite (map_nth_error (g el) (x - 1) (seq 1 size) (d := x)); auto. rewrite (nth_error_nth' (seq 1 size) 0) by (rewrite seq_length; lia). f_equal. rewrite seq_nth by lia. lia. }
          rewrite !Q by lia. congruence. }
        apply (proj1 (NoDup_nth_error _) NDr) in W; [lia|]. rewrite map_length, seq_length. lia. }
      assert (Al1 : forall k, 1 <= k <= S (size - 1) -> k <> S j -> alive st1 (g el k)).
      { intros k K Nk. destruct (Al k ltac:(lia)) as (q & Eq & (m & M)). exists q. split; [auto|]. exists m. rewrite O1; auto. intros ->. apply Nk. apply Uniq; auto. lia. }
      destruct (percolate_ok st1 (size - 1) (S size) el (S j)) as (el1 & R1 & L1 & Op & P); auto; try lia. rewrite R1. cbn [obind]. rewrite <- Es in P. rewrite Ep, R in P.
      destruct (in_split _ _ Ip) as (pa & pb & ->).
      assert (P2 : Permutation (row el1 1 (size - 1)) (map Some (pa ++ pb))).
      { apply Permutation_cons_inv with (a := Some p). rewrite P. change (Some p :: map Some (pa ++ pb)) with (map Some (p :: pa ++ pb)). apply Permutation_map. apply Permutation_sym, Permutation_middle. }
      assert (NDab : NoDup (pa ++ pb)) by (eapply NoDup_remove_1; eauto). assert (Npab : ~ In p (pa ++ pb)) by (eapply NoDup_remove_2; eauto).
      assert (Al2 : forall k, 1 <= k <= size - 1 -> alive st1 (g el1 k)).
      { intros k K. assert (In (g el1 k) (row el1 1 (size - 1))) as Ir by (apply in_map, in_seq; lia). apply (Permutation_in _ P2) in Ir. apply in_map_iff in Ir as (q & Eq & Iq). exists q. split; [auto|].
        destruct (Lv q) as (m & M); [apply in_app_or in Iq; apply in_or_app; cbn; tauto|]. exists m. rewrite O1; auto. intros ->. contradiction. }
      destruct (alive_row st1 el1 (size - 1) Al2) as (ps1 & Rp & Lp1). assert (P3 : Permutation ps1 (pa ++ pb)) by (apply perm_map_some; rewrite <- Rp; auto).
      assert (Same : forall q, q <> p -> (stale levelat cut gm st1 q <-> stale levelat cut gm st q)) by (intros q Nq; unfold stale; rewrite O1; tauto).
      destruct (IH st1 el1 (size - 1) (S count) ps1) as (st' & el' & size' & count' & ps' & Rr & Ll & Sz & Z0 & Rw & ND' & In' & (G1 & G2) & Ct); auto; try lia.
      * apply (Permutation_NoDup (Permutation_sym P3)). auto.
      * apply (row_alive st1 el1 (size - 1) ps1 Rp). auto.
      * intros k q K Eq. assert (In q ps1) as Iq. { assert (In (Some q) (row el1 1 (size - 1))) as Ir by (rewrite <- Eq; apply in_map, in_seq; lia). rewrite Rp in Ir. apply in_map_iff in Ir as (x & E & Ix). congruence. }
        apply (Permutation_in _ P3) in Iq. assert (q <> p) as Nq by (intros ->; contradiction). rewrite Same by auto.
        assert (In (Some q) (row el 1 size)) as Ir by (rewrite R; apply in_map, in_or_app; apply in_app_or in Iq; cbn; tauto). unfold row in Ir. apply in_map_iff in Ir as (x & Ex & X). apply in_seq in X.
        destruct (Nat.le_gt_cases x j) as [Hx | Hx].
        -- exfalso. assert (g el1 x = Some q) as Ex1 by (rewrite Op by lia; auto). assert (NoDup (row el1 1 (size - 1))) as NDr by (apply (Permutation_NoDup (Permutation_sym P2)), FinFun.Injective_map_NoDup; auto; intros a b E; congruence).
           assert (Q : forall y, 1 <= y <= size - 1 -> nth_error (map (g el1) (seq 1 (size - 1))) (y - 1) = Some (g el1 y)). { intros y Y. rewrite (map_nth_error (g el1) (y - 1) (seq 1 (size - 1)) (d := y)); auto. rewrite (nth_error_nth' (seq 1 (size - 1)) 0) by (rewrite seq_length; lia). f_equal. rewrite seq_nth by lia. lia. }
           assert (W : nth_error (map (g el1) (seq 1 (size - 1))) (k - 1) = nth_error (map (g el1) (seq 1 (size - 1))) (x - 1)) by (rewrite !Q by lia; congruence).
           unfold row in NDr. apply (proj1 (NoDup_nth_error _) NDr) in W; [lia|]. rewrite map_length, seq_length. lia.
        -- destruct (Nat.eq_dec x (S j)) as [-> | Nx]; [congruence|]. apply (Sv x q); auto. lia.
      * exists st', el', size', count', ps'. split; [auto|]. split; [lia|]. split; [lia|]. split; [rewrite Z0; apply Op; lia|]. split; [auto|]. split; [auto|]. split; [|split; [|lia]].
        -- intro q. rewrite In'. rewrite (Permutation_in' eq_refl P3 : In q ps1 <-> In q (pa ++ pb)). destruct (Nat.eq_dec q p) as [-> | Nq]; [tauto|]. rewrite Same by auto. rewrite !in_app_iff. cbn [In]. intuition congruence.
        -- assert (Ps1 : forall q, In q ps1 <-> In q (pa ++ pb)) by (intro q; apply (Permutation_in' eq_refl P3)). split.
           ++ intros q Iq Sq. destruct (Nat.eq_dec q p) as [-> | Nq]; [rewrite G2; auto; intros (K & _); apply Npab, Ps1; auto|]. apply G1; [apply Ps1; apply in_app_or in Iq; apply in_or_app; cbn in Iq; intuition congruence | apply Same; auto].
           ++ intros q Nq. assert (q <> p) as Nqp by (intros ->; apply Nq; split; [apply in_or_app; cbn; auto | auto]). rewrite G2; [apply O1; auto|]. intros (K & St). apply Nq. split; [apply Ps1 in K; apply in_app_or in K; apply in_or_app; cbn; tauto | apply Same; auto].
    + assert (Np : ~ stale levelat cut gm st p) by (intro K; apply (stale_obsolete _ _ _ _ _ _ N) in K; congruence).
      destruct (IH st el size count ps) as (st' & el' & size' & count' & ps' & H); auto; try lia.
      * intros k q K Eq. destruct (Nat.eq_dec k (S j)) as [-> | Nk]; [congruence|]. apply (Sv k q); auto. lia.
      * exists st', el', size', count', ps'. exact H.
Qed.
Lemma c112_cut : forall (levelat cut : nat) (gm : R) (st : store) (h : pq) (ps : list nat), length (pq_el h) > pq_size h -> holds h ps -> NoDup ps -> (forall p, In p ps -> live st p) ->
  exists st' h' ps', pq_prune levelat cut gm st h = Ok (st', h') /\ holds h' ps' /\ NoDup ps' /\ (forall p, In p ps' <-> In p ps /\ ~ stale levelat cut gm st p) /\
    (forall p, In p ps -> stale levelat cut gm st p -> nth_error st' p = Some None) /\ (forall p, ~ (In p ps /\ stale levelat cut gm st p) -> nth_error st' p = nth_error st p) /\
    pq_cut h' + length ps' = pq_cut h + length ps.
Proof.
  intros levelat cut gm st h ps L H ND Lv. pose proof H as [_ Ln]. apply (holds_row h ps L) in H.
  destruct (cut_ok levelat cut gm (pq_size h) st (pq_el h) (pq_size h) 0 ps) as (st' & el' & size' & count' & ps' & Rr & Ll & Sz & Z0 & Rw & ND' & In' & (G1 & G2) & Ct); auto; try lia.
  unfold pq_prune. rewrite Rr. cbn [obind]. eexists st', _, ps'. split; [reflexivity|]. split; [apply holds_row; cbn [pq_el pq_size]; [lia | auto]|]. repeat (split; [auto; fail|]). cbn [pq_cut].
  assert (length ps' = size') by (apply (f_equal (@length _)) in Rw; unfold row in Rw; rewrite !map_length, seq_length in Rw; auto). lia.
Qed.

(** one pop after pruning: not the best *)
Definition big (l : nat) (v : R) (f : Z) : option node := Some (mkNode [f] l v v (-1)).
Lemma c112_order_refuted : exists st : store, exists h : pq, exists st' : store, exists h' : pq, exists h2 : pq,
  calls 7 st (pq_new 7) (map (fun p => Insert p true) (seq 0 7)) = Ok (repeat (Inserted true) 7, h) /\ pq_prune 1 0 0 st h = Ok (st', h') /\
  holds h' [5; 1; 4; 6] /\ pq_pop st' h' = Ok (Some 5, h2) /\ worth st' 5 80 /\ worth st' 6 85.
Proof.
  exists [big 0 100 1; big 1 10 2; big 0 90 3; big 0 5 4; big 1 4 5; big 1 80 6; big 1 85 7].
  exists (mkPq [None; Some 0; Some 1; Some 2; Some 3; Some 4; Some 5; Some 6] 7 7 0 7 0).
  exists [None; big 1 10 2; None; None; big 1 4 5; big 1 80 6; big 1 85 7].
  exists (mkPq [None; Some 5; Some 1; Some 4; Some 6; Some 4; Some 5; Some 6] 4 7 0 7 3).
  exists (mkPq [None; Some 6; Some 1; Some 4; Some 6; Some 4; Some 5; Some 6] 3 7 0 7 3).
  split; [cbv -[Rlt_dec IZR Rlt Rle]; repeat (rcase; cbv -[Rlt_dec IZR Rlt Rle]); reflexivity|].
  split; [cbv -[Rlt_dec IZR Rlt Rle Rmult Rminus Rdiv Rplus]; repeat (rcase; cbv -[Rlt_dec IZR Rlt Rle Rmult Rminus Rdiv Rplus]); reflexivity|].
  split; [split; reflexivity|].
  split; [cbv -[Rlt_dec IZR Rlt Rle]; repeat (rcase; cbv -[Rlt_dec IZR Rlt Rle]); reflexivity|].
  split; eexists; split; reflexivity.
Qed.
Definition cut_q : pq := mkPq [None; Some 0; Some 1; Some 2; None] 3 3 0 3 0.
Definition cut_st : store := [big 0 100 1; big 1 10 2; big 0 90 3].
Lemma c112_cut_ex : length (pq_el cut_q) > pq_size cut_q /\ holds cut_q [0; 1; 2] /\ NoDup [0; 1; 2] /\ (forall p, In p [0; 1; 2] -> live cut_st p) /\ stale 1 0 0 cut_st 0 /\ ~ stale 1 0 0 cut_st 1.
Proof.
  split; [cbn; lia|]. split; [split; reflexivity|]. split; [repeat constructor; cbn; lia|]. split; [intros p [<- | [<- | [<- | []]]]; eexists; reflexivity|].
  split; [eexists; split; [reflexivity|]; cbn; lia|]. intros (n & N & L & _). injection N as <-. cbn in L. lia.
Qed.
