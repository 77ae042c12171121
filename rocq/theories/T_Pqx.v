(** Counting and freeing the nodes in the queue of AOS, and its largest size. *)
From Coq Require Import ZArith Bool List Reals Permutation Lia Lra.
From Verif Require Import Base ListLib Loop M_Pq S_Pq L_Pq T_Pq T_Prune.
Import ListNotations.
Local Open Scope nat_scope.

Lemma holds_nth h ps i p : holds h ps -> nth_error ps i = Some p -> nth_error (pq_el h) (S i) = Some (Some p).
Proof.
  intros (E & Ln) N. assert (i < length ps) by (apply nth_error_Some; congruence). assert (Q : nth_error (firstn (pq_size h) (tl (pq_el h))) i = Some (Some p)) by (rewrite E; apply map_nth_error; auto).
  assert (Q2 : nth_error (tl (pq_el h)) i = Some (Some p)) by (rewrite <- (firstn_skipn (pq_size h) (tl (pq_el h))); rewrite nth_error_app1 by (apply nth_error_Some; congruence); auto).
  destruct (pq_el h); [destruct i; discriminate | auto].
Qed.
Lemma ofold_places {S1 : Type} (f : S1 -> nat -> outcome S1) (k : S1 -> nat -> outcome S1) ps : forall b s, (forall i p s, nth_error ps i = Some p -> f s (b + i) = k s p) -> ofold f (seq b (length ps)) s = ofold k ps s.
Proof.
  induction ps as [|p ps IH]; intros b s H; [auto|]. cbn [length seq ofold]. rewrite <- (Nat.add_0_r b) at 1. rewrite (H 0 p) by auto. destruct (k s p); cbn [obind]; auto. apply IH. intros i q t Q. rewrite Nat.add_succ_comm. apply H. auto.
Qed.

(** The nodes held fall into those not trained yet, which are counted, and the others. *)
Lemma c110_projected : forall (st : store) (h : pq) (ps : list nat), holds h ps -> (forall p, In p ps -> live st p) ->
  exists us ts, pq_projected st h = Ok (length us) /\ Permutation ps (us ++ ts) /\ (forall p, In p us -> exists n, nth_error st p = Some (Some n) /\ (n_rgamma n < 0)%R) /\ (forall p, In p ts -> exists n, nth_error st p = Some (Some n) /\ (0 <= n_rgamma n)%R).
Proof.
  intros st h ps H Lv. pose proof H as (_ & Ln). unfold pq_projected. rewrite <- Ln.
  rewrite (ofold_places _ (fun c p => let* n := deref st p in Ok (if Rlt_dec (n_rgamma n) 0 then S c else c))) by (intros i p s N; cbn [Nat.add]; unfold slot; rewrite (holds_nth _ _ _ _ H N); auto).
  clear H Ln. assert (G : forall c, exists us ts, ofold (fun c p => let* n := deref st p in Ok (if Rlt_dec (n_rgamma n) 0 then S c else c)) ps c = Ok (c + length us) /\ Permutation ps (us ++ ts) /\ (forall p, In p us -> exists n, nth_error st p = Some (Some n) /\ (n_rgamma n < 0)%R) /\ (forall p, In p ts -> exists n, nth_error st p = Some (Some n) /\ (0 <= n_rgamma n)%R)).
  { induction ps as [|p ps IH]; intro c; [exists [], []; rewrite Nat.add_0_r; repeat split; auto; intros p []|].
    destruct (Lv p (or_introl eq_refl)) as (n & N). cbn [ofold]. unfold deref at 1. rewrite N. cbn [obind]. specialize (IH (fun q Q => Lv q (or_intror Q))).
    destruct (Rlt_dec (n_rgamma n) 0) as [Lt | Ge].
    - destruct (IH (S c)) as (us & ts & -> & Pm & U & V). exists (p :: us), ts. split; [f_equal; cbn; lia|]. split; [cbn [app]; auto|]. split; [intros q [<- | Q]; eauto | auto].
    - destruct (IH c) as (us & ts & -> & Pm & U & V). exists us, (p :: ts). split; [auto|]. split; [rewrite Pm; apply Permutation_middle|]. split; [auto|]. intros q [<- | Q]; [|auto]. exists n. split; [auto | lra]. }
  destruct (G 0) as (us & ts & R & Q). exists us, ts. auto.
Qed.


(** The destructor deletes exactly the nodes held; a node held twice is deleted twice. *)
Lemma c110_free : forall (st : store) (h : pq) (ps : list nat), holds h ps -> NoDup ps -> (forall p, In p ps -> live st p) ->
  exists st', pq_free st h = Ok st' /\ (forall p, In p ps -> nth_error st' p = Some None) /\ (forall p, ~ In p ps -> nth_error st' p = nth_error st p).
Proof.
  intros st h ps H ND Lv. pose proof H as (_ & Ln). unfold pq_free. rewrite <- Ln.
  rewrite (ofold_places _ release) by (intros i p s N; cbn [Nat.add]; unfold vget; rewrite (holds_nth _ _ _ _ H N); auto).
  clear H Ln. revert st Lv. induction ps as [|p ps IH]; intros st Lv; [exists st; repeat split; auto; intros p []|].
  inversion ND as [|? ? Np ND']; subst. destruct (release_ok st p (Lv p (or_introl eq_refl))) as (s1 & R & Rp & Ro). cbn [ofold]. rewrite R. cbn [obind].
  destruct (IH ND' s1) as (s2 & R2 & A & B). { intros q Q. destruct (Lv q (or_intror Q)) as (n & N). exists n. rewrite Ro; [auto | intros ->; contradiction]. }
  exists s2. split; [auto|]. split.
  - intros q [<- | Q]; [rewrite B; auto | auto].
  - intros q Q. rewrite B by (intro; apply Q; right; auto). apply Ro. intros ->. apply Q. left. auto.
Qed.
Lemma release_dead st p : ~ live st p -> release st p = UB.
Proof. intro D. unfold release, deref. destruct (nth_error st p) as [[n|]|] eqn:E; auto. exfalso. apply D. exists n. auto. Qed.
Lemma live_dec st p : live st p \/ ~ live st p.
Proof. unfold live. destruct (nth_error st p) as [[n|]|]; [left; eauto | right; intros (n & N); discriminate | right; intros (n & N); discriminate]. Qed.
Lemma free_dead p ps : In p ps -> forall st, ~ live st p -> ofold release ps st = UB.
Proof.
  induction ps as [|q ps IH]; intros I st D; [destruct I|]. cbn [ofold]. destruct (live_dec st q) as [Lq | Dq]; [|rewrite release_dead by auto; auto].
  destruct (release_ok st q Lq) as (s1 & R & Rq & Ro). rewrite R. cbn [obind]. destruct I as [-> | I]; [contradiction|]. apply IH; auto. intros (n & N). apply D. exists n. rewrite <- Ro; auto. intros ->. congruence.
Qed.
Lemma c110_free_refuted : forall (st : store) (h : pq) (ps : list nat), holds h ps -> ~ NoDup ps -> pq_free st h = UB.
Proof.
  intros st h ps H ND. pose proof H as (_ & Ln). unfold pq_free. rewrite <- Ln.
  rewrite (ofold_places _ release) by (intros i p s N; cbn [Nat.add]; unfold vget; rewrite (holds_nth _ _ _ _ H N); auto).
  clear H Ln. revert st. induction ps as [|p ps IH]; intro st; [exfalso; apply ND; constructor|]. cbn [ofold].
  destruct (live_dec st p) as [Lp | Dp]; [|rewrite release_dead by auto; auto]. destruct (release_ok st p Lp) as (s1 & R & Rp & Ro). rewrite R. cbn [obind].
  destruct (in_dec Nat.eq_dec p ps) as [I | N]; [apply (free_dead p); auto; intros (n & Q); congruence|]. apply IH. intro Q. apply ND. constructor; auto.
Qed.

Lemma calls_snoc cap st c : forall cs h, calls cap st h (cs ++ [c]) = let* r := calls cap st h cs in let* s := calls cap st (snd r) [c] in Ok (fst r ++ fst s, snd s).
Proof.
  induction cs as [|d cs IH]; intro h.
  - cbn [app calls obind fst snd]. destruct c; [destruct (pq_insert _ _ _ _ _) | destruct (pq_pop _ _)]; cbn [obind fst snd app]; auto.
  - rewrite <- app_comm_cons. destruct d; cbn [calls]; [destruct (pq_insert _ _ _ _ _) as [x | |] | destruct (pq_pop _ _) as [x | |]]; cbn [obind]; auto;
      (rewrite IH; destruct (calls cap st (snd x) cs) as [y | |]; cbn [obind fst snd]; auto; destruct c; cbn [calls]; [destruct (pq_insert _ _ (snd y) _ _) | destruct (pq_pop _ (snd y))]; cbn [obind fst snd app]; auto).
Qed.
Lemma call_max cap st c h a h' : pq_size h <= pq_max h -> calls cap st h [c] = Ok (a, h') -> pq_max h' = Nat.max (pq_max h) (pq_size h').
Proof.
  intros Le. destruct c as [p f|]; cbn [calls]; intro H.
  - destruct (pq_insert cap st h p f) as [[b k] | |] eqn:E; cbn [obind fst snd] in H; try discriminate. injection H as <- <-. unfold pq_insert in E. destruct (deref st p); cbn [obind] in E; try discriminate.
    destruct (if Nat.eqb _ _ then _ else _) as [[[i s]|] | |]; cbn [obind] in E; try discriminate.
    + destruct (sift _ _ _ _ _ _); cbn [obind] in E; try discriminate. injection E as <- <-. auto.
    + injection E as <- <-. lia.
  - destruct (pq_pop st h) as [[b k] | |] eqn:E; cbn [obind fst snd] in H; try discriminate. injection H as <- <-. unfold pq_pop in E. destruct (Nat.eqb (pq_size h) 0); [injection E as <- <-; lia|].
    destruct (vget _ _); cbn [obind] in E; try discriminate. destruct (percolate _ _ _ _ _); cbn [obind] in E; try discriminate. injection E as <- <-. cbn [pq_max pq_size]. lia.
Qed.
(** The largest size recorded is the size after some of the calls, and never exceeded. *)
Lemma c110_largest : forall (cap : nat) (st : store) (cs : list call) (a : list answer) (h : pq), calls cap st (pq_new cap) cs = Ok (a, h) ->
  (exists cs1 cs2 a1 h1, cs = cs1 ++ cs2 /\ calls cap st (pq_new cap) cs1 = Ok (a1, h1) /\ pq_size h1 = pq_max h) /\
  forall cs1 cs2 a1 h1, cs = cs1 ++ cs2 -> calls cap st (pq_new cap) cs1 = Ok (a1, h1) -> pq_size h1 <= pq_max h.
Proof.
  intros cap st cs. induction cs as [|c cs IH] using rev_ind; intros a h H.
  - injection H as <- <-. split; [exists [], [], [], (pq_new cap); auto|]. intros cs1 cs2 a1 h1 E C. symmetry in E. apply app_eq_nil in E as (-> & _). injection C as <- <-. auto.
  - rewrite calls_snoc in H. destruct (calls cap st (pq_new cap) cs) as [[a0 h0] | |] eqn:E; cbn [obind fst snd] in H; try discriminate. destruct (calls cap st h0 [c]) as [[b k] | |] eqn:Q; cbn [obind fst snd] in H; try discriminate. injection H as <- <-.
    destruct (IH _ _ eq_refl) as ((c1 & c2 & a1 & h1 & Ec & C & Sz) & Bd). assert (Le : pq_size h0 <= pq_max h0) by (apply (Bd cs [] a0); [rewrite app_nil_r|]; auto). pose proof (call_max _ _ _ _ _ _ Le Q) as M. split.
    + destruct (Nat.le_gt_cases (pq_size k) (pq_max h0)).
      * exists c1, (c2 ++ [c]), a1, h1. split; [rewrite Ec, app_assoc; auto|]. split; [auto | lia].
      * exists (cs ++ [c]), [], (a0 ++ b), k. split; [rewrite app_nil_r; auto|]. split; [rewrite calls_snoc, E; cbn [obind fst snd]; rewrite Q; auto | lia].
    + intros cs1 cs2 a2 h2 Es C2. destruct cs2 as [|d cs2 _] using rev_ind.
      * rewrite app_nil_r in Es. subst cs1. rewrite calls_snoc, E in C2. cbn [obind fst snd] in C2. rewrite Q in C2. injection C2 as <- <-. lia.
      * rewrite app_assoc in Es. apply app_inj_tail in Es as (-> & <-). specialize (Bd cs1 cs2 a2 h2 eq_refl C2). lia.
Qed.
Lemma c110_projected_ex : holds cut_q [0; 1; 2] /\ (forall p, In p [0; 1; 2] -> live cut_st p).
Proof. split; apply c112_cut_ex. Qed.
Lemma c110_free_ex : holds cut_q [0; 1; 2] /\ NoDup [0; 1; 2] /\ (forall p, In p [0; 1; 2] -> live cut_st p).
Proof. split; [|split]; apply c112_cut_ex. Qed.
Lemma c110_free_refuted_ex : exists h, calls 2 cut_st (pq_new 2) [Insert 1 true; Insert 1 false] = Ok ([Inserted true; Inserted true], h) /\ holds h [1; 1] /\ ~ NoDup [1; 1].
Proof.
  exists (mkPq [None; Some 1; Some 1] 2 1 1 2 0). split; [cbv -[Rlt_dec IZR Rlt Rle]; repeat (rcase; cbv -[Rlt_dec IZR Rlt Rle]); reflexivity|]. split; [split; reflexivity|]. intro N. inversion N as [|? ? Q _]. apply Q. left. auto.
Qed.
Lemma c110_largest_ex : exists a h, calls 2 cut_st (pq_new 2) [Insert 1 true; Pop] = Ok (a, h) /\ pq_max h = 1 /\ pq_size h = 0.
Proof. exists [Inserted true; Popped (Some 1)], (mkPq [None; Some 1; None] 0 1 0 1 0). split; [cbv -[Rlt_dec IZR Rlt Rle]; repeat (rcase; cbv -[Rlt_dec IZR Rlt Rle]); reflexivity|]. auto. Qed.
