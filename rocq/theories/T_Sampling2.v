(** Property lemmas for the draws of Data::sampling without replacement: C16. *)
From Coq Require Import ZArith Bool List Permutation Lia.
From Verif Require Import Base ListLib M_Data S_Data L_Data L_Insert L_Split L_Valid Loop M_Heap L_Heap M_Sampling S_Sampling T_Data T_Heap T_Sampling.
Import ListNotations.
Local Open Scope nat_scope.

(** The numbers taken from the stream: a number met before is passed over, a new one is taken. *)
Inductive fresh (rnd : nat -> nat -> nat) (b : nat) : list nat -> nat -> list nat -> Prop :=
| fresh_nil : forall seen t, fresh rnd b seen t []
| fresh_skip : forall seen t l, In (rnd t b) seen -> fresh rnd b seen (S t) l -> fresh rnd b seen t l
| fresh_take : forall seen t l, ~ In (rnd t b) seen -> fresh rnd b (rnd t b :: seen) (S t) l -> fresh rnd b seen t (rnd t b :: l).

Lemma seen_spec x ids : existsb (Nat.eqb x) ids = true <-> In x ids.
Proof. rewrite existsb_exists. split; [intros (y & I & E); apply Nat.eqb_eq in E; now subst|intro I; exists x; split; [auto|apply Nat.eqb_refl]]. Qed.
Lemma draw_new_fresh rnd b : forall fuel ids t i t', draw_new rnd fuel b ids t = Some (i, t') -> forall l, fresh rnd b (i :: ids) t' l -> fresh rnd b ids t (i :: l).
Proof.
  induction fuel as [|f IH]; intros ids t i t' E l F; [discriminate|]. cbn [draw_new] in E. destruct (existsb _ ids) eqn:Ex.
  - apply fresh_skip; [now apply seen_spec|eauto].
  - injection E as <- <-. apply fresh_take; [|auto]. intro I. apply seen_spec in I. congruence.
Qed.
Lemma draw_many_fresh {T} rnd fuel b (part : hdata T) : forall k s s', draw_many rnd false fuel b k part s = Ok (Some s') -> exists new, sp_ids s' = rev new ++ sp_ids s /\ fresh rnd b (sp_ids s) (sp_t s) new.
Proof.
  induction k as [|k IH]; intros s s' E; cbn [draw_many] in E.
  - injection E as <-. exists []. split; [reflexivity|constructor].
  - unfold draw_one at 1 in E. destruct (draw_new rnd fuel b (sp_ids s) (sp_t s)) as [[i t]|] eqn:Ed; [|discriminate]. destruct (vget _ i) as [r| |]; [|discriminate|discriminate]. cbn [obind] in E.
    destruct (h_insert _ _ r false) as [res| |]; [|discriminate|discriminate]. cbn [obind] in E. apply IH in E as (new & A & F). cbn [sp_ids sp_t] in A, F. exists (i :: new). split; [cbn [rev]; rewrite <- app_assoc; exact A|]. eapply draw_new_fresh; eauto.
Qed.
Lemma draw_new_some rnd b : forall fuel ids t, (exists j, j < fuel /\ ~ In (rnd (t + j) b) ids) -> exists i t', draw_new rnd fuel b ids t = Some (i, t').
Proof.
  induction fuel as [|f IH]; intros ids t (j & L & N); [lia|]. cbn [draw_new]. destruct (existsb _ ids) eqn:Ex; [|eauto].
  apply IH. destruct j as [|j]; [rewrite Nat.add_0_r in N; exfalso; apply N; now apply seen_spec|]. exists j. split; [lia|]. now replace (S t + j) with (t + S j) by lia.
Qed.
Lemma some_missing b ids : length ids <= b -> exists x, x <= b /\ ~ In x ids.
Proof.
  intro L. destruct (in_dec Nat.eq_dec 0 ids) as [I0|]; [|exists 0; split; [lia|auto]].
  assert (~ incl (seq 0 (S b)) ids) as N. { intro I. pose proof (NoDup_incl_length (seq_NoDup (S b) 0) I) as Q. rewrite seq_length in Q. lia. }
  assert (forall l, ~ incl l ids -> exists x, In x l /\ ~ In x ids) as K. { induction l as [|x l IH]; intro A; [exfalso; apply A; intros ? []|]. destruct (in_dec Nat.eq_dec x ids); [|exists x; split; [now left|auto]]. destruct IH as (y & Y1 & Y2); [intro B; apply A; intros z [<-|Z]; auto|]. exists y. split; [now right|auto]. }
  destruct (K _ N) as (x & I & M). apply in_seq in I. exists x. split; [lia|auto].
Qed.
(** A stream that within any [fuel] consecutive draws gives every number up to the bound. *)
Definition fair (rnd : nat -> nat -> nat) (b fuel : nat) : Prop := forall t x, x <= b -> exists j, j < fuel /\ rnd (t + j) b = x.
Lemma draw_many_returns {T} rnd fuel b (part : hdata T) : fair rnd b fuel -> forall k s, length (sp_ids s) + k <= S b -> draw_many rnd false fuel b k part s <> Ok None.
Proof.
  intro Fr. induction k as [|k IH]; intros s L; cbn [draw_many]; [discriminate|]. unfold draw_one at 1.
  destruct (some_missing b (sp_ids s) ltac:(lia)) as (x & Xb & Xn). destruct (Fr (sp_t s) x Xb) as (j & Jf & Jx).
  destruct (draw_new_some rnd b fuel (sp_ids s) (sp_t s)) as (i & t' & ->); [exists j; split; [auto|now rewrite Jx]|].
  destruct (vget _ i) as [r| |]; cbn [obind]; [|discriminate|discriminate]. destruct (h_insert _ _ r false) as [res| |]; cbn [obind]; [|discriminate|discriminate]. apply IH. cbn [sp_ids length]. lia.
Qed.
(** C16: without replacement on one class, when the random stream gives every number again and again, the call returns,
    and the sample holds the points at the numbers of the stream in order, each taken when it first comes. *)
Lemma c16_fresh : forall (T : Type) rnd fuel (hp : heap T) src d m c, in_range rnd -> fair rnd (m - 1) fuel -> view hp src = Ok d -> data_ok d -> d_classes d = [c] -> 0 < m <= length (d_points d) ->
  exists hp' h v is, sampling rnd fuel hp src m false = Ok (Some (hp', h)) /\ view hp' h = Ok v /\ length is = m /\ fresh rnd (m - 1) [] 0 is /\
    map Some (map content (d_points v)) = map (nth_error (map content (d_points d))) is.
Proof.
  intros T rnd fuel hp src d m c Hr Fr V D Ec Hm. assert (forall p, In p (d_points d) -> p_y p = c) as Hy. { intros p I. pose proof (co_listed _ (ok_class _ D) p I) as J. rewrite Ec in J. destruct J as [J|[]]. congruence. }
  assert (forall k, In k (d_classes d) -> In k (labels (d_points d))) as Hc. { intros k I. rewrite Ec in I. destruct I as [<-|[]]. destruct (d_points d) as [|p l]; [cbn in Hm; lia|]. left. apply Hy. now left. }
  destruct (sampling_setup rnd fuel hp src d m false V D Hc Hm) as (hp1 & hs & -> & F & _). pose proof (contents_dim d D) as CD. pose proof (ok_cap _ D) as Cap.
  assert (class_contents d c = map content (d_points d)) as CC. { unfold class_contents. f_equal. clear -Hy. induction (d_points d) as [|p l IH]; [auto|]. cbn. rewrite (Hy p), Z.eqb_refl by now left. f_equal. apply IH. intros. apply Hy. now right. }
  assert (share d m c = m) as Sh. { unfold share. rewrite CC, map_length, Nat.mul_comm, Nat.div_mul by lia. lia. }
  rewrite Ec in *. cbn [map] in *. rewrite Sh in *. rewrite CC in *. inversion F as [|p1 x1 ps y1 R1 F1]; subst. inversion F1; subst. cbn [draw_classes].
  destruct (draw_many_ok rnd false fuel (m - 1) p1 (map content (d_points d)) (d_dim d) Hr (fun c I => CD _ c (or_introl eq_refl) I) ltac:(rewrite map_length; lia) m (mkSamp hp1 (mkH [] (strip data_empty)) [] 0) [] (empty_good _ _) R1 ltac:(cbn [length Nat.add app]; lia)) as [[_ A]|(s1 & n1 & pk1 & A & [(v & Vv & Dv & Cv) _] & Lp1 & _ & _ & Ln1 & B1 & Fn & Id1 & _)].
  - exfalso. revert A. apply draw_many_returns; [auto|]. cbn [sp_ids length]. lia.
  - rewrite A. cbn [obind]. do 2 eexists. exists v, (rev n1). split; [reflexivity|]. split; [auto|]. split; [now rewrite rev_length|]. destruct (draw_many_fresh _ _ _ _ _ _ _ A) as (new & I1 & Fs). destruct (Id1 eq_refl) as [I2 _]. cbn [sp_ids sp_t] in *. rewrite app_nil_r in I1, I2.
    split; [|rewrite Cv; cbn [app]; exact (picked_some _ _ _ Fn)]. assert (rev n1 = new) as ->; [|exact Fs]. rewrite <- I2, I1. apply rev_involutive.
Qed.
Definition alternating (t b : nat) : nat := t mod (S b).
Lemma c16_fresh_ex : in_range alternating /\ fair alternating (2 - 1) 2 /\ view (d_points two1) (mkH [0; 1] (strip two1)) = Ok two1 /\ data_ok two1 /\ d_classes two1 = [5%Z] /\ 0 < 2 <= length (d_points two1).
Proof.
  split; [intros t b; unfold alternating; pose proof (Nat.mod_upper_bound t (S b)); lia|]. split.
  - intros t x L. unfold alternating. pose proof (Nat.div_mod t 2 ltac:(lia)) as Q. pose proof (Nat.mod_upper_bound t 2 ltac:(lia)) as B. cbn [Nat.sub] in *.
    assert (t mod 2 = x \/ t mod 2 <> x) as [E|E] by lia; [exists 0; rewrite Nat.add_0_r; split; [lia|exact E]|].
    exists 1. split; [lia|]. rewrite Nat.add_mod by lia. cbn [Nat.sub]. change (1 mod 2) with 1. destruct (t mod 2) as [|[|r]]; [|destruct x; [reflexivity|lia]|lia]. destruct x as [|[|x]]; [lia|reflexivity|lia].
  - split; [vm_compute; reflexivity|]. split; [apply two1_ok|]. split; vm_compute; auto.
Qed.
