(** Loops that may stop with undefined behaviour, sums and matrices: vocabulary shared by the numeric models.
    Nothing in this file models a particular function of /repo. *)
From Coq Require Import Bool List Lia Reals Lra.
From Verif Require Import Base ListLib L_Vec.
Import ListNotations.
Local Open Scope nat_scope.

(** [for(x : l) s = f(s, x)]. *)
Fixpoint ofold {S A : Type} (f : S -> A -> outcome S) (l : list A) (s : S) : outcome S :=
  match l with
  | [] => Ok s
  | x :: r => let* s' := f s x in ofold f r s'
  end.

(** [for(i = 0; i < n; ++i) sum += f(i)]. *)
Definition osum (n : nat) (f : nat -> outcome R) : outcome R :=
  ofold (fun s i => let* v := f i in Ok (s + v)%R) (seq 0 n) 0%R.

(** [m[i][j]] and [m[i][j] = v]. *)
Definition mget {A} (m : list (list A)) (i j : nat) : outcome A := let* r := vget m i in vget r j.
Definition mset {A} (m : list (list A)) (i j : nat) (v : A) : outcome (list (list A)) :=
  let* r := vget m i in let* r' := vupd j (fun _ => v) r in vupd i (fun _ => r') m.

Lemma ofold_app {S A} (f : S -> A -> outcome S) l1 l2 s : ofold f (l1 ++ l2) s = let* s' := ofold f l1 s in ofold f l2 s'.
Proof. revert s. induction l1 as [|x r IH]; intro s; cbn; auto. destruct (f s x); cbn; auto. Qed.

(** Invariant rule: [P i] holds after [i] steps of a loop over [0 .. n-1] that never goes wrong. *)
Lemma ofold_seq {S} (f : S -> nat -> outcome S) (P : nat -> S -> Prop) n s :
  P 0 s -> (forall i t, i < n -> P i t -> exists t', f t i = Ok t' /\ P (Datatypes.S i) t') ->
  exists t, ofold f (seq 0 n) s = Ok t /\ P n t.
Proof.
  intros H0 H. cut (forall k, k <= n -> exists t, ofold f (seq 0 k) s = Ok t /\ P k t); [intro K; apply (K n); lia|].
  induction k as [|k IH]; intro L; [exists s; auto|]. destruct IH as (t & E & Hp); [lia|]. destruct (H k t ltac:(lia) Hp) as (t' & E' & Hp').
  exists t'. rewrite seq_S, ofold_app, E. cbn. rewrite E'. auto.
Qed.
Lemma ofold_list {S A} (f : S -> A -> outcome S) (P : list A -> S -> Prop) l s :
  P [] s -> (forall d x r t, l = d ++ x :: r -> P d t -> exists t', f t x = Ok t' /\ P (d ++ [x]) t') ->
  exists t, ofold f l s = Ok t /\ P l t.
Proof.
  intros H0 H. cut (forall r d t, l = d ++ r -> P d t -> exists t', ofold f r t = Ok t' /\ P l t'); [intro K; apply (K l []); auto|].
  induction r as [|x r IH]; intros d t E Hp; cbn [ofold].
  - rewrite app_nil_r in E. subst d. exists t. auto.
  - destruct (H d x r t E Hp) as (t1 & E1 & P1). rewrite E1. cbn [obind]. apply (IH (d ++ [x])); auto. rewrite <- app_assoc. auto.
Qed.
(** Partial version: whenever the loop ends normally. *)
Lemma ofold_inv {S A} (f : S -> A -> outcome S) (P : S -> Prop) l :
  (forall s x s', In x l -> P s -> f s x = Ok s' -> P s') -> forall s t, P s -> ofold f l s = Ok t -> P t.
Proof.
  induction l as [|x r IH]; intros H s t Hs E; cbn in E; [injection E as <-; auto|].
  destruct (f s x) as [s'| |] eqn:F; try discriminate. cbn in E. apply (IH (fun a b c I => H a b c (or_intror I)) s' t); auto. apply (H s x s'); auto. left; auto.
Qed.

Lemma osum_ok n f g : (forall i, i < n -> f i = Ok (g i)) -> osum n f = Ok (sumn n g).
Proof.
  intro H. unfold osum. destruct (ofold_seq (fun s i => let* v := f i in Ok (s + v)%R) (fun i s => s = sumn i g) n 0%R) as (t & E & ->); auto.
  intros i t Hi ->. rewrite H by auto. cbn. eauto.
Qed.
Lemma osum_ext n f g : (forall i, i < n -> f i = g i) -> osum n f = osum n g.
Proof.
  unfold osum. intro H. assert (forall i, In i (seq 0 n) -> f i = g i) as K by (intros i Hi; apply in_seq in Hi; apply H; lia). clear H. revert K. generalize 0%R.
  induction (seq 0 n) as [|i r IH]; intros s K; cbn; auto. rewrite K by (left; auto). destruct (g i); cbn; auto. apply IH. intros. apply K. right. auto.
Qed.

Lemma vget_nth {A} (l : list A) i d : i < length l -> vget l i = Ok (nth i l d).
Proof. intro H. unfold vget. rewrite (nth_error_nth' l d) by auto. auto. Qed.
Lemma vget_nz l i : i < length l -> vget l i = Ok (nz l i).
Proof. apply vget_nth. Qed.
Lemma vget_map_seq {A} (f : nat -> A) n i : i < n -> vget (map f (seq 0 n)) i = Ok (f i).
Proof. intro H. unfold vget. rewrite nth_error_map, nth_error_nth' with (d := 0) by (rewrite seq_length; auto). cbn. rewrite seq_nth by auto. auto. Qed.

(** Shape: [n] rows, row [i] of length [len i]. *)
Definition shape {A} (n : nat) (len : nat -> nat) (m : list (list A)) : Prop :=
  length m = n /\ forall i r, nth_error m i = Some r -> length r = len i.

Lemma mset_ok {A} n len (m : list (list A)) i j v : shape n len m -> i < n -> j < len i ->
  exists m', mset m i j v = Ok m' /\ shape n len m' /\ mget m' i j = Ok v /\
    forall x y, (x, y) <> (i, j) -> mget m' x y = mget m x y.
Proof.
  intros [L Hl] Hi Hj. unfold mset. destruct (vget_lt m i ltac:(lia)) as (r & Er & ->). cbn [obind].
  pose proof (Hl i r Er) as Lr. destruct (vupd_lt j (fun _ => v) r ltac:(lia)) as (r' & Ur & ->). cbn [obind].
  destruct (vupd_lt i (fun _ => r') m ltac:(lia)) as (m' & Um & ->). exists m'. split; auto.
  pose proof (upd_nth_same _ _ _ _ Um) as S1. rewrite Er in S1. cbn in S1. pose proof (upd_nth_same _ _ _ _ Ur) as S2.
  destruct (nth_error r j) as [a|] eqn:Ea; [|apply nth_error_None in Ea; lia]. cbn in S2.
  split; [|split].
  - split; [rewrite (upd_length _ _ _ _ Um); auto|]. intros k s Hk. destruct (Nat.eq_dec i k) as [<-|N].
    + rewrite S1 in Hk. injection Hk as <-. rewrite (upd_length _ _ _ _ Ur). auto.
    + rewrite (upd_nth_other _ _ _ _ _ Um N) in Hk. apply Hl in Hk. auto.
  - unfold mget, vget. rewrite S1. cbn. rewrite S2. auto.
  - intros x y N. unfold mget, vget. destruct (Nat.eq_dec i x) as [<-|Nx].
    + rewrite S1, Er. cbn. destruct (Nat.eq_dec j y) as [<-|Ny]; [congruence|]. rewrite (upd_nth_other _ _ _ _ _ Ur Ny). auto.
    + rewrite (upd_nth_other _ _ _ _ _ Um Nx). auto.
Qed.

(** The table of [f] with [n] rows and [n] columns. *)
Definition table {A} (n : nat) (f : nat -> nat -> A) : list (list A) := map (fun i => map (f i) (seq 0 n)) (seq 0 n).
Lemma table_shape {A} n (f : nat -> nat -> A) : shape n (fun _ => n) (table n f).
Proof.
  split; [unfold table; rewrite map_length, seq_length; auto|]. intros i r H. apply nth_error_In in H. apply in_map_iff in H.
  destruct H as (k & <- & _). rewrite map_length, seq_length. auto.
Qed.
Lemma mget_table {A} n (f : nat -> nat -> A) i j : i < n -> j < n -> mget (table n f) i j = Ok (f i j).
Proof. intros Hi Hj. unfold mget, table. rewrite vget_map_seq by auto. cbn [obind]. apply vget_map_seq. auto. Qed.
Lemma nth_error_Some_lt {A} (l : list A) i x : nth_error l i = Some x -> i < length l.
Proof. intro H. apply nth_error_Some. congruence. Qed.
Lemma nth_error_eq_ext {A} (a b : list A) : length a = length b -> (forall i x, nth_error a i = Some x -> nth_error b i = Some x) -> a = b.
Proof.
  intros L H. apply nth_error_ext'. intro i. destruct (nth_error a i) as [x|] eqn:E.
  - symmetry. apply H. auto.
  - symmetry. apply nth_error_None. apply nth_error_None in E. lia.
Qed.
Lemma table_ext {A} n (f : nat -> nat -> A) m : shape n (fun _ => n) m -> (forall i j, i < n -> j < n -> mget m i j = Ok (f i j)) -> m = table n f.
Proof.
  intros [L Hl] H. apply nth_error_eq_ext; [rewrite (proj1 (table_shape n f)); auto|]. intros i r Er.
  assert (i < n) as Hi by (apply nth_error_Some_lt in Er; lia). unfold table. rewrite nth_error_map, nth_error_nth' with (d := 0) by (rewrite seq_length; auto). cbn. rewrite seq_nth by auto.
  f_equal. symmetry. apply nth_error_eq_ext; [rewrite map_length, seq_length; apply (Hl i); auto|]. intros j x Ex.
  assert (j < n) as Hj by (apply nth_error_Some_lt in Ex; rewrite (Hl i r Er) in Ex; auto).
  specialize (H i j Hi Hj). unfold mget, vget in H. rewrite Er in H. cbn in H. rewrite Ex in H. injection H as ->.
  rewrite nth_error_map, nth_error_nth' with (d := 0) by (rewrite seq_length; auto). cbn. rewrite seq_nth by auto. auto.
Qed.
Lemma table_eq {A} n (f g : nat -> nat -> A) : (forall i j, i < n -> j < n -> f i j = g i j) -> table n f = table n g.
Proof. intro H. apply table_ext; [apply table_shape|]. intros. rewrite mget_table by auto. f_equal. auto. Qed.

(** [for i < n, for i <= j < n]. *)
Definition upper (n : nat) : list (nat * nat) := flat_map (fun i => map (fun j => (i, j)) (seq i (n - i))) (seq 0 n).
Lemma upper_In n i j : In (i, j) (upper n) <-> i <= j < n.
Proof.
  unfold upper. rewrite in_flat_map. split.
  - intros (k & Hk & H). apply in_map_iff in H. destruct H as (l & E & Hl). injection E as -> ->. apply in_seq in Hk. apply in_seq in Hl. lia.
  - intro H. exists i. split; [apply in_seq; lia|]. apply in_map_iff. exists j. split; auto. apply in_seq. lia.
Qed.

(** A loop over the upper triangle that writes [v1 i j] at (i,j) and then [v2 i j] at (j,i). *)
Lemma fill_upper {A} (step : list (list A) -> nat * nat -> outcome (list (list A))) n len (v1 v2 : nat -> nat -> A) m :
  shape n len m -> (forall i, i < n -> n <= len i) ->
  (forall m i j, i <= j < n -> step m (i, j) = let* m1 := mset m i j (v1 i j) in mset m1 j i (v2 i j)) ->
  exists m', ofold step (upper n) m = Ok m' /\ shape n len m' /\
    (forall x y, x < n -> y < n -> mget m' x y = Ok (if Nat.ltb x y then v1 x y else v2 y x)) /\
    (forall x y, ~ (x < n /\ y < n) -> mget m' x y = mget m x y).
Proof.
  intros S0 Hlen Hstep.
  set (fin := fun x y => if Nat.ltb x y then v1 x y else v2 y x).
  destruct (ofold_list step (fun d t => shape n len t /\ (forall x y, In (Nat.min x y, Nat.max x y) d -> mget t x y = Ok (fin x y)) /\
    (forall x y, ~ In (Nat.min x y, Nat.max x y) d -> mget t x y = mget m x y)) (upper n) m) as (t & E & St & A1 & A2).
  - split; auto. split; [intros x y []|auto].
  - intros d [i j] r t E (St & A1 & A2). assert (i <= j < n) as Hij by (apply upper_In; rewrite E; apply in_or_app; right; left; auto).
    rewrite Hstep by auto. destruct (mset_ok n len t i j (v1 i j) St ltac:(lia)) as (t1 & -> & S1 & G1 & O1); [specialize (Hlen i); lia|].
    cbn [obind]. destruct (mset_ok n len t1 j i (v2 i j) S1 ltac:(lia)) as (t2 & -> & S2 & G2 & O2); [specialize (Hlen j); lia|].
    exists t2. split; auto. split; auto.
    assert (forall x y, (Nat.min x y, Nat.max x y) = (i, j) -> mget t2 x y = Ok (fin x y)) as HE.
    { intros x y Exy. injection Exy as E1 E2. unfold fin. destruct (Nat.ltb_spec x y).
      - assert (x = i) as -> by lia. assert (y = j) as -> by lia. rewrite O2 by (intro Q; injection Q; lia). auto.
      - assert (x = j) as -> by lia. assert (y = i) as -> by lia. auto. }
    assert (forall x y, (Nat.min x y, Nat.max x y) <> (i, j) -> mget t2 x y = mget t x y) as HN.
    { intros x y N. rewrite O2, O1; auto; intro Q; injection Q as -> ->; apply N; f_equal; lia. }
    assert (forall x y, (Nat.min x y, Nat.max x y) = (i, j) \/ (Nat.min x y, Nat.max x y) <> (i, j)) as DEC.
    { intros x y. destruct (Nat.eq_dec (Nat.min x y) i) as [->|]; [destruct (Nat.eq_dec (Nat.max x y) j) as [->|]|]; auto; right; congruence. }
    split.
    + intros x y Hin. destruct (DEC x y) as [Q|Q]; auto. rewrite HN by auto. apply A1. apply in_app_or in Hin. destruct Hin as [Hin|[Hin|[]]]; auto. congruence.
    + intros x y Hni. rewrite HN; [apply A2|]; intro Q; apply Hni; apply in_or_app; [left; auto|right; left; auto].
  - exists t. split; auto. split; auto. split.
    + intros x y Hx Hy. apply A1. apply upper_In. lia.
    + intros x y N. apply A2. intro Q. apply upper_In in Q. lia.
Qed.
