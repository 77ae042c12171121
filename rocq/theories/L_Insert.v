(** Building datasets by repeated insertion into an empty one. *)
From Coq Require Import ZArith Bool String Sorted Permutation Lia List.
From Verif Require Import Base ListLib M_Data S_Data L_Data.
Import ListNotations.
Open Scope Z_scope.

Section D.
Context {T : Type}.
Implicit Types d : data T.
Implicit Types p q : point T.

(** A dataset built by insertions of points of dimension [n]. *)
Record built (n : nat) (d : data T) : Prop := {
  b_size  : d_size d = length (d_points d);
  b_class : class_ok d;
  b_names : d_cnames d = map string_of_Z (d_classes d);
  b_index : d_index d = iota 0 (length (d_points d));
  b_dims  : forall p, In p (d_points d) -> length (p_x p) = n;
  b_dim0  : d_points d = [] -> d_dim d = 0%nat \/ d_dim d = n;
  b_dim   : d_points d <> [] -> d_dim d = n;
  b_fn    : d_points d <> [] -> n <> 0%nat -> d_fnames d = iota 1 n;
  b_cdist : d_cdist d = false;
  b_only  : forall c, In c (d_classes d) -> In c (labels (d_points d)) }.

Lemma iota_snoc a n : iota a (S n) = iota a n ++ [a + Z.of_nat n].
Proof. unfold iota. rewrite seq_S, map_app. reflexivity. Qed.

Definition renum (k : bool) (n : nat) (p : point T) : point T := if k then p else with_id (Z.of_nat (S n)) p.

Lemma built_step n d p k :
  built n d -> length (p_x p) = n -> Z.of_nat (length (d_points d)) + 1 < 2 ^ 63 ->
  exists d', insertPoint d p k = Ok (d', true) /\ built n d' /\
    d_points d' = d_points d ++ [renum k (length (d_points d)) p].
Proof.
  intros [Bs Bc Bn Bi Bd B0 B1 Bf Bcd Bo] Hl Hcap.
  pose proof (proj1 (class_ok_iff d) Bc) as (A & CO).
  assert (accepts d p) as Ha.
  { unfold accepts, dim. destruct (d_points d) as [|q r]; auto. right. rewrite Hl. symmetry. apply Bd. left; auto. }
  assert (length (d_dist d) = length (d_classes d)) as HL0 by apply CO.
  destruct (insertPoint_accept d p k Ha Bs HL0)
    as (d1 & Hi1 & Hp & Hsz & Hidx & Hfn & Hdim & Hcc & Hcd & Hno & Hie & _ & Hin & Hnin).
  exists d1. split; auto.
  assert (labels (d_points d1) = labels (d_points d) ++ [p_y p]) as HL
    by (rewrite Hp, labels_app; destruct k; reflexivity).
  assert (d_points d1 <> []) as NE by (rewrite Hp; intro X; symmetry in X; apply app_cons_not_nil in X; auto).
  split; [|rewrite Hp; unfold renum; destruct k; auto].
  assert (count_ok (d_classes d1) (d_dist d1) (labels (d_points d1)) /\ d_cnames d1 = map string_of_Z (d_classes d1)
          /\ (forall c, In c (d_classes d1) -> In c (labels (d_points d1)))) as (CO' & HN' & HO').
  { destruct (in_dec Z.eq_dec (p_y p) (d_classes d)) as [I|NI].
    - destruct (Hin A I) as (X & Y & Z). rewrite X, Y, HL. split; [|split; auto].
      + apply count_ok_perm with (ys := p_y p :: labels (d_points d)); [apply Permutation_cons_append|].
        eapply count_ok_bump; eauto. unfold labels. rewrite map_length. lia.
      + intros c Hc. apply in_or_app. left. auto.
    - destruct (Hnin A NI) as (X & Y & Z). rewrite X, Y, Z, HL. split; [|split].
      + apply count_ok_perm with (ys := p_y p :: labels (d_points d)); [apply Permutation_cons_append|].
        apply count_ok_new; auto.
      + rewrite map_app, Bn. reflexivity.
      + intros c Hc. apply in_app_or in Hc. apply in_or_app. destruct Hc as [Hc|Hc]; auto. }
  assert (d_dim d1 = n) as HD.
  { rewrite Hdim. destruct (Nat.eqb_spec (d_dim d) 0); auto.
    destruct (d_points d) as [|q r] eqn:E; [destruct B0; auto; lia|]. apply B1. discriminate. }
  constructor; auto.
  - rewrite Hsz, Hp, app_length. simpl. lia.
  - apply class_ok_iff. rewrite Hcc. auto.
  - rewrite Hidx, Hp, Bi, app_length, Nat.add_1_r, iota_snoc. simpl. auto.
  - rewrite Hp. intros z Hz. apply in_app_or in Hz. destruct Hz as [Hz|[<-|[]]]; auto. destruct k; auto.
  - intros _ Nn. rewrite Hfn. destruct (p_x p); [simpl in Hl; lia|]. rewrite Hl. auto.
  - congruence.
Qed.

Lemma built_empty n : built n (@data_empty T).
Proof.
  constructor; simpl; auto; try tauto; try congruence.
  constructor; simpl; auto; try tauto.
  - constructor.
  - intros [|i] c H; discriminate.
Qed.

(** Inserting a whole list. *)
Fixpoint ins_all (k : bool) (pts : list (point T)) (d : data T) : outcome (data T) :=
  match pts with
  | [] => Ok d
  | p :: r => let* o := insertPoint d p k in ins_all k r (fst o)
  end.

Fixpoint renum_all (k : bool) (n : nat) (pts : list (point T)) : list (point T) :=
  match pts with [] => [] | p :: r => renum k n p :: renum_all k (S n) r end.

Lemma renum_all_keep n pts : renum_all true n pts = pts.
Proof. revert n. induction pts as [|p r IH]; intro n; simpl; auto. f_equal. auto. Qed.

Lemma renum_all_content k n pts : map content (renum_all k n pts) = map content pts.
Proof.
  revert n. induction pts as [|p r IH]; intro n; simpl; auto. rewrite IH. f_equal. destruct k; reflexivity.
Qed.

Lemma renum_all_length k n pts : length (renum_all k n pts) = length pts.
Proof. revert n. induction pts as [|p r IH]; intro n; simpl; auto. Qed.

Lemma renum_all_ids n pts : map p_id (renum_all false n pts) = map (fun i => Z.of_nat (S i)) (seq n (length pts)).
Proof. revert n. induction pts as [|p r IH]; intro n; simpl; auto. rewrite IH. auto. Qed.

Lemma renum_all_app k n a b : renum_all k n (a ++ b) = renum_all k n a ++ renum_all k (n + length a) b.
Proof.
  revert n. induction a as [|p a IH]; intro n; simpl.
  - rewrite Nat.add_0_r. auto.
  - rewrite IH. do 2 f_equal. f_equal. lia.
Qed.

Lemma ins_all_spec k n pts : forall d,
  built n d -> (forall p, In p pts -> length (p_x p) = n) ->
  Z.of_nat (length (d_points d) + length pts) < 2 ^ 63 ->
  exists d', ins_all k pts d = Ok d' /\ built n d' /\
    d_points d' = d_points d ++ renum_all k (length (d_points d)) pts.
Proof.
  induction pts as [|p r IH]; intros d Hb Hl Hc; simpl.
  - exists d. rewrite app_nil_r. auto.
  - simpl in Hc. destruct (built_step n d p k Hb) as (d1 & H1 & B1 & P1); [apply Hl; left; auto|lia|].
    rewrite H1. cbn [obind fst].
    destruct (IH d1 B1) as (d2 & H2 & B2 & P2); [intros; apply Hl; right; auto|rewrite P1, app_length; simpl; lia|].
    exists d2. split; auto. split; auto. rewrite P2, P1, <- app_assoc, app_length, Nat.add_1_r. reflexivity.
Qed.

Lemma built_ok n d : built n d -> Z.of_nat (length (d_points d)) < 2 ^ 63 -> (d_points d = [] -> d_dim d = O /\ d_fnames d = []) ->
  (n = O -> d_fnames d = []) -> data_ok d.
Proof.
  intros [Bs Bc Bn Bi Bd B0 B1 Bf Bcd Bo] Hc He Hn.
  assert (d_points d = [] \/ d_points d <> []) as [E|NE] by (destruct (d_points d); [left|right]; congruence).
  - destruct (He E) as (D0 & F0). constructor; auto; rewrite ?D0, ?F0; auto.
    + rewrite Bn, map_length. auto.
    + rewrite E. simpl. lia.
    + rewrite E. intros p [].
    + constructor.
    + intros f [].
  - specialize (B1 NE). specialize (Bf NE).
    constructor; auto.
    + rewrite Bn, map_length. auto.
    + rewrite Bi, iota_length. auto.
    + rewrite B1. auto.
    + rewrite B1. destruct (Nat.eq_dec n 0) as [->|Nn]; [rewrite Hn; auto|]. rewrite Bf by auto. apply iota_length.
    + destruct (Nat.eq_dec n 0) as [->|Nn]; [rewrite Hn; auto; constructor|]. rewrite Bf by auto. apply iota_sorted.
    + destruct (Nat.eq_dec n 0) as [->|Nn]; [rewrite Hn by auto; intros f []|]. rewrite Bf by auto. apply iota_pos.
    + congruence.
Qed.
End D.
