(** Lemmas about the lazy expressions. *)
From Coq Require Import ZArith Bool List Reals Lia.
From Verif Require Import Base ListLib M_Point S_Point M_Lazy S_Lazy.
Import ListNotations.
Local Open Scope nat_scope.

Definition nrep (m : mem) (g : names) (s : num) (r : nref) : Prop :=
  match s with Lit v => exists k, r = RNum k /\ nth_error m k = Some (Some (ONum v)) | Elem x i => r = RElem x i /\ nth_error m x = Some (Some (OVec (vals g x))) /\ i < length (vals g x) end.
Fixpoint rep (m : mem) (g : names) (n : nat) (e : ex) (l : nat) : Prop :=
  match e with
  | Var x => l = x /\ point_at m g n x
  | Bin o a b => exists la lb, nth_error m l = Some (Some (OBin o (Ref la) (Ref lb))) /\ la < l /\ lb < l /\ rep m g n a la /\ rep m g n b lb
  | BinL o s b => exists r lb, nth_error m l = Some (Some (OBin o (Scal r) (Ref lb))) /\ nrep m g s r /\ lb < l /\ rep m g n b lb
  | BinR o a s => exists la r, nth_error m l = Some (Some (OBin o (Ref la) (Scal r))) /\ la < l /\ rep m g n a la /\ nrep m g s r
  | Un o a => exists la, nth_error m l = Some (Some (OUn o la)) /\ la < l /\ rep m g n a la
  | At x p => nth_error m l = Some (Some (OSub x p)) /\ x < l /\ p < l /\ nth_error m x = Some (Some (OVec (vals g x))) /\ nth_error m p = Some (Some (OIdx (inds g p))) /\ length (inds g p) = n /\ forall k, In k (inds g p) -> k < length (vals g x)
  end.
Lemma nth_app {A} (m t : list A) l o : nth_error m l = Some o -> nth_error (m ++ t) l = Some o.
Proof. intros H. rewrite nth_error_app1; auto. apply nth_error_Some. rewrite H. discriminate. Qed.
Lemma nth_last {A} (m : list A) o : nth_error (m ++ [o]) (length m) = Some o.
Proof. rewrite nth_error_app2, Nat.sub_diag by lia. reflexivity. Qed.
Lemma nth_lt {A} (m : list A) l o : nth_error m l = Some o -> l < length m.
Proof. intros H. apply nth_error_Some. rewrite H. discriminate. Qed.
Lemma look_ok m l o : nth_error m l = Some (Some o) -> look m l = Ok o.
Proof. unfold look. intros ->. reflexivity. Qed.
Lemma look_dead m l : nth_error m l = Some None -> look m l = UB.
Proof. unfold look. intros ->. reflexivity. Qed.

Lemma nrep_ext m t g s r : nrep m g s r -> nrep (m ++ t) g s r.
Proof. destruct s; cbn; [intros (k & -> & H); exists k; split; auto using nth_app | intros (-> & H & I); auto using nth_app]. Qed.
Lemma rep_ext m t g n e : forall l, rep m g n e l -> rep (m ++ t) g n e l.
Proof.
  induction e as [x | o a IHa b IHb | o s b IHb | o a IHa s | o a IHa | x p]; intros l; cbn [rep].
  - intros (-> & H & I). repeat split; auto using nth_app.
  - intros (la & lb & H & I & J & K & L). exists la, lb. auto 10 using nth_app.
  - intros (r & lb & H & I & J & K). exists r, lb. auto 10 using nth_app, nrep_ext.
  - intros (la & r & H & I & J & K). exists la, r. auto 10 using nth_app, nrep_ext.
  - intros (la & H & I & J). exists la. auto 10 using nth_app.
  - intros (H & I & J & K & L & M & N). auto 10 using nth_app.
Qed.
Lemma number_ext m t g s : number_ok m g s -> number_ok (m ++ t) g s.
Proof. destruct s; cbn; auto. intros (H & I). auto using nth_app. Qed.
Lemma sound_ext m t g n e : sound m g n e -> sound (m ++ t) g n e.
Proof.
  induction e as [x | o a IHa b IHb | o s b IHb | o a IHa s | o a IHa | x p]; cbn [sound]; try tauto.
  - intros (H & I). split; auto using nth_app.
  - intros (H & I). split; auto using number_ext.
  - intros (H & I). split; auto using number_ext.
  - intros (H & I & J & K). auto using nth_app.
Qed.
Lemma bnum_ok m g s : number_ok m g s -> exists t r, bnum m s = Ok (m ++ t, r) /\ nrep (m ++ t) g s r.
Proof.
  destruct s as [v | x i]; cbn [number_ok bnum nrep].
  - intros _. exists [Some (ONum v)], (RNum (length m)). split; auto. exists (length m). split; auto using nth_last.
  - intros (H & I). rewrite (look_ok _ _ _ H). cbn [obind]. apply Nat.ltb_lt in I as J. rewrite J. exists [], (RElem x i). rewrite app_nil_r. auto.
Qed.
Lemma build_ok m g n e : sound m g n e -> exists t l, build m e = Ok (m ++ t, l) /\ rep (m ++ t) g n e l /\ l < length (m ++ t) /\ match e with Var _ => True | _ => length m <= l end.
Proof.
  revert m. induction e as [x | o a IHa b IHb | o s b IHb | o a IHa s | o a IHa | x p]; intros m S; cbn [sound] in S; cbn [build].
  - exists [], x. rewrite app_nil_r. cbn [rep]. destruct S as (H & I). repeat split; auto. apply nth_lt in H. lia.
  - destruct S as (Sa & Sb). destruct (IHa m Sa) as (t & la & -> & Ra & La & _). cbn [obind fst snd].
    destruct (IHb (m ++ t) (sound_ext m t g n b Sb)) as (u & lb & -> & Rb & Lb & _). cbn [obind fst snd].
    exists (t ++ u ++ [Some (OBin o (Ref la) (Ref lb))]), (length ((m ++ t) ++ u)). rewrite !app_assoc. split; auto. split; [|split].
    + cbn [rep]. exists la, lb. rewrite nth_last. rewrite !app_length in *. repeat split; auto; try lia; auto using rep_ext.
    + rewrite (app_length _ [_]). cbn. lia.
    + rewrite !app_length. lia.
  - destruct S as (Ss & Sb). destruct (bnum_ok m g s Ss) as (t & r & -> & Rs). cbn [obind fst snd].
    destruct (IHb (m ++ t) (sound_ext m t g n b Sb)) as (u & lb & -> & Rb & Lb & _). cbn [obind fst snd].
    exists (t ++ u ++ [Some (OBin o (Scal r) (Ref lb))]), (length ((m ++ t) ++ u)). rewrite !app_assoc. split; auto. split; [|split].
    + cbn [rep]. exists r, lb. rewrite nth_last. rewrite !app_length in *. repeat split; auto; try lia; auto using rep_ext, nrep_ext.
    + rewrite (app_length _ [_]). cbn. lia.
    + rewrite !app_length. lia.
  - destruct S as (Sa & Ss). destruct (IHa m Sa) as (t & la & -> & Ra & La & _). cbn [obind fst snd].
    destruct (bnum_ok (m ++ t) g s (number_ext m t g s Ss)) as (u & r & -> & Rs). cbn [obind fst snd].
    exists (t ++ u ++ [Some (OBin o (Ref la) (Scal r))]), (length ((m ++ t) ++ u)). rewrite !app_assoc. split; auto. split; [|split].
    + cbn [rep]. exists la, r. rewrite nth_last. rewrite !app_length in *. repeat split; auto; try lia; auto using rep_ext, nrep_ext.
    + rewrite (app_length _ [_]). cbn. lia.
    + rewrite !app_length. lia.
  - destruct (IHa m S) as (t & la & -> & Ra & La & _). cbn [obind fst snd].
    exists (t ++ [Some (OUn o la)]), (length (m ++ t)). rewrite !app_assoc. split; auto. split; [|split].
    + cbn [rep]. exists la. rewrite nth_last. repeat split; auto using rep_ext.
    + rewrite (app_length _ [_]). cbn. lia.
    + rewrite !app_length. lia.
  - destruct S as (H & I & J & K). exists [Some (OSub x p)], (length m). split; auto. split; [|split].
    + cbn [rep]. rewrite nth_last. repeat split; auto using nth_app; eauto using nth_lt.
    + rewrite app_length. cbn. lia.
    + lia.
Qed.

Lemma rep_size m g n e : forall l f, rep m g n e l -> l < f -> lsize f m l = Ok n.
Proof.
  induction e as [x | o a IHa b IHb | o s b IHb | o a IHa s | o a IHa | x p]; intros l [|f] H L; try lia; cbn [rep] in H; cbn [lsize].
  - destruct H as (-> & H & I). rewrite (look_ok _ _ _ H). cbn [obind]. now rewrite I.
  - destruct H as (la & lb & H & I & J & K & M). rewrite (look_ok _ _ _ H). cbn [obind]. rewrite (IHa la f), (IHb lb f) by (auto; lia). cbn [obind].
    rewrite Nat.eqb_refl, orb_true_r. destruct (Nat.eqb n 0); reflexivity.
  - destruct H as (r & lb & H & I & J & K). rewrite (look_ok _ _ _ H). cbn [obind]. rewrite (IHb lb f) by (auto; lia). reflexivity.
  - destruct H as (la & r & H & I & J & K). rewrite (look_ok _ _ _ H). cbn [obind]. rewrite (IHa la f) by (auto; lia). cbn [obind].
    rewrite Nat.eqb_refl, orb_true_r. cbn [orb]. destruct (Nat.eqb_spec n 0) as [->|]; reflexivity.
  - destruct H as (la & H & I & J). rewrite (look_ok _ _ _ H). cbn [obind]. apply IHa; auto; lia.
  - destruct H as (H & I & J & K & M & N & O). rewrite (look_ok _ _ _ H). cbn [obind]. destruct f; [lia|]. cbn [lsize]. rewrite (look_ok _ _ _ M). cbn [obind]. now rewrite N.
Qed.
Lemma vget_nth {A} (v : list A) i d : i < length v -> vget v i = Ok (nth i v d).
Proof. unfold vget. intros H. rewrite (nth_error_nth' v d H). reflexivity. Qed.
Lemma lift_two o x y : lift2 (bop_el o) x y = two o x y.
Proof. destruct x, y, o; reflexivity. Qed.
Lemma lift_one o x : lift1 (uop_el o) x = one o x.
Proof. destruct x, o; reflexivity. Qed.
Lemma nread_ok m g s r : nrep m g s r -> nread m r = Ok (nvalue g s).
Proof.
  destruct s as [v | x i]; cbn [nrep].
  - intros (k & -> & H). cbn [nread]. rewrite (look_ok _ _ _ H). reflexivity.
  - intros (-> & H & I). cbn [nread]. rewrite (look_ok _ _ _ H). cbn [obind nvalue]. now apply vget_nth.
Qed.
Lemma rep_idx m g n e i : i < n -> forall l f, rep m g n e l -> l < f -> lidx f m l i = Ok (value g e i).
Proof.
  intros In. induction e as [x | o a IHa b IHb | o s b IHb | o a IHa s | o a IHa | x p]; intros l [|f] H L; try lia; cbn [rep] in H; cbn [lidx value].
  - destruct H as (-> & H & I). rewrite (look_ok _ _ _ H). cbn [obind]. apply vget_nth. lia.
  - destruct H as (la & lb & H & I & J & K & M). rewrite (look_ok _ _ _ H). cbn [obind]. rewrite (IHa la f), (IHb lb f) by (auto; lia). cbn [obind]. now rewrite lift_two.
  - destruct H as (r & lb & H & I & J & K). rewrite (look_ok _ _ _ H). cbn [obind]. rewrite (nread_ok m g s r I). cbn [obind]. rewrite (IHb lb f) by (auto; lia). cbn [obind]. now rewrite lift_two.
  - destruct H as (la & r & H & I & J & K). rewrite (look_ok _ _ _ H). cbn [obind]. rewrite (IHa la f) by (auto; lia). rewrite (nread_ok m g s r K). cbn [obind]. now rewrite lift_two.
  - destruct H as (la & H & I & J). rewrite (look_ok _ _ _ H). cbn [obind]. rewrite (IHa la f) by (auto; lia). cbn [obind]. now rewrite lift_one.
  - destruct H as (H & I & J & K & M & N & O). rewrite (look_ok _ _ _ H). cbn [obind]. rewrite (look_ok _ _ _ M). cbn [obind]. rewrite (vget_nth _ i 0) by lia. cbn [obind].
    rewrite (look_ok _ _ _ K). cbn [obind]. apply vget_nth. apply O. apply nth_In. lia.
Qed.
Lemma collect_ok {A} (f : nat -> outcome A) g is : (forall i, In i is -> f i = Ok (g i)) -> collect f is = Ok (map g is).
Proof. induction is as [|i r IH]; intros H; [reflexivity|]. cbn [collect map]. rewrite H by now left. cbn [obind]. rewrite IH; auto. intros; apply H; now right. Qed.
Lemma rep_eval m g n e l : rep m g n e l -> levaluate m l = Ok (map (value g e) (seq 0 n)).
Proof.
  intros H. unfold levaluate. rewrite (rep_size m g n e l (S l) H) by lia. cbn [obind]. apply collect_ok. intros i I. apply in_seq in I. apply (rep_idx m g n e i); auto; lia.
Qed.
Lemma sweep_nth k m : forall n l, nth_error (sweep n k m) l = option_map (fun o => if Nat.ltb l n || match k with Some k => Nat.eqb l k | None => false end then o else None) (nth_error m l).
Proof.
  intros n. unfold sweep.
  assert (G : forall (m : mem) b l, nth_error (map (fun p => if Nat.ltb (fst p) n || match k with Some k => Nat.eqb (fst p) k | None => false end then snd p else None) (combine (seq b (length m)) m)) l =
    option_map (fun o => if Nat.ltb (b + l) n || match k with Some k => Nat.eqb (b + l) k | None => false end then o else None) (nth_error m l)).
  { clear m. induction m as [|o m IH]; intros b [|l]; cbn [length seq combine map nth_error option_map fst snd]; auto.
    - now rewrite Nat.add_0_r.
    - rewrite IH. replace (S b + l) with (b + S l) by lia. reflexivity. }
  intros l. apply (G m 0 l).
Qed.
Lemma sweep_below k m n l : l < n -> nth_error (sweep n k m) l = nth_error m l.
Proof. intros H. rewrite sweep_nth. apply Nat.ltb_lt in H. rewrite H. cbn [orb]. destruct (nth_error m l); reflexivity. Qed.
Lemma sweep_kept m n l : nth_error (sweep n (Some l) m) l = nth_error m l.
Proof. rewrite sweep_nth, Nat.eqb_refl, orb_true_r. destruct (nth_error m l); reflexivity. Qed.
Lemma sweep_dead m n k l : n <= l -> l <> k -> l < length m -> nth_error (sweep n (Some k) m) l = Some None.
Proof.
  intros H I J. rewrite sweep_nth. apply Nat.eqb_neq in I. rewrite I. assert (Nat.ltb l n = false) as -> by (apply Nat.ltb_ge; auto). cbn [orb].
  destruct (nth_error m l) eqn:E; [reflexivity|]. apply nth_error_None in E. lia.
Qed.

(** The memory [m'] is [m] with the vector [w] at [x]. *)
Definition is_set (m : mem) (x : nat) (w : list (option R)) (m' : mem) : Prop := nth_error m' x = Some (Some (OVec w)) /\ forall l, l <> x -> nth_error m' l = nth_error m l.
Definition stage (f : option R -> option R -> option R) (v : list (option R)) (val : nat -> option R) (i : nat) : list (option R) :=
  map (fun j => f (nth j v None) (val j)) (seq 0 i) ++ skipn i v.
Lemma nth_skip {A} (v : list A) d : forall i j, nth j (skipn i v) d = nth (i + j) v d.
Proof. induction v as [|x v IH]; intros [|i] j; cbn [skipn Nat.add]; auto. - destruct j; auto. - rewrite IH. reflexivity. Qed.
Lemma stage_nth f v val i j : i <= length v -> nth j (stage f v val i) None = if Nat.ltb j i then f (nth j v None) (val j) else nth j v None.
Proof.
  intros L. unfold stage. destruct (Nat.ltb_spec j i) as [H|H].
  - rewrite app_nth1 by (rewrite map_length, seq_length; lia). rewrite (nth_indep _ None (f (nth 0 v None) (val 0))) by (rewrite map_length, seq_length; lia).
    rewrite (map_nth (fun j => f (nth j v None) (val j)) _ 0), seq_nth by lia. reflexivity.
  - rewrite app_nth2 by (rewrite map_length, seq_length; lia). rewrite map_length, seq_length.
    rewrite nth_skip. f_equal. lia.
Qed.
Lemma stage_length f v val i : i <= length v -> length (stage f v val i) = length v.
Proof. intros L. unfold stage. rewrite app_length, map_length, seq_length, skipn_length. lia. Qed.
Lemma list_nth_eq {A} (a b : list A) d : length a = length b -> (forall i, i < length a -> nth i a d = nth i b d) -> a = b.
Proof. intros. apply (nth_ext a b d d); auto. Qed.

Lemma store1_ok f m x w i y : nth_error m x = Some (Some (OVec w)) -> i < length w -> exists m' w', store1 f m x i y = Ok m' /\ is_set m x w' m' /\ length w' = length w /\
  forall j, nth j w' None = if Nat.eqb j i then f (nth j w None) y else nth j w None.
Proof.
  intros H L. unfold store1. rewrite (look_ok _ _ _ H). cbn [obind].
  destruct (vupd_lt i (fun old => f old y) w L) as (w' & U & ->). cbn [obind].
  destruct (vupd_lt x (fun _ => Some (OVec w')) m (nth_lt _ _ _ H)) as (m' & U' & ->). exists m', w'. split; auto.
  pose proof (upd_length _ _ _ _ U) as Lw. split; [split|split; auto].
  - rewrite (upd_nth_same _ _ _ _ U'), H. reflexivity.
  - intros l N. apply (upd_nth_other x l _ _ _ U'). auto.
  - intros j. destruct (Nat.eqb_spec j i) as [->|N].
    + pose proof (upd_nth_same _ _ _ _ U) as E. destruct (nth_error w i) as [o|] eqn:Eo; [|apply nth_error_None in Eo; lia]. cbn [option_map] in E.
      rewrite (nth_error_nth _ _ None E), (nth_error_nth _ _ None Eo). reflexivity.
    + pose proof (upd_nth_other i j _ _ _ U ltac:(auto)) as E. destruct (nth_error w j) as [o|] eqn:Eo.
      * rewrite (nth_error_nth _ _ None E), (nth_error_nth _ _ None Eo). reflexivity.
      * rewrite !nth_overflow; auto; apply nth_error_None; auto.
Qed.
Lemma is_set_trans m x w m' w' m2 : is_set m x w m' -> is_set m' x w' m2 -> is_set m x w' m2.
Proof. intros (A & B) (C & D). split; auto. intros l N. rewrite D by auto. auto. Qed.
Lemma inplace_ok f rd x m v val : nth_error m x = Some (Some (OVec v)) -> (forall i m', i < length v -> is_set m x (stage f v val i) m' -> rd m' i = Ok (val i)) ->
  forall k i m', i + k = length v -> is_set m x (stage f v val i) m' -> exists m2, inplace f rd x (seq i k) m' = Ok m2 /\ is_set m x (stage f v val (length v)) m2.
Proof.
  intros Hx Rd. induction k as [|k IH]; intros i m' E St.
  - exists m'. cbn [seq inplace]. rewrite <- E, Nat.add_0_r. auto.
  - cbn [seq inplace]. rewrite (Rd i m') by (auto; lia). cbn [obind].
    destruct (store1_ok f m' x (stage f v val i) i (val i) (proj1 St)) as (m1 & w1 & -> & S1 & L1 & N1); [rewrite stage_length; lia|]. cbn [obind].
    apply (IH (S i) m1); [lia|]. assert (w1 = stage f v val (S i)) as <-; [|exact (is_set_trans m x _ m' w1 m1 St S1)].
    apply (nth_ext _ _ None None); [rewrite L1, !stage_length; lia|]. intros j _. rewrite N1, !stage_nth by lia.
    destruct (Nat.eqb_spec j i) as [->|N]; [rewrite Nat.ltb_irrefl; destruct (Nat.ltb_spec i (S i)); [reflexivity|lia]|].
    destruct (Nat.ltb_spec j i), (Nat.ltb_spec j (S i)); auto; lia.
Qed.
Lemma inplace_all f rd x m v val : nth_error m x = Some (Some (OVec v)) -> (forall i m', i < length v -> is_set m x (stage f v val i) m' -> rd m' i = Ok (val i)) ->
  exists m2, inplace f rd x (seq 0 (length v)) m = Ok m2 /\ is_set m x (map (fun j => f (nth j v None) (val j)) (seq 0 (length v))) m2.
Proof.
  intros H Rd. destruct (inplace_ok f rd x m v val H Rd (length v) 0 m) as (m2 & E & S); auto.
  - split; auto.
  - exists m2. split; auto. unfold stage in S. rewrite skipn_all, app_nil_r in S. exact S.
Qed.
(** The names after a change of [x]. *)
Definition setn (g : names) (x : nat) (w : list (option R)) : names := mkNames (fun y => if Nat.eqb y x then w else vals g y) (inds g).
Lemma setn_other g x w y : y <> x -> vals (setn g x w) y = vals g y.
Proof. cbn. intros N. apply Nat.eqb_neq in N. now rewrite N. Qed.
Lemma setn_same g x w : vals (setn g x w) x = w.
Proof. cbn. now rewrite Nat.eqb_refl. Qed.
Lemma rep_change m g n x w m' e : nth_error m x = Some (Some (OVec (vals g x))) -> length w = length (vals g x) -> is_set m x w m' -> straight x e -> forall l, rep m g n e l -> rep m' (setn g x w) n e l.
Proof.
  intros Hx Lw (Sx & So).
  assert (Keep : forall l o, nth_error m l = Some (Some o) -> match o with OVec _ => False | _ => True end -> nth_error m' l = Some (Some o)).
  { intros l o H T. rewrite So; auto. intros ->. rewrite Hx in H. injection H as <-. auto. }
  assert (Num : forall s r, match s with Lit _ => True | Elem y _ => y <> x end -> nrep m g s r -> nrep m' (setn g x w) s r).
  { intros [v|y i] r; cbn [nrep].
    - intros _ (k & -> & H). exists k. split; auto.
    - intros N (-> & H & I). rewrite setn_other by auto. rewrite So by auto. auto. }
  induction e as [y | o a IHa b IHb | o s b IHb | o a IHa s | o a IHa | y p]; cbn [straight rep]; intros T l H.
  - destruct H as (-> & H & I). split; auto. unfold point_at. destruct (Nat.eq_dec y x) as [->|N].
    + rewrite setn_same. split; auto. lia.
    + rewrite setn_other by auto. rewrite So by auto. auto.
  - destruct H as (la & lb & H & I & J & K & M). destruct T. exists la, lb. repeat split; auto; now apply (Keep _ _ H).
  - destruct H as (r & lb & H & I & J & K). destruct T. exists r, lb. repeat split; auto; now apply (Keep _ _ H).
  - destruct H as (la & r & H & I & J & K). destruct T. exists la, r. repeat split; auto; now apply (Keep _ _ H).
  - destruct H as (la & H & I & J). exists la. repeat split; auto; now apply (Keep _ _ H).
  - destruct H as (H & I & J & K & M & N & O). rewrite setn_other by auto. rewrite (So y) by auto. repeat split; auto.
Qed.
Lemma value_change g x w e i : straight x e -> nth i w None = nth i (vals g x) None -> value (setn g x w) e i = value g e i.
Proof.
  intros T E. assert (Num : forall s, match s with Lit _ => True | Elem y _ => y <> x end -> nvalue (setn g x w) s = nvalue g s).
  { intros [v|y j] N; auto. cbn [nvalue]. now rewrite setn_other. }
  induction e as [y | o a IHa b IHb | o s b IHb | o a IHa s | o a IHa | y p]; cbn [straight value] in *.
  - destruct (Nat.eq_dec y x) as [->|N]; [rewrite setn_same; auto | now rewrite setn_other].
  - destruct T. now rewrite IHa, IHb.
  - destruct T. now rewrite Num, IHb.
  - destruct T. now rewrite IHa, Num.
  - now rewrite IHa.
  - now rewrite setn_other.
Qed.
