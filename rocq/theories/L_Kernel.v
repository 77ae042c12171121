(** Lemmas about the kernel model. *)
From Coq Require Import ZArith Bool List Lia Reals Lra Psatz.
From Verif Require Import Base ListLib M_Data M_Point L_Vec Loop M_Kernel S_Kernel.
Import ListNotations.
Local Open Scope R_scope.

Lemma rect_pt d i : rect d -> (i < size d)%nat -> length (p_x (pt d i)) = dim d.
Proof. intros H Hi. apply H. apply nth_In. auto. Qed.
Lemma vget_pt d i : (i < size d)%nat -> vget (d_points d) i = Ok (pt d i).
Proof. intro H. apply vget_nth. auto. Qed.

Lemma osum_vget n x y (h : R -> R -> R) : (n <= length x)%nat -> (n <= length y)%nat ->
  osum n (fun i => let* a := vget x i in let* b := vget y i in Ok (h a b)) = Ok (sumn n (fun i => h (nz x i) (nz y i))).
Proof. intros Hx Hy. apply osum_ok. intros i Hi. rewrite !vget_nz by lia. reflexivity. Qed.

(** The function a Custom kernel uses. *)
Definition used (k : kernel) (f : option custom) (g : custom) : Prop :=
  k_type k = Custom -> f = Some g \/ (f = None /\ k_func k = Some g).
Lemma kfun_ok pw k p q n f g : used k f g -> (n <= length (p_x p))%nat -> (n <= length (p_x q))%nat ->
  kfun pw k p q n f = Ok (kval pw (k_type k) (k_param k) g n p q).
Proof.
  intros U Hp Hq. unfold kfun, kval, inner, dist2. rewrite (osum_vget n _ _ (fun a b => a * b)) by auto. unfold used in U. destruct (k_type k); cbn [obind]; auto.
  - rewrite (osum_vget n _ _ (fun a b => (a - b) * (a - b))) by auto. cbn [obind]. do 2 f_equal. ring.
  - destruct (U eq_refl) as [->|[-> ->]]; auto.
Qed.

Lemma fill_mirror (v : nat -> nat -> outcome R) n len (f : nat -> nat -> R) m0 :
  shape n len m0 -> (forall i, (i < n)%nat -> (n <= len i)%nat) ->
  (forall i j, (i <= j < n)%nat -> v i j = Ok (f i j)) ->
  exists m, ofold (fun m ij => let* x := v (fst ij) (snd ij) in let* m1 := mset m (fst ij) (snd ij) x in mset m1 (snd ij) (fst ij) x) (upper n) m0 = Ok m /\
    shape n len m /\ (forall i j, (i <= j < n)%nat -> mget m i j = Ok (f i j) /\ mget m j i = Ok (f i j)).
Proof.
  intros S0 Hl Hv. destruct (fill_upper (fun m ij => let* x := v (fst ij) (snd ij) in let* m1 := mset m (fst ij) (snd ij) x in mset m1 (snd ij) (fst ij) x)
    n len f f m0 S0 Hl) as (m & E & Sm & G & _).
  - intros m i j H. cbn [fst snd]. rewrite Hv by auto. reflexivity.
  - exists m. split; auto. split; auto. intros i j H. rewrite !G by lia. split; f_equal.
    + destruct (Nat.ltb_spec i j); auto. assert (i = j) as -> by lia. auto.
    + destruct (Nat.ltb_spec j i); auto. lia.
Qed.
Lemma shape_repeat {A} (a : A) n : shape n (fun _ => n) (repeat (repeat a n) n).
Proof. split; [apply repeat_length|]. intros i r H. apply nth_error_In, repeat_spec in H. subst r. apply repeat_length. Qed.

Lemma ofold_ext {S A} (f g : S -> A -> outcome S) l : (forall s x, In x l -> f s x = g s x) -> forall s, ofold f l s = ofold g l s.
Proof. induction l as [|x r IH]; intros H s; cbn; auto. rewrite H by (left; auto). destruct (g s x); cbn; auto. apply IH. intros; apply H; right; auto. Qed.

Lemma compute_ok pw k d f g : k_computed k = false -> rect d -> (k_type k = Custom -> f = Some g) ->
  exists k', compute pw k d f = Ok k' /\ k_type k' = k_type k /\ k_param k' = k_param k /\ k_computed k' = true /\
    k_H k' = k_H k /\ k_Hwd k' = k_Hwd k /\
    mirrors (size d) (fun i j => kval pw (k_type k) (k_param k) g (dim d) (pt d i) (pt d j)) (k_K k').
Proof.
  intros HC HR HF. unfold compute. rewrite HC.
  set (k1 := mkKernel _ _ _ _ _ _ _).
  destruct (fill_mirror (fun i j => let* p := vget (d_points d) i in let* q := vget (d_points d) j in kfun pw k1 p q (dim d) f) (size d) (fun _ => size d)
    (fun i j => kval pw (k_type k) (k_param k) g (dim d) (pt d i) (pt d j)) (repeat (repeat 0 (size d)) (size d))) as (m & E & Sm & G).
  - apply shape_repeat.
  - lia.
  - intros i j H. rewrite !vget_pt by lia. cbn [obind]. rewrite (kfun_ok pw k1 _ _ _ f g); auto; try (rewrite rect_pt; auto; lia).
    intro T. left. apply HF. exact T.
  - erewrite ofold_ext; [rewrite E|].
    + cbn [obind]. eexists. split; [reflexivity|]. cbn. repeat (split; auto).
    + intros s [i j] Hx. cbn [fst snd]. apply upper_In in Hx. rewrite !vget_pt by lia. reflexivity.
Qed.

(** ** Symmetry and semidefiniteness *)
Lemma inner_sym n x y : inner n x y = inner n y x.
Proof. apply sumn_ext. intros. ring. Qed.
Lemma dist2_sym n x y : dist2 n x y = dist2 n y x.
Proof. apply sumn_ext. intros. ring. Qed.
Lemma kval_sym pw t par g n p q : (t = Custom -> g p q par = g q p par) -> kval pw t par g n p q = kval pw t par g n q p.
Proof. intro H. unfold kval. destruct t; rewrite ?(inner_sym n (p_x p)), ?(dist2_sym n (p_x p)); auto. Qed.

Lemma mirrors_symmetric n f m : mirrors n f m -> symmetric n m.
Proof. intros [_ H] i j Hi Hj. destruct (le_lt_dec i j) as [L|L]; [destruct (H i j) as [-> ->]|destruct (H j i) as [-> ->]]; auto; lia. Qed.
Lemma mirrors_table n f m : (forall i j, (i < n)%nat -> (j < n)%nat -> f i j = f j i) -> mirrors n f m -> m = table n f.
Proof.
  intros Hf [S H]. apply table_ext; auto. intros i j Hi Hj. destruct (le_lt_dec i j) as [L|L]; [apply H; lia|]. rewrite Hf by auto. apply H. lia.
Qed.

Lemma psd_ext n f g : (forall i j, (i < n)%nat -> (j < n)%nat -> f i j = g i j) -> psd n f -> psd n g.
Proof.
  intros H P c. rewrite (sumn_ext _ _ (fun i => sumn n (fun j => c i * c j * f i j))); [apply P|].
  intros i Hi. apply sumn_ext. intros j Hj. rewrite H; auto.
Qed.
Lemma psd_one n : psd n (fun _ _ => 1).
Proof.
  intro c. rewrite (sumn_ext _ _ (fun i => sumn n c * c i)).
  - rewrite sumn_scal. apply Rle_0_sqr.
  - intros i Hi. rewrite (sumn_ext _ _ (fun j => c i * c j)) by (intros; ring). rewrite sumn_scal. ring.
Qed.
Lemma sumn_scal_r n c f : sumn n (fun i => f i * c) = sumn n f * c.
Proof. rewrite (sumn_ext _ _ (fun i => c * f i)) by (intros; ring). rewrite sumn_scal. ring. Qed.

(** The entry-wise product with a Gram matrix keeps semidefiniteness. *)
Lemma psd_gram n m f (x : nat -> vec) : psd n f -> psd n (fun i j => f i j * inner m (x i) (x j)).
Proof.
  intros P c. rewrite (sumn_ext n _ (fun i => sumn m (fun a => sumn n (fun j => (c i * nz (x i) a) * (c j * nz (x j) a) * f i j)))).
  - rewrite sumn_swap. apply sumn_nonneg. intros a _. apply P.
  - intros i Hi. rewrite (sumn_swap m n (fun a j => c i * nz (x i) a * (c j * nz (x j) a) * f i j)). apply sumn_ext. intros j Hj. unfold inner.
    transitivity (sumn m (fun a => c i * c j * f i j * (nz (x i) a * nz (x j) a))); [rewrite sumn_scal; ring|apply sumn_ext; intros; ring].
Qed.
Lemma psd_inner_pow n m (x : nat -> vec) e : psd n (fun i j => inner m (x i) (x j) ^ e).
Proof.
  induction e as [|e IH]; cbn [pow]; [apply psd_one|].
  apply (psd_ext n (fun i j => inner m (x i) (x j) ^ e * inner m (x i) (x j))); [intros; ring|]. apply psd_gram. auto.
Qed.
Lemma psd_scal n k f : 0 <= k -> psd n f -> psd n (fun i j => k * f i j).
Proof.
  intros Hk P c. rewrite (sumn_ext n _ (fun i => k * sumn n (fun j => c i * c j * f i j))).
  - rewrite sumn_scal. apply Rmult_le_pos; auto.
  - intros i Hi. rewrite <- sumn_scal. apply sumn_ext. intros. ring.
Qed.
Lemma psd_add n f g : psd n f -> psd n g -> psd n (fun i j => f i j + g i j).
Proof.
  intros P Q c. rewrite (sumn_ext n _ (fun i => sumn n (fun j => c i * c j * f i j) + sumn n (fun j => c i * c j * g i j))).
  - rewrite sumn_add. specialize (P c). specialize (Q c). lra.
  - intros i Hi. rewrite <- sumn_add. apply sumn_ext. intros. ring.
Qed.
Lemma psd_diag n f (e : nat -> R) : psd n f -> psd n (fun i j => e i * e j * f i j).
Proof.
  intros P c. rewrite (sumn_ext n _ (fun i => sumn n (fun j => (c i * e i) * (c j * e j) * f i j))); [apply P|].
  intros i Hi. apply sumn_ext. intros. ring.
Qed.

(** Limits of semidefinite matrices. *)
Lemma cv_sumn n (u : nat -> nat -> R) (l : nat -> R) : (forall i, Un_cv (fun k => u k i) (l i)) -> Un_cv (fun k => sumn n (u k)) (sumn n l).
Proof.
  intro H. induction n as [|n IH]; cbn [sumn].
  - intros e He. exists O. intros. unfold R_dist. rewrite Rminus_diag_eq, Rabs_R0; auto.
  - apply (CV_plus (fun k => sumn n (u k)) (fun k => u k n)); auto.
Qed.
Lemma cv_scal c (u : nat -> R) l : Un_cv u l -> Un_cv (fun k => c * u k) (c * l).
Proof.
  intro H. apply (CV_mult (fun _ => c) u); auto. intros e He. exists O. intros. unfold R_dist. rewrite Rminus_diag_eq, Rabs_R0; auto.
Qed.
Lemma cv_nonneg (u : nat -> R) l : (forall k, 0 <= u k) -> Un_cv u l -> 0 <= l.
Proof.
  intros H C. destruct (Rle_lt_dec 0 l) as [|L]; auto. exfalso. destruct (C (- l) ltac:(lra)) as [N HN]. specialize (HN N ltac:(auto)). specialize (H N).
  unfold R_dist in HN. rewrite Rabs_pos_eq in HN by lra. lra.
Qed.
Lemma psd_limit n (u : nat -> nat -> nat -> R) f : (forall k, psd n (u k)) -> (forall i j, Un_cv (fun k => u k i j) (f i j)) -> psd n f.
Proof.
  intros P C c. apply (cv_nonneg (fun k => sumn n (fun i => sumn n (fun j => c i * c j * u k i j)))); [intro k; apply P|].
  apply cv_sumn. intro i. apply cv_sumn. intro j. apply cv_scal. auto.
Qed.
Lemma exp_cv x : Un_cv (fun k => sum_f_R0 (fun i => / INR (fact i) * x ^ i) k) (exp x).
Proof. unfold exp. destruct (exist_exp x) as [l Hl]. exact Hl. Qed.
Lemma psd_exp n m (x : nat -> vec) a : 0 <= a -> psd n (fun i j => exp (a * inner m (x i) (x j))).
Proof.
  intro Ha. apply (psd_limit n (fun k i j => sum_f_R0 (fun e => / INR (fact e) * (a * inner m (x i) (x j)) ^ e) k)); [|intros; apply exp_cv].
  assert (forall e, psd n (fun i j => / INR (fact e) * (a * inner m (x i) (x j)) ^ e)) as Q.
  { intro e. apply psd_scal; [left; apply Rinv_0_lt_compat, INR_fact_lt_0|].
    apply (psd_ext n (fun i j => a ^ e * inner m (x i) (x j) ^ e)); [intros; rewrite Rpow_mult_distr; auto|]. apply psd_scal; [apply pow_le; auto|apply psd_inner_pow]. }
  induction k as [|k IH]; cbn [sum_f_R0]; [apply (Q O)|]. apply psd_add; auto.
Qed.
Lemma dist2_expand n x y : dist2 n x y = inner n x x + inner n y y - 2 * inner n x y.
Proof. unfold dist2, inner. rewrite <- sumn_scal, <- sumn_add, <- sumn_sub. apply sumn_ext. intros. ring. Qed.
Lemma psd_gauss n m (x : nat -> vec) a : 0 <= a -> psd n (fun i j => exp (- (a * dist2 m (x i) (x j)))).
Proof.
  intro Ha. apply (psd_ext n (fun i j => exp (- (a * inner m (x i) (x i))) * exp (- (a * inner m (x j) (x j))) * exp (2 * a * inner m (x i) (x j)))).
  - intros i j _ _. rewrite <- !exp_plus. f_equal. rewrite dist2_expand. ring.
  - apply psd_diag. apply psd_exp. lra.
Qed.

(** ** H matrices *)
Lemma vresize_shape n (m : list (list R)) : m = [] \/ shape n (fun _ => n) m -> shape n (fun _ => n) (vresize (repeat 0 n) n m).
Proof.
  intros [->|[L H]].
  - unfold vresize. rewrite firstn_nil. cbn [app length]. rewrite Nat.sub_0_r. apply shape_repeat.
  - unfold vresize. rewrite firstn_all2 by lia. rewrite L, Nat.sub_diag. cbn [repeat]. rewrite app_nil_r. split; auto.
Qed.
Lemma generateH_ok pw k d g : rect d -> used k None g -> k_H k = [] \/ shape (size d) (fun _ => size d) (k_H k) ->
  exists k', generateH pw k d = Ok k' /\ k_K k' = k_K k /\ k_type k' = k_type k /\ k_param k' = k_param k /\ k_computed k' = k_computed k /\
    mirrors (size d) (fun i j => kval pw (k_type k) (k_param k) g (dim d) (pt d i) (pt d j) * IZR (p_y (pt d i)) * IZR (p_y (pt d j))) (k_H k').
Proof.
  intros HR HU HH. unfold generateH.
  destruct (fill_mirror (fun i j => let* p := vget (d_points d) i in let* q := vget (d_points d) j in let* v := kfun pw k p q (dim d) None in Ok (v * IZR (p_y p) * IZR (p_y q)))
     (size d) (fun _ => size d)
    (fun i j => kval pw (k_type k) (k_param k) g (dim d) (pt d i) (pt d j) * IZR (p_y (pt d i)) * IZR (p_y (pt d j))) (vresize (repeat 0 (size d)) (size d) (k_H k))) as (m & E & Sm & G).
  - apply vresize_shape. auto.
  - lia.
  - intros i j H. rewrite !vget_pt by lia. cbn [obind]. rewrite (kfun_ok pw k _ _ _ None g); auto; try (rewrite rect_pt; auto; lia).
  - erewrite ofold_ext; [rewrite E|].
    + cbn [obind]. eexists. split; [reflexivity|]. cbn. repeat (split; auto).
    + intros s [i j] Hx. cbn [fst snd]. apply upper_In in Hx. rewrite !vget_pt by lia. cbn [obind]. destruct (kfun pw k (pt d i) (pt d j) (dim d) None); reflexivity.
Qed.

Lemma nth_firstn_lt {A} (d : A) n : forall l i, (i < n)%nat -> nth i (firstn n l) d = nth i l d.
Proof. induction n as [|n IH]; intros l i H; [lia|]. destruct l as [|x l]; cbn; auto. destruct i; auto. apply IH. lia. Qed.
Lemma nth_skipn' {A} (d : A) n : forall l i, nth i (skipn n l) d = nth (n + i) l d.
Proof. induction n as [|n IH]; intros l i; auto. destruct l as [|x l]; cbn [skipn]; [destruct i; auto|]. apply IH. Qed.
Definition drop_feature (j : nat) (p : point R) : point R := mkPoint (remove_at j (p_x p)) (p_y p) (p_id p) (p_alpha p).
Lemma sumn_skip (h : nat -> R) j : forall m, (j <= m)%nat ->
  sumn (S m) (fun i => if Nat.eqb i j then 0 else h i) = sumn m (fun i => h (if Nat.ltb i j then i else S i)).
Proof.
  induction m as [|m IH]; intro L.
  - assert (j = O) as -> by lia. cbn. ring.
  - destruct (Nat.eq_dec j (S m)) as [->|N].
    + cbn [sumn]. rewrite Nat.eqb_refl.
      rewrite (sumn_ext m _ h) by (intros i Hi; destruct (Nat.eqb_spec i (S m)); [lia|auto]).
      rewrite (sumn_ext m (fun i => h (if Nat.ltb i (S m) then i else S i)) h) by (intros i Hi; destruct (Nat.ltb_spec i (S m)); [auto|lia]).
      destruct (Nat.eqb_spec m (S m)); [lia|]. destruct (Nat.ltb_spec m (S m)); [|lia]. ring.
    + cbn [sumn] in *. rewrite IH by lia. destruct (Nat.eqb_spec (S m) j); [lia|]. destruct (Nat.ltb_spec m j); [lia|]. auto.
Qed.
Lemma nz_remove_at j x i : (j < length x)%nat -> nz (remove_at j x) i = nz x (if Nat.ltb i j then i else S i).
Proof.
  intro Hj. unfold nz, remove_at. destruct (Nat.ltb_spec i j).
  - rewrite app_nth1 by (rewrite firstn_length; lia). rewrite nth_firstn_lt by auto. auto.
  - rewrite app_nth2 by (rewrite firstn_length; lia). rewrite firstn_length, Nat.min_l by lia. rewrite nth_skipn'. f_equal. lia.
Qed.
Lemma pat_nz p i : (i < length (p_x p))%nat -> pat p i = Ok (nz (p_x p) i).
Proof. intro H. unfold pat, nz. rewrite (nth_error_nth' _ 0) by auto. auto. Qed.
Lemma osum_skip n p q (j : nat) (h : R -> R -> R) : (j < n)%nat -> length (p_x p) = n -> length (p_x q) = n ->
  osum n (fun i => if Z.eqb (Z.of_nat i) (Z.of_nat j) then Ok 0 else let* a := pat p i in let* b := pat q i in Ok (h a b)) =
  Ok (sumn (n - 1) (fun i => h (nz (p_x (drop_feature j p)) i) (nz (p_x (drop_feature j q)) i))).
Proof.
  intros Hj Hp Hq. rewrite (osum_ok n _ (fun i => if Nat.eqb i j then 0 else h (nz (p_x p) i) (nz (p_x q) i))).
  - f_equal. replace n with (S (n - 1)) at 1 by lia. rewrite sumn_skip by lia. apply sumn_ext. intros i Hi. cbn [p_x drop_feature]. rewrite !nz_remove_at by lia. auto.
  - intros i Hi. destruct (Nat.eqb_spec i j) as [->|N].
    + rewrite Z.eqb_refl. auto.
    + destruct (Z.eqb_spec (Z.of_nat i) (Z.of_nat j)); [lia|]. rewrite !pat_nz by lia. reflexivity.
Qed.
(** The value functionWithoutDim computes: on the points without the feature; the polynomial adds 1. *)
Definition kval1 (pw : R -> R -> R) (t : ktype) (par : R) (n : nat) (p q : point R) : R :=
  match t with
  | Polynomial => if Rlt_dec 1 par then pw (inner n (p_x p) (p_x q) + 1) par else inner n (p_x p) (p_x q)
  | _ => kval pw t par (fun _ _ _ => 0) n p q
  end.
Lemma kfun_without_ok pw k p q j n : k_type k <> Custom -> (j < n)%nat -> length (p_x p) = n -> length (p_x q) = n ->
  kfun_without pw k p q (Z.of_nat j) n = Ok (kval1 pw (k_type k) (k_param k) (n - 1) (drop_feature j p) (drop_feature j q)).
Proof.
  intros NC Hj Hp Hq. unfold kfun_without, kval1, kval, inner, dist2.
  destruct (k_type k); try tauto; try rewrite (osum_skip n p q j (fun a b => a * b)) by auto; auto.
  rewrite (osum_skip n p q j (fun a b => (a - b) * (a - b))) by auto. cbn [obind]. do 2 f_equal. ring.
Qed.
Lemma generateHwd_ok pw k d j : rect d -> k_type k <> Custom -> (j < dim d)%nat ->
  let v a b := kval1 pw (k_type k) (k_param k) (dim d - 1) (drop_feature j (pt d a)) (drop_feature j (pt d b)) in
  exists k', generateHwd pw k d (Z.of_nat j) = Ok k' /\ k_K k' = k_K k /\ k_H k' = k_H k /\ shape (size d) (fun _ => size d) (k_Hwd k') /\
    (forall a b, (a < b < size d)%nat -> mget (k_Hwd k') a b = Ok (v a b)) /\
    (forall a b, (a <= b < size d)%nat -> mget (k_Hwd k') b a = Ok (v a b * IZR (p_y (pt d a)) * IZR (p_y (pt d b)))).
Proof.
  intros HR NC Hj v. unfold generateHwd.
  set (step := fun m (ij : nat * nat) => _).
  destruct (fill_upper step (size d) (fun _ => size d) v (fun a b => v a b * IZR (p_y (pt d a)) * IZR (p_y (pt d b))) (repeat (repeat 0 (size d)) (size d))
     (shape_repeat 0 (size d)) ltac:(auto)) as (m & E & Sm & G & _).
  - intros m a b H. unfold step. cbn [fst snd]. rewrite !vget_pt by lia. cbn [obind]. rewrite kfun_without_ok; auto; try (rewrite rect_pt; auto; lia).
  - rewrite E. cbn [obind]. eexists. split; [reflexivity|]. cbn [k_K k_H k_Hwd]. split; [auto|]. split; [auto|]. split; [auto|]. split; intros a b H; rewrite G by lia.
    + destruct (Nat.ltb_spec a b); [auto|lia].
    + destruct (Nat.ltb_spec b a); [lia|auto].
Qed.

(** ** Norms *)
Definition dualsum (n : nat) (d : data R) (K : nat -> nat -> R) : R :=
  sumn n (fun i => sumn n (fun j => p_alpha (pt d i) * IZR (p_y (pt d i)) * (p_alpha (pt d j) * IZR (p_y (pt d j))) * K i j)).
Lemma featureSpaceNorm_ok k d K : (forall p, In p (d_points d) -> 0 <= p_alpha p) ->
  (forall i j, (i < size d)%nat -> (j < size d)%nat -> mget (k_K k) i j = Ok (K i j)) ->
  featureSpaceNorm k d = Ok (sqrto (Some (dualsum (size d) d (fun i j => K j i)))).
Proof.
  intros HA HK. unfold featureSpaceNorm, dualsum.
  assert (forall i, (i < size d)%nat -> 0 <= p_alpha (pt d i)) as AP by (intros i Hi; apply HA, nth_In; auto).
  rewrite (osum_ok (size d) _ (fun i => sumn (size d) (fun j => p_alpha (pt d i) * IZR (p_y (pt d i)) * (p_alpha (pt d j) * IZR (p_y (pt d j))) * K j i))); [reflexivity|].
  intros i Hi. rewrite vget_pt by auto. cbn [obind]. destruct (Rlt_dec 0 (p_alpha (pt d i))) as [P|P].
  - rewrite (osum_ok (size d) _ (fun j => IZR (p_y (pt d j)) * p_alpha (pt d j) * K j i)).
    + cbn [obind]. f_equal. rewrite <- sumn_scal. apply sumn_ext. intros. ring.
    + intros j Hj. rewrite vget_pt by auto. cbn [obind]. destruct (Rlt_dec 0 (p_alpha (pt d j))) as [Q|Q].
      * rewrite HK by auto. reflexivity.
      * assert (p_alpha (pt d j) = 0) as -> by (specialize (AP j Hj); lra). f_equal. ring.
  - assert (p_alpha (pt d i) = 0) as -> by (specialize (AP i Hi); lra). rewrite sumn_zero; auto. intros. ring.
Qed.
(** The weight vector of the dual variables. *)
Definition wvec (d : data R) (a : nat) : R := sumn (size d) (fun i => p_alpha (pt d i) * IZR (p_y (pt d i)) * nz (p_x (pt d i)) a).
Lemma dualsum_inner d : dualsum (size d) d (fun i j => inner (dim d) (p_x (pt d j)) (p_x (pt d i))) = sumn (dim d) (fun a => wvec d a * wvec d a).
Proof.
  unfold dualsum. rewrite (sumn_ext (size d) _ (fun i => sumn (dim d) (fun a => p_alpha (pt d i) * IZR (p_y (pt d i)) * nz (p_x (pt d i)) a * wvec d a))).
  - rewrite sumn_swap. apply sumn_ext. intros a _. rewrite sumn_scal_r. reflexivity.
  - intros i Hi. unfold wvec. rewrite (sumn_ext (dim d) _ (fun a => sumn (size d) (fun j => p_alpha (pt d i) * IZR (p_y (pt d i)) * nz (p_x (pt d i)) a * (p_alpha (pt d j) * IZR (p_y (pt d j)) * nz (p_x (pt d j)) a)))).
    2:{ intros a _. rewrite sumn_scal. auto. }
    rewrite (sumn_swap (dim d) (size d)). apply sumn_ext. intros j Hj. unfold inner. rewrite <- sumn_scal. apply sumn_ext. intros. ring.
Qed.
