(** C135: the variance of a clustering. *)
From Coq Require Import ZArith List Lia Reals Lra Bool Permutation.
From Verif Require Import Base M_Data L_Vec Loop M_Kmeans S_Kmeans T_Kmeans M_KmVar S_KmVar.
Import ListNotations.
Local Open Scope R_scope.

Lemma sq_combine : forall D x m a, length x = D -> length m = D -> fold_left (fun s q => s + (fst q - snd q) * (fst q - snd q)) (combine x m) a = a + sqd D (nz x) (nz m).
Proof.
  induction D as [|D IH]; intros x m a Lx Lm; destruct x as [|u x], m as [|w m]; cbn in Lx, Lm; try discriminate; unfold sqd; [cbn; lra|].
  cbn [combine fold_left fst snd]. rewrite IH by lia. unfold sqd. rewrite sumn_S. change (nz (u :: x) 0) with u. change (nz (w :: m) 0) with w.
  change (fun i => (nz (u :: x) (S i) - nz (w :: m) (S i)) * (nz (u :: x) (S i) - nz (w :: m) (S i))) with (fun i => (nz x i - nz m i) * (nz x i - nz m i)). lra.
Qed.
Lemma sqd_ext D x y c e : (forall t, (t < D)%nat -> x t = y t) -> (forall t, (t < D)%nat -> c t = e t) -> sqd D x c = sqd D y e.
Proof. intros H K. apply sumn_ext. intros t L. rewrite H, K by exact L. reflexivity. Qed.
Lemma rsum_app l r : rsum (l ++ r) = rsum l + rsum r.
Proof. induction l as [|x l IH]; cbn; lra. Qed.
Lemma rsum_perm l r : Permutation l r -> rsum l = rsum r.
Proof. induction 1; cbn; lra. Qed.
Lemma coord_sum_rsum d cl t : coord_sum (map p_x (d_points d)) cl t = rsum (map (fun i => at_pos d i t) cl).
Proof. induction cl as [|i cl IH]; cbn; [reflexivity|]. rewrite IH. reflexivity. Qed.

Lemma members_ok d D m : dims_are d D -> length m = D -> forall cl a, (forall i, In i cl -> (0 <= i < Z.of_nat (length (d_points d)))%Z) ->
  ofold (var_member d (Some m)) cl (Some a) = Ok (Some (a + cost_at D d cl (nz m))).
Proof.
  intros HD Lm. induction cl as [|i cl IH]; intros a H; [cbn; f_equal; f_equal; lra|]. cbn [ofold]. unfold var_member at 1. assert (0 <= i < Z.of_nat (length (d_points d)))%Z as Hi by (apply H; left; reflexivity).
  replace (Z.ltb i 0) with false by (symmetry; apply Z.ltb_ge; lia). unfold vget. destruct (nth_error (d_points d) (Z.to_nat i)) as [p|] eqn:E; [|apply nth_error_None in E; lia]. cbn [obind].
  assert (length (p_x p) = D) as Lp by (apply HD; apply nth_error_In in E; exact E). rewrite (sq_combine D) by auto.
  rewrite IH by (intros k K; apply H; right; exact K). unfold cost_at. cbn [map rsum]. f_equal. f_equal.
  replace (sqd D (at_pos d i) (nz m)) with (sqd D (nz (p_x p)) (nz m)); [lra|]. apply sqd_ext; auto. intros t _. unfold at_pos. rewrite (nth_error_nth (map p_x (d_points d)) (Z.to_nat i) [] (map_nth_error p_x _ _ E)). reflexivity.
Qed.
Lemma cluster_ok d cl a : dims_are d (dim d) -> (forall i, In i cl -> (0 <= i < Z.of_nat (length (d_points d)))%Z) ->
  var_cluster d (Some a) cl = Ok (Some (a + cost_at (dim d) d cl (mean_at d cl))).
Proof.
  intros HD H. unfold var_cluster. destruct (add_points_ok d (dim d) cl HD H (repeat 0 (dim d)) (repeat_length _ _)) as (s & E & L & V). rewrite E. cbn [obind]. unfold center_div.
  destruct cl as [|i0 cl0]; [cbn; f_equal; f_equal; lra|]. set (cl := i0 :: cl0) in *. replace (Nat.eqb (length cl) 0) with false by reflexivity.
  rewrite (members_ok d (dim d)) by (auto; rewrite map_length; exact L). f_equal. f_equal. f_equal. unfold cost_at. f_equal. apply map_ext. intro i. apply sqd_ext; [auto|]. intros t Ht.
  unfold nz. rewrite (nth_indep _ 0 (0 / INR (length cl))) by (rewrite map_length, L; exact Ht). rewrite (map_nth (fun x => x / INR (length cl))). fold (nz s t). rewrite V by exact Ht. unfold mean_at. rewrite coord_sum_rsum.
  unfold nz. rewrite nth_repeat. rewrite Rplus_0_l. reflexivity.
Qed.
Lemma variance_ok d : dims_are d (dim d) -> forall clusters a, named d clusters -> ofold (var_cluster d) clusters (Some a) = Ok (Some (a + spread d clusters)).
Proof.
  intros HD. induction clusters as [|cl r IH]; intros a H; [cbn; f_equal; f_equal; lra|]. cbn [ofold]. rewrite (cluster_ok d cl a HD (fun i K => H cl i (or_introl eq_refl) K)). cbn [obind].
  rewrite (IH _ (fun c i K => H c i (or_intror K))). unfold spread. cbn [map rsum]. f_equal. f_equal. lra.
Qed.
(** C135: for clusters of positions of a dataset, the result is the sum over the clusters of the squared distances of the members to the mean. *)
Lemma c135_value : forall (d : data R) (clusters : list (list Z)), dims_are d (dim d) -> named d clusters -> clusters_variance d clusters = Ok (Some (spread d clusters)).
Proof. intros d clusters HD H. unfold clusters_variance. rewrite variance_ok by auto. rewrite Rplus_0_l. reflexivity. Qed.

Lemma cost_split D d cl c : cost_at D d cl c = sumn D (fun t => rsum (map (fun i => (at_pos d i t - c t) * (at_pos d i t - c t)) cl)).
Proof. unfold cost_at. induction cl as [|i cl IH]; cbn [map rsum]; [rewrite sumn_zero by reflexivity; reflexivity|]. rewrite IH. unfold sqd. rewrite <- sumn_add. reflexivity. Qed.
Lemma square_sum (f : Z -> R) c cl : rsum (map (fun i => (f i - c) * (f i - c)) cl) = rsum (map (fun i => f i * f i) cl) - 2 * c * rsum (map f cl) + INR (length cl) * (c * c).
Proof. induction cl as [|i cl IH]; [cbn; lra|]. cbn [map rsum length]. rewrite IH, S_INR. lra. Qed.
Lemma mean_least (f : Z -> R) c cl : rsum (map (fun i => (f i - rsum (map f cl) / INR (length cl)) * (f i - rsum (map f cl) / INR (length cl))) cl) <= rsum (map (fun i => (f i - c) * (f i - c)) cl).
Proof.
  rewrite !square_sum. destruct cl as [|i0 cl0]; [cbn; lra|]. set (cl := i0 :: cl0). assert (0 < INR (length cl)) as P by (apply lt_0_INR; cbn; lia). set (n := INR (length cl)) in *. set (s := rsum (map f cl)).
  assert (n * ((s / n) * (s / n)) = s * (s / n)) as Q by (field; lra). rewrite Q.
  assert (0 <= n * ((c - s / n) * (c - s / n))) as K by (apply Rmult_le_pos; [lra|apply Rle_0_sqr]).
  assert (n * ((c - s / n) * (c - s / n)) = n * (c * c) - 2 * c * s + s * (s / n)) as K' by (field; lra). lra.
Qed.
Lemma cost_least D d cl c : cost_at D d cl (mean_at d cl) <= cost_at D d cl c.
Proof. rewrite !cost_split. apply sumn_le. intros t _. apply (mean_least (fun i => at_pos d i t)). Qed.
(** C135: no other centres cost less, so the variance is a lower bound of the k-means cost of these clusters, for whatever centres. *)
Lemma c135_least : forall (d : data R) (clusters : list (list Z)) (cs : list (list R)) (v : R), dims_are d (dim d) -> named d clusters -> length cs = length clusters ->
  clusters_variance d clusters = Ok (Some v) -> v <= rsum (map (fun q => cost_at (dim d) d (fst q) (nz (snd q))) (combine clusters cs)).
Proof.
  intros d clusters cs v HD H L E. rewrite c135_value in E by auto. injection E as <-. clear H. unfold spread. revert cs L. induction clusters as [|cl r IH]; intros [|c cs] L; cbn in L; try discriminate; [cbn; lra|].
  cbn [map combine rsum fst snd]. specialize (IH cs ltac:(lia)). pose proof (cost_least (dim d) d cl (nz c)). lra.
Qed.
(** C135: splitting a cluster never raises the variance. *)
Lemma c135_split : forall (d : data R) (a b : list Z) (r : list (list Z)) (v w : R), dims_are d (dim d) -> named d ((a ++ b) :: r) ->
  clusters_variance d ((a ++ b) :: r) = Ok (Some v) -> clusters_variance d (a :: b :: r) = Ok (Some w) -> w <= v.
Proof.
  intros d a b r v w HD H Ev Ew. rewrite c135_value in Ev by auto. rewrite c135_value in Ew.
  - injection Ev as <-. injection Ew as <-. unfold spread. cbn [map rsum]. pose proof (cost_least (dim d) d a (mean_at d (a ++ b))). pose proof (cost_least (dim d) d b (mean_at d (a ++ b))).
    assert (cost_at (dim d) d (a ++ b) (mean_at d (a ++ b)) = cost_at (dim d) d a (mean_at d (a ++ b)) + cost_at (dim d) d b (mean_at d (a ++ b))) as S by (unfold cost_at at 1; rewrite map_app, rsum_app; reflexivity). lra.
  - exact HD.
  - intros cl i [<-|[<-|K]] I; [exact (H (a ++ b) i (or_introl eq_refl) (in_or_app _ _ _ (or_introl I)))|exact (H (a ++ b) i (or_introl eq_refl) (in_or_app _ _ _ (or_intror I)))|exact (H cl i (or_intror K) I)].
Qed.
(** C135: neither the order of the clusters nor that of their members matters, and empty clusters count nothing. *)
Lemma mean_perm d a b t : Permutation a b -> mean_at d a t = mean_at d b t.
Proof. intro P. unfold mean_at. rewrite (Permutation_length P). f_equal. apply rsum_perm, Permutation_map, P. Qed.
Lemma cost_perm D d a b : Permutation a b -> cost_at D d a (mean_at d a) = cost_at D d b (mean_at d b).
Proof. intro P. transitivity (cost_at D d b (mean_at d a)); [apply rsum_perm, Permutation_map, P|]. unfold cost_at. f_equal. apply map_ext. intro i. apply sqd_ext; [auto|]. intros t _. apply mean_perm, P. Qed.
Lemma c135_order : forall (d : data R) (a b : list (list Z)), dims_are d (dim d) -> named d a -> Permutation a b -> clusters_variance d b = clusters_variance d a.
Proof.
  intros d a b HD H P. rewrite !c135_value; auto; [f_equal; f_equal; apply rsum_perm, Permutation_map, Permutation_sym, P|]. intros cl i K. refine (H cl i _). apply Permutation_in with b; [apply Permutation_sym, P|exact K].
Qed.
Lemma c135_members : forall (d : data R) (a b : list (list Z)), dims_are d (dim d) -> named d a -> Forall2 (@Permutation Z) a b -> clusters_variance d b = clusters_variance d a.
Proof.
  intros d a b HD H P. assert (named d b) as H'.
  { clear HD. induction P as [|x y l l' Q P IH]; [exact H|]. intros cl i [<-|K] I; [refine (H x i (or_introl eq_refl) _); apply Permutation_in with y; [apply Permutation_sym, Q|exact I]|apply (IH (fun c j J => H c j (or_intror J)) cl i K I)]. }
  rewrite !c135_value; auto. f_equal. f_equal. unfold spread. clear H H'. induction P as [|x y l l' Q P IH]; [reflexivity|]. cbn [map rsum]. rewrite IH. f_equal. symmetry. apply cost_perm, Q.
Qed.
Lemma c135_empty : forall (d : data R) (a : list (list Z)) (k : nat), dims_are d (dim d) -> named d a -> clusters_variance d (a ++ repeat [] k) = clusters_variance d a.
Proof.
  intros d a k HD H. rewrite !c135_value; auto.
  - f_equal. f_equal. unfold spread. rewrite map_app, rsum_app. enough (rsum (map (fun cl => cost_at (dim d) d cl (mean_at d cl)) (repeat [] k)) = 0) by lra. induction k as [|k IH]; cbn; [reflexivity|]. cbn in IH. rewrite IH. lra.
  - intros cl i K I. apply in_app_or in K. destruct K as [K|K]; [exact (H cl i K I)|]. apply repeat_spec in K. subst cl. destruct I.
Qed.
Lemma rsum_nonneg l : (forall x, In x l -> 0 <= x) -> 0 <= rsum l.
Proof. induction l as [|x l IH]; intro H; cbn; [lra|]. specialize (IH (fun y K => H y (or_intror K))). specialize (H x (or_introl eq_refl)). lra. Qed.
Lemma rsum_zero l : (forall x, In x l -> 0 <= x) -> rsum l = 0 -> forall x, In x l -> x = 0.
Proof.
  induction l as [|y l IH]; intros H E x K; [destruct K|]. cbn in E. pose proof (rsum_nonneg l (fun z Z => H z (or_intror Z))) as N. pose proof (H y (or_introl eq_refl)) as N'.
  destruct K as [<-|K]; [lra|]. apply IH; auto; [intros z Z; apply H; right; exact Z|lra].
Qed.
Lemma sqd_nonneg D x c : 0 <= sqd D x c.
Proof. apply sumn_nonneg. intros t _. apply Rle_0_sqr. Qed.
Lemma cost_nonneg D d cl c : 0 <= cost_at D d cl c.
Proof. apply rsum_nonneg. intros x K. apply in_map_iff in K. destruct K as (i & <- & _). apply sqd_nonneg. Qed.
(** C135: it is never negative, and 0 exactly when the members of each cluster have the same coordinates. *)
Lemma c135_zero : forall (d : data R) (clusters : list (list Z)) (v : R), dims_are d (dim d) -> named d clusters -> clusters_variance d clusters = Ok (Some v) ->
  0 <= v /\ (v = 0 <-> forall cl i j t, In cl clusters -> In i cl -> In j cl -> (t < dim d)%nat -> at_pos d i t = at_pos d j t).
Proof.
  intros d clusters v HD H E. rewrite c135_value in E by auto. injection E as <-.
  assert (forall x, In x (map (fun cl => cost_at (dim d) d cl (mean_at d cl)) clusters) -> 0 <= x) as N by (intros x K; apply in_map_iff in K; destruct K as (cl & <- & _); apply cost_nonneg).
  split; [apply rsum_nonneg, N|]. split.
  - intros Z cl i j t Kc Ki Kj Ht. assert (cost_at (dim d) d cl (mean_at d cl) = 0) as C by (apply (rsum_zero _ N Z); apply in_map_iff; exists cl; auto).
    assert (forall k, In k cl -> at_pos d k t = mean_at d cl t) as M.
    { intros k Kk. assert (sqd (dim d) (at_pos d k) (mean_at d cl) = 0) as Q.
      { refine (rsum_zero _ _ C _ _); [intros x X; apply in_map_iff in X; destruct X as (q & <- & _); apply sqd_nonneg|apply in_map_iff; exists k; auto]. }
      pose proof (sumn_zero_inv (dim d) _ (fun s _ => Rle_0_sqr (at_pos d k s - mean_at d cl s)) Q t Ht) as Y. cbn in Y. destruct (Rmult_integral _ _ Y); lra. }
    rewrite (M i), (M j); auto.
  - intro S. unfold spread. enough (forall l, (forall x, In x l -> x = 0) -> rsum l = 0) as G.
    { apply G. intros x K. apply in_map_iff in K. destruct K as (cl & <- & Kc). destruct cl as [|i0 cl0]; [reflexivity|]. apply Rle_antisym; [|apply cost_nonneg].
      eapply Rle_trans; [apply (cost_least (dim d) d (i0 :: cl0) (at_pos d i0))|]. right. apply G. intros x X. apply in_map_iff in X. destruct X as (q & <- & Kq). unfold sqd. rewrite sumn_zero; [reflexivity|].
      intros t Ht. rewrite (S (i0 :: cl0) q i0 t Kc Kq (or_introl eq_refl) Ht). ring. }
    induction l as [|x l IH]; intro G; [reflexivity|]. cbn. rewrite (G x (or_introl eq_refl)), IH by (intros y Y; apply G; right; exact Y). lra.
Qed.
(** C135: a position outside the dataset is read out of bounds. *)
Lemma c135_outside_refuted : forall (d : data R) (i : Z) (r : list (list Z)), (i < 0 \/ Z.of_nat (length (d_points d)) <= i)%Z -> clusters_variance d ([i] :: r) = UB.
Proof.
  intros d i r H. unfold clusters_variance. cbn [ofold]. unfold var_cluster at 1. cbn [ofold]. unfold add_point. destruct (Z.ltb_spec i 0); [reflexivity|]. unfold vget.
  replace (nth_error (d_points d) (Z.to_nat i)) with (@None (point R)) by (symmetry; apply nth_error_None; lia). reflexivity.
Qed.
Lemma three_named : dims_are three (dim three) /\ named three [[0; 1]; []; [2]]%Z.
Proof. split; [exact three_dims|]. intros cl i [<-|[<-|[<-|[]]]]; cbn; intuition lia. Qed.
Lemma c135_value_ex : dims_are three (dim three) /\ named three [[0; 1]; []; [2]]%Z /\ spread three [[0; 1]; []; [2]]%Z = 1 / 2.
Proof. split; [apply three_named|]. split; [apply three_named|]. unfold spread, cost_at, sqd, mean_at, at_pos, nz. cbn. change (Pos.to_nat 1) with 1%nat. change (Pos.to_nat 2) with 2%nat. cbn. field. Qed.
Lemma c135_least_ex : dims_are three (dim three) /\ named three [[0; 1]; []; [2]]%Z /\ length [[0]; [1]; [4]] = length [[0; 1]; []; [2]]%Z.
Proof. split; [apply three_named|]. split; [apply three_named|reflexivity]. Qed.
Lemma c135_split_ex : dims_are three (dim three) /\ named three (([0; 1] ++ [2]) :: [])%Z.
Proof. split; [apply three_named|]. intros cl i [<-|[]]; cbn; intuition lia. Qed.
Lemma c135_order_ex : dims_are three (dim three) /\ named three [[0; 1]; []; [2]]%Z /\ Permutation [[0; 1]; []; [2]]%Z [[]; [0; 1]; [2]]%Z.
Proof. split; [apply three_named|]. split; [apply three_named|apply perm_swap]. Qed.
Lemma c135_members_ex : dims_are three (dim three) /\ named three [[0; 1]; []; [2]]%Z /\ Forall2 (@Permutation Z) [[0; 1]; []; [2]]%Z [[1; 0]; []; [2]]%Z.
Proof. split; [apply three_named|]. split; [apply three_named|]. repeat constructor. Qed.
Lemma c135_empty_ex : dims_are three (dim three) /\ named three [[0; 1]; []; [2]]%Z.
Proof. exact three_named. Qed.
Lemma c135_zero_ex : dims_are three (dim three) /\ named three [[0; 1]; []; [2]]%Z.
Proof. exact three_named. Qed.
Lemma c135_outside_refuted_ex : (3 < 0 \/ Z.of_nat (length (d_points three)) <= 3)%Z /\ (-1 < 0 \/ Z.of_nat (length (d_points three)) <= -1)%Z.
Proof. cbn. lia. Qed.
