(** Property lemmas for k-means: C50, C51, C81. *)
From Coq Require Import ZArith Bool List Reals Lra Lia Permutation.
From Verif Require Import Base ListLib L_Vec Loop M_Data L_Valid S_Knn L_Knn M_Kmeans S_Kmeans.
Import ListNotations.
Local Open Scope R_scope.

Lemma min_from_ok l : forall pre b bi, nth_error pre bi = Some b -> (forall i x, nth_error pre i = Some x -> b <= x) -> (forall i x, (i < bi)%nat -> nth_error pre i = Some x -> b < x) ->
  first_min (length (pre ++ l)) (nz (pre ++ l)) (min_from b bi (length pre) l).
Proof.
  induction l as [|x l IH]; intros pre b bi E A B; cbn [min_from].
  - rewrite app_nil_r. assert (bi < length pre)%nat by (apply nth_error_Some; congruence). assert (nz pre bi = b) as Q by (apply nth_error_nth; auto). split; [auto|]. rewrite Q. split.
    + intros i Hi. apply (A i). now apply nth_error_nth'.
    + intros i Hi. apply (B i); [auto|]. apply nth_error_nth'. lia.
  - assert (bi < length pre)%nat as Lb by (apply nth_error_Some; congruence). replace (pre ++ x :: l) with ((pre ++ [x]) ++ l) by now rewrite <- app_assoc. replace (S (length pre)) with (length (pre ++ [x])) by (rewrite app_length; cbn; lia).
    assert (forall i y, nth_error (pre ++ [x]) i = Some y -> (i < length pre)%nat /\ nth_error pre i = Some y \/ i = length pre /\ y = x) as C.
    { intros i y Q. destruct (Nat.lt_ge_cases i (length pre)); [left; split; [auto|now rewrite nth_error_app1 in Q]|]. right. rewrite nth_error_app2 in Q by auto.
      destruct (i - length pre)%nat eqn:Z; [|cbn in Q; destruct n; discriminate]. injection Q as <-. split; [lia|auto]. }
    destruct (Rlt_dec x b) as [Q|Q]; apply IH.
    + rewrite nth_error_app2, Nat.sub_diag by auto. reflexivity.
    + intros i y Hi. destruct (C i y Hi) as [[_ Z]|[_ ->]]; [apply A in Z; lra|lra].
    + intros i y Hi Z. destruct (C i y Z) as [[_ Z']|[-> _]]; [apply A in Z'; lra|lia].
    + now rewrite nth_error_app1.
    + intros i y Hi. destruct (C i y Hi) as [[_ Z]|[_ ->]]; [apply A in Z; lra|lra].
    + intros i y Hi Z. destruct (C i y Z) as [[_ Z']|[-> _]]; [apply (B i); auto|lia].
Qed.
Lemma min_element_ok l : l <> [] -> first_min (length l) (nz l) (min_element l).
Proof.
  destruct l as [|x l]; [congruence|]. intros _. apply (min_from_ok l [x] x 0); [reflexivity| |].
  - intros [|[|i]] y E; cbn in E; try discriminate; injection E as <-; lra.
  - intros i y Hi; lia.
Qed.
Lemma first_min_unique k far a b : first_min k far a -> first_min k far b -> a = b.
Proof.
  intros (A1 & A2 & A3) (B1 & B2 & B3). destruct (Nat.lt_trichotomy a b) as [H|[H|H]]; [|auto|].
  - specialize (B3 a H). specialize (A2 b B1). lra.
  - specialize (A3 b H). specialize (B2 a A1). lra.
Qed.
Lemma first_min_ext k f g j : (forall i, (i < k)%nat -> f i = g i) -> first_min k f j -> first_min k g j.
Proof. intros E (A & B & C). split; [auto|]. split; intros i Hi; rewrite <- !E by lia; auto. Qed.
Lemma nz_map (f : list R -> R) cs i : (i < length cs)%nat -> nz (map f cs) i = f (nth i cs []).
Proof. intro H. unfold nz. rewrite (nth_indep _ 0 (f [])) by now rewrite map_length. apply map_nth. Qed.

Definition three : data R := mkData [mkPoint [0] 1%Z 1%Z 0; mkPoint [1] 1%Z 2%Z 0; mkPoint [5] 1%Z 3%Z 0] [1]%Z [0; 1; 2]%Z [] [1]%Z [3]%Z 3 1 false false false true.
Definition gap (x y : list R) : R := Rabs (nz x 0 - nz y 0).

(** C50: evaluation gives the first centre at the smallest distance. *)
Lemma c50_evaluate : forall dist centers p, centers <> [] -> first_min (length centers) (fun j => dist (nth j centers []) p) (km_evaluate dist centers p).
Proof.
  intros dist centers p N. unfold km_evaluate. assert (map (fun c => dist c p) centers <> []) as N' by (destruct centers; [congruence|discriminate]).
  pose proof (min_element_ok _ N') as F. rewrite map_length in F. eapply first_min_ext; [|exact F]. intros i Hi. cbv beta. now rewrite (nz_map (fun c => dist c p)).
Qed.
Lemma c50_evaluate_ex : [[0]; [4]] <> [] /\ first_min 2 (fun j => gap (nth j [[0]; [4]] []) [3]) 1.
Proof.
  split; [discriminate|]. assert (gap [0] [3] = 3) as E0. { unfold gap, nz. cbn. rewrite Rabs_left by lra. lra. } assert (gap [4] [3] = 1) as E1. { unfold gap, nz. cbn. rewrite Rabs_right by lra. lra. }
  split; [lia|]. split; intros [|[|i]] Hi; cbn [nth]; rewrite ?E0, ?E1; lra || lia.
Qed.

(** *** assignment *)
Definition near_to dist (centers : list (list R)) (x : list R) : nat := min_element (map (fun c => dist x c) centers).
Lemma near_first dist centers x : centers <> [] -> first_min (length centers) (fun j => dist x (nth j centers [])) (near_to dist centers x).
Proof.
  intro N. unfold near_to. assert (map (fun c => dist x c) centers <> []) as N' by (destruct centers; [congruence|discriminate]).
  pose proof (min_element_ok _ N') as F. rewrite map_length in F. eapply first_min_ext; [|exact F]. intros i Hi. cbv beta. now rewrite (nz_map (fun c => dist x c)).
Qed.
Definition placed dist centers (pts : list (point R)) (j : nat) : list Z :=
  map (fun q => (p_id q - 1)%Z) (filter (fun q => Nat.eqb (near_to dist centers (p_x q)) j) pts).
Lemma assign_ok dist centers pts clusters : centers <> [] -> length clusters = length centers ->
  exists cl cost, assign_clusters dist centers clusters pts = Ok (cl, cost) /\ length cl = length centers /\ forall j, (j < length centers)%nat -> nth j cl [] = nth j clusters [] ++ placed dist centers pts j.
Proof.
  intros N L. unfold assign_clusters.
  destruct (ofold_list (assign_one dist centers) (fun done s => length (fst s) = length centers /\ forall j, (j < length centers)%nat -> nth j (fst s) [] = nth j clusters [] ++ placed dist centers done j) pts (clusters, 0)) as ([cl cost] & E & A & B).
  - cbn [fst]. split; [auto|]. intros j _. unfold placed. cbn. now rewrite app_nil_r.
  - intros d q r [cl c] _ [A B]. cbn [fst snd] in *. unfold assign_one. cbn [fst snd]. fold (near_to dist centers (p_x q)). cbv zeta.
    pose proof (near_first dist centers (p_x q) N) as (J & _). destruct (vupd_nth _ cl (near_to dist centers (p_x q)) (fun l => l ++ [(p_id q - 1)%Z]) []) as (cl' & -> & L' & A1 & A2); [lia|]. cbn [obind].
    rewrite (vget_nz _ (near_to dist centers (p_x q))) by now rewrite map_length. cbn [obind]. eexists. split; [reflexivity|]. cbn [fst]. split; [lia|].
    intros j Hj. unfold placed. rewrite filter_app, map_app. cbn [filter]. destruct (Nat.eqb_spec (near_to dist centers (p_x q)) j) as [<-|Nj].
    + rewrite A1, B by auto. cbn [map]. now rewrite <- app_assoc.
    + rewrite A2, B by auto. cbn [map]. now rewrite app_nil_r.
  - exists cl, cost. auto.
Qed.
Lemma placed_in dist centers d j i : ids_from_one d -> (j < length centers)%nat -> centers <> [] ->
  (In i (placed dist centers (d_points d) j) <-> (0 <= i < Z.of_nat (length (d_points d)))%Z /\ first_min (length centers) (fun c => dist (point_at d (Z.to_nat i)) (nth c centers [])) j).
Proof.
  intros I Hj N. unfold placed. rewrite in_map_iff. split.
  - intros (q & <- & Hq). apply filter_In in Hq as [Hq E]. apply Nat.eqb_eq in E. apply In_nth_error in Hq as (a & Ea). pose proof (I _ _ Ea) as Q. assert (a < length (d_points d))%nat by (apply nth_error_Some; congruence).
    split; [lia|]. replace (Z.to_nat (p_id q - 1)) with a by lia. rewrite (point_at_of d a q Ea). rewrite <- E. now apply near_first.
  - intros [Hi F]. destruct (nth_error (d_points d) (Z.to_nat i)) as [q|] eqn:Ea; [|apply nth_error_None in Ea; lia]. exists q. rewrite (I _ _ Ea). split; [lia|]. apply filter_In. split; [eapply nth_error_In; eauto|].
    apply Nat.eqb_eq. rewrite (point_at_of d _ q Ea) in F. eapply first_min_unique; [|exact F]. now apply near_first.
Qed.
Lemma placed_nodup dist centers d j : ids_from_one d -> NoDup (placed dist centers (d_points d) j).
Proof.
  intro I. unfold placed. apply NoDup_map_in.
  - intros a b Ha Hb E. apply filter_In in Ha as [Ha _]. apply filter_In in Hb as [Hb _]. apply In_nth_error in Ha as (i & Ei). apply In_nth_error in Hb as (k & Ek).
    rewrite (I _ _ Ei), (I _ _ Ek) in E. assert (i = k) by lia. congruence.
  - apply NoDup_filter. apply (NoDup_map_inv p_id). apply NoDup_nth_error. intros i k Hi E. rewrite map_length in Hi. rewrite !nth_error_map in E.
    destruct (nth_error (d_points d) i) eqn:Ei; [|apply nth_error_None in Ei; lia]. destruct (nth_error (d_points d) k) eqn:Ek; [|discriminate]. cbn in E. injection E as E. rewrite (I _ _ Ei), (I _ _ Ek) in E. lia.
Qed.
(** C50: a call of clusters() with empty clusters places every point once, in the cluster of its first nearest centre. *)
Lemma c50_clusters : forall dist d centers, ids_from_one d -> centers <> [] ->
  exists cl, km_clusters dist d centers (repeat [] (length centers)) = Ok cl /\ length cl = length centers /\
    forall j, (j < length centers)%nat -> NoDup (nth j cl []) /\
      forall i, In i (nth j cl []) <-> (0 <= i < Z.of_nat (length (d_points d)))%Z /\ first_min (length centers) (fun c => dist (point_at d (Z.to_nat i)) (nth c centers [])) j.
Proof.
  intros dist d centers I N. unfold km_clusters. destruct (assign_ok dist centers (d_points d) (repeat [] (length centers)) N (repeat_length _ _)) as (cl & cost & -> & L & P). cbn [obind fst].
  exists cl. split; [reflexivity|]. split; [auto|]. intros j Hj. rewrite P by auto. rewrite nth_repeat. cbn [app]. split; [now apply placed_nodup|]. intro i. now apply placed_in.
Qed.
Lemma three_ids : ids_from_one three.
Proof. intros [|[|[|i]]] p E; cbn in E; try (injection E as <-; reflexivity). destruct i; discriminate. Qed.
Lemma c50_clusters_ex : ids_from_one three /\ [[0]; [4]] <> [].
Proof. split; [apply three_ids|discriminate]. Qed.
(** C50: a second call adds every point again: each cluster has each of its points twice. *)
Lemma c50_twice_refuted : forall dist d centers cl, ids_from_one d -> centers <> [] -> km_clusters dist d centers (repeat [] (length centers)) = Ok cl ->
  exists cl', km_clusters dist d centers cl = Ok cl' /\ forall j, (j < length centers)%nat -> nth j cl' [] = nth j cl [] ++ nth j cl [].
Proof.
  intros dist d centers cl I N E. unfold km_clusters in *. destruct (assign_ok dist centers (d_points d) (repeat [] (length centers)) N (repeat_length _ _)) as (cl1 & cost & E1 & L & P). rewrite E1 in E. cbn [obind fst] in E. injection E as <-.
  destruct (assign_ok dist centers (d_points d) cl1 N L) as (cl2 & cost2 & E2 & L2 & P2). rewrite E2. cbn [obind fst]. exists cl2. split; [reflexivity|]. intros j Hj. rewrite P2, P by auto. now rewrite nth_repeat.
Qed.
Lemma c50_twice_refuted_ex : exists cl, ids_from_one three /\ [[0]; [4]] <> [] /\ km_clusters gap three [[0]; [4]] (repeat [] (length [[0]; [4]])) = Ok cl.
Proof. destruct (c50_clusters gap three [[0]; [4]] three_ids ltac:(discriminate)) as (cl & E & _). exists cl. split; [apply three_ids|]. split; [discriminate|exact E]. Qed.

(** *** centres *)
Lemma forall2_len {A B} (P : A -> B -> Prop) l r : Forall2 P l r -> length l = length r.
Proof. induction 1; cbn; auto. Qed.
Definition dims_are (d : data R) (D : nat) : Prop := forall p, In p (d_points d) -> length (p_x p) = D.
Lemma nz_combine_add a b t : length a = length b -> (t < length a)%nat -> nz (map (fun q => fst q + snd q) (combine a b)) t = nz a t + nz b t.
Proof.
  revert b t. induction a as [|x a IH]; intros [|y b] t L H; try discriminate; cbn in H; [lia|]. destruct t as [|t]; [reflexivity|]. unfold nz in *. cbn [combine map nth]. apply IH; [cbn in L|]; lia.
Qed.
Lemma add_points_ok d D cl : dims_are d D -> (forall i, In i cl -> (0 <= i < Z.of_nat (length (d_points d)))%Z) -> forall c, length c = D ->
  exists c', ofold (add_point d) cl c = Ok c' /\ length c' = D /\ forall t, (t < D)%nat -> nz c' t = nz c t + coord_sum (map p_x (d_points d)) cl t.
Proof.
  intros H. induction cl as [|i cl IH]; intros B c Lc; cbn [ofold coord_sum].
  - exists c. split; [reflexivity|]. split; [auto|]. intros; lra.
  - specialize (B i (or_introl eq_refl)) as Bi. unfold add_point at 1. destruct (Z.ltb_spec i 0); [lia|].
    destruct (nth_error (d_points d) (Z.to_nat i)) as [p|] eqn:E; [|apply nth_error_None in E; lia]. unfold vget. rewrite E. cbn [obind].
    assert (length (p_x p) = D) as Lp by (apply H; eapply nth_error_In; eauto). rewrite Lc, Lp, Nat.eqb_refl. cbn [obind].
    destruct (IH ltac:(intros; apply B; now right) (map (fun q => fst q + snd q) (combine c (p_x p)))) as (c' & E' & L' & N'); [rewrite map_length, combine_length; lia|].
    exists c'. split; [exact E'|]. split; [auto|]. intros t Ht. rewrite N' by auto. rewrite nz_combine_add by lia.
    assert (nth (Z.to_nat i) (map p_x (d_points d)) [] = p_x p) as -> by (apply nth_error_nth; now apply map_nth_error). lra.
Qed.
Lemma opt_all_some {A} (l : list (option A)) r : opt_all l = Some r <-> l = map Some r.
Proof.
  revert r. induction l as [|[x|] l IH]; intro r; cbn.
  - split; [intro H; injection H as <-; reflexivity|destruct r; [auto|discriminate]].
  - destruct (opt_all l) as [r'|].
    + split; [intro H; injection H as <-; cbn; f_equal; now apply IH|]. destruct r as [|y r]; [discriminate|]. cbn. intro H. injection H as <- H. apply IH in H. congruence.
    + split; [discriminate|]. destruct r as [|y r]; [discriminate|]. cbn. intro H. injection H as <- H. apply IH in H. discriminate.
  - split; [discriminate|destruct r; discriminate].
Qed.
Lemma sums_ok d D clusters centers : dims_are d D -> length centers = length clusters -> (forall c, In c centers -> length c = D) ->
  (forall cl i, In cl clusters -> In i cl -> (0 <= i < Z.of_nat (length (d_points d)))%Z) ->
  exists sums, map_outcome (fun i => let* cl := vget clusters i in let* c := vget centers i in ofold (add_point d) cl c) (seq 0 (length clusters)) = Ok sums /\ length sums = length clusters /\
    forall i, (i < length clusters)%nat -> length (nth i sums []) = D /\ forall t, (t < D)%nat -> nz (nth i sums []) t = nz (nth i centers []) t + coord_sum (map p_x (d_points d)) (nth i clusters []) t.
Proof.
  intros H L HD B.
  set (P := fun i s => length s = D /\ forall t, (t < D)%nat -> nz s t = nz (nth i centers []) t + coord_sum (map p_x (d_points d)) (nth i clusters []) t).
  destruct (map_outcome_all P (fun i => let* cl := vget clusters i in let* c := vget centers i in ofold (add_point d) cl c) (seq 0 (length clusters))) as (sums & E & F).
  - intros i Hi. apply in_seq in Hi. rewrite (vget_nth clusters i []) by lia. cbn [obind]. rewrite (vget_nth centers i []) by lia. cbn [obind].
    destruct (add_points_ok d D (nth i clusters []) H) with (c := nth i centers []) as (s & E & Q); [intros k Hk; eapply B; [|exact Hk]; apply nth_In; lia|apply HD, nth_In; lia|]. exists s. auto.
  - exists sums. split; [exact E|]. assert (length sums = length clusters) as Ls by (apply forall2_len in F; rewrite seq_length in F; auto). split; [auto|].
    intros i Hi. assert (P (nth i (seq 0 (length clusters)) 0%nat) (nth i sums [])) as Q; [|rewrite seq_nth in Q by auto; exact Q].
    clear E. revert i Hi. revert Ls. generalize (length clusters) at 1 2 as k. revert F. generalize (seq 0 (length clusters)) as js. intros js F. induction F as [|j s js sums Q F IH]; intros k Ls i Hi; cbn in Ls; [lia|].
    destruct i as [|i]; [exact Q|]. cbn [nth]. destruct k; [lia|]. apply (IH k); lia.
Qed.
Lemma update_ok : forall d D clusters centers, dims_are d D -> length centers = length clusters -> (forall c, In c centers -> length c = D) ->
  (forall cl i, In cl clusters -> In i cl -> (0 <= i < Z.of_nat (length (d_points d)))%Z) -> ~ In [] clusters ->
  exists new, compute_centers d clusters centers = Ok (Some new) /\ length new = length clusters /\ (forall i, (i < length clusters)%nat -> length (nth i new []) = D) /\
    forall i t, (i < length clusters)%nat -> (t < D)%nat ->
      nz (nth i new []) t = (nz (nth i centers []) t + coord_sum (map p_x (d_points d)) (nth i clusters []) t) / INR (length (nth i clusters [])).
Proof.
  intros d D clusters centers H L HD B NE. destruct (sums_ok d D clusters centers H L HD B) as (sums & E & Ls & S). unfold compute_centers. rewrite E. cbn [obind].
  exists (map (fun p => map (fun x => x / INR (length (snd p))) (fst p)) (combine sums clusters)). split; [|split].
  - f_equal. apply opt_all_some. rewrite map_map. apply map_ext_in. intros [s cl] Hp. apply in_combine_r in Hp. cbn [fst snd]. unfold center_div. destruct (Nat.eqb_spec (length cl) 0) as [Q|]; [|reflexivity]. destruct cl; [contradiction|discriminate].
  - rewrite map_length, combine_length. lia.
  - assert (forall i, (i < length clusters)%nat -> nth i (map (fun p : list R * list Z => map (fun x => x / INR (length (snd p))) (fst p)) (combine sums clusters)) [] = map (fun x => x / INR (length (nth i clusters []))) (nth i sums [])) as Q.
    { intros i Hi. rewrite (nth_indep _ [] ((fun p : list R * list Z => map (fun x => x / INR (length (snd p))) (fst p)) ([], []))) by (rewrite map_length, combine_length; lia).
      rewrite (map_nth (fun p : list R * list Z => map (fun x => x / INR (length (snd p))) (fst p))). rewrite combine_nth by auto. reflexivity. }
    split; intros i; [intro Hi|intros t Hi Ht]; destruct (S i Hi) as [Ln Lv]; rewrite Q by auto; [now rewrite map_length|].
    unfold nz at 1. rewrite (nth_indep _ 0 ((fun x => x / INR (length (nth i clusters []))) 0)) by (rewrite map_length; lia). rewrite (map_nth (fun x => x / INR (length (nth i clusters [])))). f_equal. now apply Lv.
Qed.
(** C51, what the update step computes: the old centre is counted as one more point, but not in the divisor.
    One expects that the old centre is not counted at all: see c51_mean_refuted. *)
Lemma c51_update : forall d D clusters centers, dims_are d D -> length centers = length clusters -> (forall c, In c centers -> length c = D) ->
  (forall cl i, In cl clusters -> In i cl -> (0 <= i < Z.of_nat (length (d_points d)))%Z) -> ~ In [] clusters ->
  exists new, compute_centers d clusters centers = Ok (Some new) /\ length new = length clusters /\
    forall i t, (i < length clusters)%nat -> (t < D)%nat ->
      nz (nth i new []) t = (nz (nth i centers []) t + coord_sum (map p_x (d_points d)) (nth i clusters []) t) / INR (length (nth i clusters [])).
Proof.
  intros d D clusters centers H L HD B NE. destruct (update_ok d D clusters centers H L HD B NE) as (new & A & Ln & _ & C). exists new. auto.
Qed.
Lemma three_dims : dims_are three 1.
Proof. intros p [<-|[<-|[<-|[]]]]; reflexivity. Qed.
Lemma c51_update_ex : dims_are three 1 /\ (forall cl i, In cl [[0; 1]; [2]]%Z -> In i cl -> (0 <= i < Z.of_nat (length (d_points three)))%Z) /\ ~ In [] [[0; 1]; [2]]%Z /\ forall c, In c [[0]; [4]] -> length c = 1%nat.
Proof.
  split; [apply three_dims|]. split; [intros cl i [<-|[<-|[]]] Hi; cbn; cbn in Hi; lia|]. split; [intros [Q|[Q|[]]]; discriminate|]. intros c [<-|[<-|[]]]; reflexivity.
Qed.
(** C51 itself: a new centre coordinate is the mean of the cluster exactly when the old one was 0. *)
Lemma c51_mean_refuted : forall d D clusters centers new, dims_are d D -> length centers = length clusters -> (forall c, In c centers -> length c = D) ->
  (forall cl i, In cl clusters -> In i cl -> (0 <= i < Z.of_nat (length (d_points d)))%Z) -> ~ In [] clusters -> compute_centers d clusters centers = Ok (Some new) ->
  forall i t, (i < length clusters)%nat -> (t < D)%nat ->
    (nz (nth i new []) t = coord_sum (map p_x (d_points d)) (nth i clusters []) t / INR (length (nth i clusters [])) <-> nz (nth i centers []) t = 0).
Proof.
  intros d D clusters centers new H L HD B NE E i t Hi Ht. destruct (c51_update d D clusters centers H L HD B NE) as (new' & E' & _ & V). rewrite E in E'. injection E' as <-. rewrite V by auto.
  set (n := length (nth i clusters [])). assert (0 < INR n) as P. { apply lt_0_INR. unfold n. destruct (nth i clusters []) eqn:Q; [|cbn; lia]. elim NE. rewrite <- Q. now apply nth_In. }
  split; intro Q.
  - apply (Rmult_eq_compat_r (INR n)) in Q. unfold Rdiv in Q. rewrite !Rmult_assoc, Rinv_l in Q by lra. lra.
  - rewrite Q. f_equal. lra.
Qed.
Lemma c51_mean_refuted_ex : exists new, compute_centers three [[0; 1]; [2]]%Z [[0]; [4]] = Ok (Some new) /\ nz (nth 1 [[0]; [4]] []) 0 <> 0.
Proof.
  destruct c51_update_ex as (A & B & C & D). destruct (c51_update three 1 [[0; 1]; [2]]%Z [[0]; [4]] A eq_refl D B C) as (new & E & _). exists new. split; [exact E|]. unfold nz. cbn. lra.
Qed.
(** C51: a cluster without points makes a centre that is not a number. *)
Lemma c51_empty_refuted : forall d D clusters centers, dims_are d D -> length centers = length clusters -> (forall c, In c centers -> length c = D) ->
  (forall cl i, In cl clusters -> In i cl -> (0 <= i < Z.of_nat (length (d_points d)))%Z) -> In [] clusters -> compute_centers d clusters centers = Ok None.
Proof.
  intros d D clusters centers H L HD B NE. destruct (sums_ok d D clusters centers H L HD B) as (sums & E & Ls & _). unfold compute_centers. rewrite E. cbn [obind]. f_equal.
  destruct (opt_all _) as [r|] eqn:Q; [|reflexivity]. exfalso. apply opt_all_some in Q. apply In_nth_error in NE as (i & Ei). assert (i < length clusters)%nat as Li by (apply nth_error_Some; congruence).
  apply (f_equal (fun l => nth_error l i)) in Q. rewrite !nth_error_map in Q. assert (nth_error (combine sums clusters) i = Some (nth i sums [], [])) as X.
  { rewrite (nth_error_nth' _ ([], [])) by (rewrite combine_length; lia). rewrite combine_nth by auto. now rewrite (nth_error_nth _ _ [] Ei). }
  rewrite X in Q. cbn in Q. destruct (nth_error r i); discriminate.
Qed.
Lemma c51_empty_refuted_ex : dims_are three 1 /\ In [] [[0; 1; 2]; []]%Z /\ (forall cl i, In cl [[0; 1; 2]; []]%Z -> In i cl -> (0 <= i < Z.of_nat (length (d_points three)))%Z) /\ forall c, In c [[0]; [4]] -> length c = 1%nat.
Proof. split; [apply three_dims|]. split; [right; left; reflexivity|]. split; [intros cl i [<-|[<-|[]]] Hi; cbn; cbn in Hi; lia|]. intros c [<-|[<-|[]]]; reflexivity. Qed.
(** C51: one point, one cluster: training puts the centre at twice the point. *)
Definition one_point : data R := mkData [mkPoint [1] 1%Z 1%Z 0] [1]%Z [0]%Z [] [1]%Z [1]%Z 1 1 false false false true.
Lemma c51_train_refuted : forall EPS late fuel, 0 <= EPS -> exists centers clusters, km_train gap EPS late one_point (d_points one_point) [0%Z] (S fuel) = Ok (Km_done centers clusters) /\ map (fun c => nz c 0) centers = [2].
Proof.
  intros EPS late fuel He. unfold km_train. cbn [km_start map_outcome one_point d_points vget nth_error Z.to_nat obind p_x length repeat km_loop].
  unfold assign_clusters. cbn [ofold assign_one map min_element min_from fst snd vupd upd p_id p_x obind app vget nth_error Z.sub Z.opp Z.add Z.pos_sub]. unfold assign_one. cbn [map min_element min_from fst snd vupd upd p_id p_x obind app vget nth_error].
  change (1 - 1)%Z with 0%Z. unfold compute_centers. cbn [length seq map_outcome vget nth_error obind ofold fst snd]. unfold add_point. cbn [Z.ltb Z.compare Z.to_nat vget nth_error d_points one_point obind p_x length Nat.eqb combine map fst snd opt_all center_div INR].
  assert (gap [1] [1] = 0) as ->. { unfold gap, nz. cbn. rewrite Rminus_diag_eq by reflexivity. apply Rabs_R0. }
  destruct (late 0%nat).
  - do 2 eexists. split; [reflexivity|]. cbn. f_equal. unfold nz. cbn. lra.
  - destruct (Rle_dec _ _) as [Q|Q].
    + do 2 eexists. split; [reflexivity|]. cbn. f_equal. unfold nz. cbn. lra.
    + exfalso. apply Q. replace (0 + 0 * 0 - 0) with 0 by ring. now rewrite Rabs_R0.
Qed.
Lemma c51_train_refuted_ex : 0 <= / 10000000.
Proof. lra. Qed.

(** C81: the starting centres are training points when every draw is below the number of points. *)
Lemma c81_start : forall d draws, (forall i, In i draws -> (0 <= i < Z.of_nat (length (d_points d)))%Z) ->
  exists centers, km_start d draws = Ok centers /\ length centers = length draws /\ forall c, In c centers -> exists p, In p (d_points d) /\ c = p_x p.
Proof.
  intros d draws B. unfold km_start. destruct (map_outcome_all (fun _ c => exists p, In p (d_points d) /\ c = p_x p) (fun i => let* p := vget (d_points d) (Z.to_nat i) in Ok (p_x p)) draws) as (r & -> & F).
  - intros i Hi. specialize (B i Hi). unfold vget. destruct (nth_error (d_points d) (Z.to_nat i)) as [p|] eqn:E; [|apply nth_error_None in E; lia]. cbn [obind]. eexists. split; [reflexivity|]. exists p. split; [eapply nth_error_In; eauto|auto].
  - exists r. split; [reflexivity|]. split; [symmetry; now apply forall2_len in F|]. induction F as [|i c draws r Q F IH]; intros x Hx; [destruct Hx|]. destruct Hx as [<-|Hx]; [exact Q|]. apply IH; auto. intros; apply B; now right.
Qed.
Lemma c81_start_ex : forall i, In i [2; 0]%Z -> (0 <= i < Z.of_nat (length (d_points three)))%Z.
Proof. intros i [<-|[<-|[]]]; cbn; lia. Qed.
(** C81: the generator includes its upper bound, which is the number of points: that draw reads past the last point. *)
Lemma c81_start_refuted : forall d, exists i, in_range 0 (Z.of_nat (length (d_points d))) i /\ forall draws, km_start d (i :: draws) = UB.
Proof.
  intro d. exists (Z.of_nat (length (d_points d))). split; [unfold in_range; lia|]. intro draws. unfold km_start. cbn [map_outcome]. unfold vget. rewrite Nat2Z.id, (proj2 (nth_error_None _ _)) by lia. reflexivity.
Qed.
