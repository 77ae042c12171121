(** Property lemmas for whole runs of k-means: C51. *)
From Coq Require Import ZArith Bool List Reals Lra Lia Permutation.
From Verif Require Import Base ListLib L_Vec Loop M_Data L_Valid S_Knn L_Knn M_Kmeans S_Kmeans T_Kmeans.
Import ListNotations.
Local Open Scope R_scope.

Definition sq_near dist (centers : list (list R)) (q : point R) : R := dist (p_x q) (nth (near_to dist centers (p_x q)) centers []).
Lemma rsum_app a b : rsum (a ++ b) = rsum a + rsum b.
Proof. induction a as [|x a IH]; cbn; [lra|]. rewrite IH. lra. Qed.
Lemma rsum_perm a b : Permutation a b -> rsum a = rsum b.
Proof. induction 1; cbn; lra. Qed.
Lemma assign_cost dist centers pts clusters cl cost : centers <> [] -> length clusters = length centers -> assign_clusters dist centers clusters pts = Ok (cl, cost) ->
  cost = rsum (map (fun q => sq_near dist centers q * sq_near dist centers q) pts).
Proof.
  intros N L E. unfold assign_clusters in E.
  destruct (ofold_list (assign_one dist centers) (fun done s => length (fst s) = length centers /\ snd s = rsum (map (fun q => sq_near dist centers q * sq_near dist centers q) done)) pts (clusters, 0)) as (r & E' & _ & B).
  - cbn [fst snd]. split; [auto|reflexivity].
  - intros d q r [c0 c] _ [A B]. cbn [fst snd] in *. unfold assign_one. cbn [fst snd]. fold (near_to dist centers (p_x q)). cbv zeta.
    pose proof (near_first dist centers (p_x q) N) as (J & _). destruct (vupd_nth _ c0 (near_to dist centers (p_x q)) (fun l => l ++ [(p_id q - 1)%Z]) []) as (cl' & -> & L' & _); [lia|]. cbn [obind].
    rewrite (vget_nz _ (near_to dist centers (p_x q))) by now rewrite map_length. cbn [obind]. eexists. split; [reflexivity|]. cbn [fst snd]. split; [lia|].
    rewrite (nz_map (fun c => dist (p_x q) c)) by exact J. fold (sq_near dist centers q). rewrite map_app, rsum_app, B. cbn. lra.
  - rewrite E in E'. injection E' as <-. exact B.
Qed.
Lemma perm_filter {A} (f : A -> bool) l r : Permutation l r -> Permutation (filter f l) (filter f r).
Proof.
  induction 1 as [|x l r P IH|x y l|]; cbn.
  - constructor.
  - destruct (f x); [now constructor|auto].
  - destruct (f x), (f y); try apply Permutation_refl. apply perm_swap.
  - eapply perm_trans; eauto.
Qed.
Lemma placed_perm dist centers a b j : Permutation a b -> Permutation (placed dist centers a j) (placed dist centers b j).
Proof. intro P. unfold placed. apply Permutation_map. now apply perm_filter. Qed.
Lemma cost_ok dist centers d pts cl cost clusters : centers <> [] -> length clusters = length centers -> Permutation pts (d_points d) -> assign_clusters dist centers clusters pts = Ok (cl, cost) ->
  km_cost dist (map p_x (d_points d)) centers cost.
Proof.
  intros N L P E. apply assign_cost in E; auto. exists (map (sq_near dist centers) (d_points d)). split.
  - clear - N. induction (d_points d) as [|q l IH]; cbn; constructor; auto. exists (near_to dist centers (p_x q)). split; [|reflexivity]. now apply near_first.

  - rewrite E, map_map. apply rsum_perm. now apply Permutation_map.
Qed.
Lemma step_ok dist d D pts centers cl cost new : ids_from_one d -> dims_are d D -> Permutation pts (d_points d) -> centers <> [] -> (forall c, In c centers -> length c = D) ->
  assign_clusters dist centers (repeat [] (length centers)) pts = Ok (cl, cost) -> compute_centers d cl centers = Ok (Some new) ->
  length cl = length centers /\ km_step dist D (map p_x (d_points d)) centers new /\ km_cost dist (map p_x (d_points d)) centers cost.
Proof.
  intros I Hd P N HD E C. pose proof (cost_ok dist centers d pts cl cost _ N (repeat_length _ _) P E) as Q.
  destruct (assign_ok dist centers pts (repeat [] (length centers)) N (repeat_length _ _)) as (cl' & cost' & E' & L & Pl). rewrite E in E'. injection E' as <- <-.
  assert (forall j, (j < length centers)%nat -> Permutation (nth j cl []) (placed dist centers (d_points d) j)) as Pm.
  { intros j Hj. rewrite Pl, nth_repeat by auto. cbn [app]. now apply placed_perm. }
  assert (forall j i, (j < length centers)%nat -> (In i (nth j cl []) <-> (0 <= i < Z.of_nat (length (d_points d)))%Z /\ first_min (length centers) (fun c => dist (point_at d (Z.to_nat i)) (nth c centers [])) j)) as In'.
  { intros j i Hj. rewrite <- (placed_in dist centers d j i I Hj N). split; apply Permutation_in; [|symmetry]; auto. }
  assert (forall c i, In c cl -> In i c -> (0 <= i < Z.of_nat (length (d_points d)))%Z) as B.
  { intros c i Hc Hi. apply In_nth with (d := []) in Hc as (j & Hj & <-). apply In' in Hi; [tauto|lia]. }
  split; [auto|]. split; [|exact Q].
  destruct (in_dec (list_eq_dec Z.eq_dec) [] cl) as [Em|NE].
  { rewrite (c51_empty_refuted d D cl centers Hd (eq_sym L) HD B Em) in C. discriminate. }
  destruct (update_ok d D cl centers Hd (eq_sym L) HD B NE) as (new' & C' & Ln & LD & V). rewrite C in C'. injection C' as <-.
  split; [lia|]. intros j Hj. split; [apply LD; lia|]. exists (nth j cl []). split; [|split; [|split]].
  - eapply Permutation_NoDup; [symmetry; apply Pm; auto|now apply placed_nodup].
  - intro Z. apply NE. rewrite <- Z. apply nth_In. lia.
  - intro i. rewrite In' by auto. rewrite map_length. unfold nearest, point_at. reflexivity.
  - intros t Ht. apply V; lia.
Qed.
Lemma loop_ok dist EPS late d D pts : ids_from_one d -> dims_are d D -> Permutation pts (d_points d) -> forall fuel s centers prev final cl, centers <> [] -> (forall c, In c centers -> length c = D) ->
  km_loop dist EPS late d pts fuel s centers (repeat [] (length centers)) prev = Ok (Km_done final cl) -> km_run dist EPS late D (map p_x (d_points d)) s prev centers final.
Proof.
  intros I Hd P. induction fuel as [|fuel IH]; intros s centers prev final cl N HD E; cbn [km_loop] in E; [discriminate|].
  destruct (assign_clusters _ _ _ _) as [[a v]| |] eqn:A; cbn [obind fst snd] in E; try discriminate. destruct (compute_centers d a centers) as [[new|]| |] eqn:C; cbn [obind] in E; try discriminate.
  destruct (step_ok dist d D pts centers a v new I Hd P N HD A C) as (L & St & Co). destruct (late s) eqn:Lt.
  - injection E as <- <-. now apply Run_late.
  - destruct (Rle_dec (Rabs (v - prev)) EPS) as [Q|Q].
    + injection E as <- <-. eapply Run_still; eauto.
    + assert (length new = length centers) as Ln by apply St. eapply Run_on; eauto; [lra|]. apply (IH _ _ _ _ cl).
      * destruct new; [destruct centers; [congruence|discriminate]|discriminate].
      * intros c Hc. apply In_nth with (d := []) in Hc as (j & Hj & <-). apply St. lia.
      * rewrite <- E. f_equal. rewrite Ln, <- L. clear. induction a; cbn; f_equal; auto.
Qed.
(** C51, whole training runs: the centres returned come from the starting points by the steps described, and the run stops only when the clock says so or when the cost moves by at most EPS.
    The steps are not the mean: c51_mean_refuted. *)
Lemma c51_train : forall dist EPS late d D points draws fuel final clusters, ids_from_one d -> dims_are d D -> Permutation points (d_points d) -> draws <> [] ->
  (forall i, In i draws -> (0 <= i < Z.of_nat (length (d_points d)))%Z) -> km_train dist EPS late d points draws fuel = Ok (Km_done final clusters) ->
  exists start, Forall2 (fun i c => nth_error (map p_x (d_points d)) (Z.to_nat i) = Some c) draws start /\ km_run dist EPS late D (map p_x (d_points d)) 0 0 start final.
Proof.
  intros dist EPS late d D points draws fuel final clusters I Hd P N B E. unfold km_train, km_start in E.
  destruct (map_outcome_all (fun i c => nth_error (map p_x (d_points d)) (Z.to_nat i) = Some c) (fun i => let* p := vget (d_points d) (Z.to_nat i) in Ok (p_x p)) draws) as (r & Er & F).
  - intros i Hi. specialize (B i Hi). unfold vget. destruct (nth_error (d_points d) (Z.to_nat i)) as [p|] eqn:Ei; [|apply nth_error_None in Ei; lia]. cbn [obind]. eexists. split; [reflexivity|]. now apply map_nth_error.
  - rewrite Er in E. cbn [obind] in E. exists r. split; [exact F|]. assert (length draws = length r) as L by now apply forall2_len in F. rewrite L in E. eapply loop_ok; [exact I|exact Hd|exact P| | |exact E].
    + destruct r; [destruct draws; [congruence|discriminate]|discriminate].
    + clear - F Hd. induction F as [|i c l r Q F IH]; intros x Hx; [destruct Hx|]. destruct Hx as [<-|Hx]; [|apply IH, Hx]. apply nth_error_In, in_map_iff in Q as (p & <- & Hp). now apply Hd.
Qed.
(** Three points and the centres 0 and 5: the first cost is 1. *)
Lemma gap_at a b : gap [a] [b] = Rabs (a - b).
Proof. reflexivity. Qed.
Lemma c51_train_ex : exists final clusters, ids_from_one three /\ dims_are three 1 /\ Permutation (rev (d_points three)) (d_points three) /\
  km_train gap 2 (fun s => false) three (rev (d_points three)) [0; 2]%Z 5 = Ok (Km_done final clusters).
Proof.
  assert (forall a b, a < b -> gap [a] [b] = b - a) as G1. { intros. rewrite gap_at, Rabs_left; lra. }
  assert (forall a b, b <= a -> gap [a] [b] = a - b) as G2. { intros. rewrite gap_at, Rabs_right; lra. }
  assert (exists v, assign_clusters gap [[0]; [5]] [[]; []] (rev (d_points three)) = Ok ([[1; 0]; [2]]%Z, v) /\ v = 1) as (v & A1 & Ev).
  { unfold assign_clusters. cbn [three d_points rev app ofold]. unfold assign_one. cbn [map p_x p_id fst snd min_element min_from].
    rewrite (G2 5 0), (G2 5 5), (G2 1 0), (G1 1 5), (G2 0 0), (G1 0 5) by lra. repeat (destruct (Rlt_dec _ _) as [?|?]; try (exfalso; lra); cbn [vupd upd obind vget nth_error fst snd app]).
    eexists. split; [reflexivity|lra]. }
  assert (forall a b, compute_centers three [[1; 0]; [2]]%Z [[a]; [b]] = Ok (Some [[(a + 1 + 0) / 2]; [(b + 5) / 1]])) as Cc by reflexivity.
  exists [[(0 + 1 + 0) / 2]; [(5 + 5) / 1]], [[]; []]. split; [apply three_ids|]. split; [apply three_dims|]. split; [symmetry; apply Permutation_rev|].
  unfold km_train. change (km_start three [0; 2]%Z) with (Ok [[0]; [5]]). cbn [obind length repeat km_loop]. rewrite A1. cbn [obind fst snd]. rewrite Cc. cbn [obind].
  destruct (Rle_dec _ _) as [_|Q]; [reflexivity|exfalso; apply Q; rewrite Ev, Rabs_right; lra].
Qed.
