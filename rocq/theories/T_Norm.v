(** Property lemmas for normalize: C15, C86. *)
From Coq Require Import ZArith Bool String Sorted List Reals Lia Lra.
From Verif Require Import Base ListLib M_Data S_Data Loop L_Vec S_Ens T_Ens M_Norm S_Norm T_Data.
Import ListNotations.
Local Open Scope nat_scope.

Lemma rpow_absp p v : rpow (Rabs v) p = absp p v.
Proof. unfold rpow, absp. destruct (Req_EM_T v 0) as [->|N]; [rewrite Rabs_R0; destruct (Rlt_dec 0 0); lra|]. pose proof (Rabs_pos_lt v N). destruct (Rlt_dec 0 (Rabs v)); lra. Qed.
Lemma absp_nonneg p v : (0 <= absp p v)%R.
Proof. unfold absp. destruct (Req_EM_T v 0); [lra|]. left. apply exp_pos. Qed.
Lemma sum_sumn l : sum l = sumn (length l) (fun i => nth i l 0%R).
Proof.
  induction l as [|x l IH] using rev_ind; [reflexivity|]. rewrite app_length. cbn [length]. rewrite Nat.add_1_r. cbn [sumn]. rewrite sum_app. cbn [sum]. rewrite IH, app_nth2, Nat.sub_diag by lia. cbn [nth].
  rewrite (sumn_ext (length l) (fun i => nth i (l ++ [x]) 0%R) (fun i => nth i l 0%R)); [lra|]. intros i Hi. now rewrite app_nth1.
Qed.
Lemma normp_nonneg p x : (0 <= normp p x)%R.
Proof. unfold normp. induction x as [|v x IH]; cbn; [lra|]. pose proof (absp_nonneg p v). lra. Qed.
Lemma osum_normp p x : osum (length x) (fun j => let* v := vget x j in Ok (rpow (Rabs v) p)) = Ok (normp p x).
Proof.
  unfold normp. rewrite (osum_ok _ _ (fun j => absp p (nth j x 0%R))); [|intros i Hi; rewrite (vget_nth x i 0%R) by auto; cbn [obind]; now rewrite rpow_absp]. f_equal.
  rewrite sum_sumn, map_length. apply sumn_ext. intros i Hi. rewrite (nth_indep (map (absp p) x) 0%R (absp p 0%R)) by (rewrite map_length; auto). now rewrite map_nth.
Qed.
Lemma scale_all (c : R) x : ofold (fun x j => vupd j (fun v => (v / c)%R) x) (seq 0 (length x)) x = Ok (map (fun v => (v / c)%R) x).
Proof.
  destruct (ofold_seq (fun x j => vupd j (fun v => (v / c)%R) x) (fun i y => y = map (fun v => (v / c)%R) (firstn i x) ++ skipn i x) (length x) x) as (t & E & ->); [reflexivity| |rewrite E, firstn_all, skipn_all, app_nil_r; reflexivity].
  intros i t Hi ->. destruct (nth_error x i) as [a|] eqn:Ea; [|apply nth_error_None in Ea; lia]. clear Hi. eexists. split; [|reflexivity]. revert i Ea. unfold vupd. induction x as [|y x IH]; intros [|i] Ea; try discriminate; [reflexivity|]. cbn [firstn map skipn app upd]. specialize (IH i Ea). destruct (upd i _ _) as [r|]; [|discriminate]. injection IH as ->. reflexivity.
Qed.
Lemma rpow_inv p s : (0 < p)%R -> (0 < s)%R -> (0 < rpow s (1 / p))%R /\ Rpower (rpow s (1 / p)) p = s.
Proof.
  intros P S. unfold rpow. destruct (Rlt_dec 0 s); [|lra]. split; [apply exp_pos|]. rewrite Rpower_mult. replace (1 / p * p)%R with 1%R by (field; lra). now apply Rpower_1.
Qed.
Lemma absp_div p v c : (0 < c)%R -> absp p (v / c) = (absp p v / Rpower c p)%R.
Proof.
  intro C. assert (0 < Rpower c p)%R as Pc by apply exp_pos. unfold absp. destruct (Req_EM_T v 0) as [->|N].
  - destruct (Req_EM_T (0 / c) 0) as [_|E]; [field; lra|]. exfalso. apply E. field. lra.
  - destruct (Req_EM_T (v / c) 0) as [E|_]; [exfalso; apply N; apply (Rmult_eq_reg_r (/ c)); [|apply Rinv_neq_0_compat; lra]; lra|].
    unfold Rdiv at 1. rewrite Rabs_mult, (Rabs_pos_eq (/ c)) by (left; now apply Rinv_0_lt_compat). rewrite <- Rpower_mult_distr; [|now apply Rabs_pos_lt|now apply Rinv_0_lt_compat]. unfold Rdiv. f_equal.
    unfold Rpower. rewrite ln_Rinv by auto. rewrite <- exp_Ropp. f_equal. lra.
Qed.
Lemma sum_div l c : sum (map (fun v => (v / c)%R) l) = (sum l / c)%R.
Proof. induction l as [|x l IH]; cbn; [lra|]. rewrite IH. lra. Qed.
Lemma normp_div p x c : (0 < c)%R -> normp p (map (fun v => (v / c)%R) x) = (normp p x / Rpower c p)%R.
Proof. intro C. unfold normp. rewrite map_map, (map_ext _ (fun v => (absp p v / Rpower c p)%R)) by (intro; now apply absp_div). rewrite <- sum_div, map_map. reflexivity. Qed.
Lemma normalize_x_ok p x : (0 < p)%R -> exists c, (0 < c)%R /\ normalize_x p (length x) x = Ok (Some (map (Rmult c) (x ++ [1%R]))) /\ normp p (map (Rmult c) (x ++ [1%R])) = 1%R.
Proof.
  intro P. unfold normalize_x. rewrite osum_normp. cbn [obind]. unfold vresize. rewrite firstn_all2 by lia. replace (S (length x) - length x) with 1 by lia. cbn [repeat].
  assert (vupd (length x) (fun _ => 1%R) (x ++ [0%R]) = Ok (x ++ [1%R])) as -> by (unfold vupd; induction x as [|y x IH]; cbn; [reflexivity|]; destruct (upd (length x) _ _) as [r|]; [|discriminate]; injection IH as ->; reflexivity). cbn [obind].
  assert (rpow (Rabs 1) p = absp p 1) as -> by apply rpow_absp. set (s := (normp p x + absp p 1)%R). assert (normp p (x ++ [1%R]) = s) as Es by (unfold normp, s; rewrite map_app, sum_app; cbn; unfold normp; lra).
  assert (absp p 1 = 1)%R as A1. { unfold absp. destruct (Req_EM_T 1 0); [lra|]. rewrite Rabs_R1. unfold Rpower. rewrite ln_1, Rmult_0_r. apply exp_0. }
  assert (0 < s)%R as Ps by (unfold s; pose proof (normp_nonneg p x); lra). destruct (rpow_inv p s P Ps) as [Pc Pw]. set (c := rpow s (1 / p)) in *. destruct (Req_EM_T c 0); [lra|].
  replace (S (length x)) with (length (x ++ [1%R])) by (rewrite app_length; cbn; lia). rewrite scale_all. cbn [obind]. exists (/ c)%R. split; [now apply Rinv_0_lt_compat|].
  assert (map (Rmult (/ c)) (x ++ [1%R]) = map (fun v => (v / c)%R) (x ++ [1%R])) as -> by (apply map_ext; intro; unfold Rdiv; ring). split; [reflexivity|]. rewrite normp_div, Es, Pw by auto. field. lra.
Qed.
Lemma normalize_points_ok p n pts : (0 < p)%R -> (forall q, In q pts -> length (p_x q) = n) -> exists r, normalize_points p n pts = Ok (Some r) /\ Forall2 (normalised p) pts r.
Proof.
  intros P. induction pts as [|q pts IH]; intro H; [cbn; eauto|]. destruct IH as (r & E & F); [intros; apply H; now right|]. cbn [normalize_points]. rewrite <- (H q) by now left. destruct (normalize_x_ok p (p_x q) P) as (c & C & Ex & N). rewrite Ex. cbn [obind]. rewrite (H q) by now left. rewrite E. cbn [obind].
  eexists. split; [reflexivity|]. constructor; [|auto]. unfold normalised. cbn. repeat split; auto. exists c. auto.
Qed.
Lemma dim_ok (d : data R) : data_ok d -> dim d = d_dim d.
Proof. intro D. unfold dim. destruct (d_points d) as [|q r] eqn:E; [symmetry; now apply (ok_empty _ D)|]. apply (ok_dim _ D). rewrite E. now left. Qed.
Lemma normalize_ok p (d : data R) : (0 < p)%R -> data_ok d -> exists pts, Forall2 (normalised p) (d_points d) pts /\
  normalize p d = Ok (Some (mkData pts (d_fnames d ++ [match d_points d with [] => 0%Z | _ => Z.of_nat (S (d_dim d)) end]) (d_index d) (d_cnames d) (d_classes d) (d_dist d) (d_size d) (S (d_dim d)) (d_isempty d) true (d_cdist d) (d_class d))).
Proof.
  intros P D. unfold normalize. rewrite (ok_size _ D), Nat.ltb_irrefl, firstn_all, skipn_all, (dim_ok d D). destruct (normalize_points_ok p (d_dim d) (d_points d) P) as (r & E & F); [apply (ok_dim _ D)|]. rewrite E. cbn [obind]. rewrite app_nil_r. exists r. split; [auto|]. assert (dim (mkData r (d_fnames d) (d_index d) (d_cnames d) (d_classes d) (d_dist d) (length (d_points d)) (S (d_dim d)) (d_isempty d) true (d_cdist d) (d_class d)) = match d_points d with [] => 0 | _ => S (d_dim d) end) as Q.
  { unfold dim. cbn [d_points]. destruct (d_points d) as [|q qs] eqn:Ed; inversion F as [|a b la lb N F' Ea Eb]; subst; [reflexivity|]. destruct N as (_ & _ & _ & (c & _ & ->) & _). rewrite map_length, app_length. cbn [length]. rewrite (ok_dim _ D) by (rewrite Ed; now left). lia. }
  rewrite Q. destruct (d_points d); reflexivity.
Qed.
(** C15. *)
Lemma c15_normalize : forall p (d : data R), (0 < p)%R -> data_ok d -> exists d', normalize p d = Ok (Some d') /\ Forall2 (normalised p) (d_points d) (d_points d') /\ d_dim d' = S (d_dim d) /\ d_size d' = d_size d /\
  (exists f, d_fnames d' = d_fnames d ++ [f]) /\ d_classes d' = d_classes d /\ d_dist d' = d_dist d /\ d_cnames d' = d_cnames d /\ d_index d' = d_index d /\ d_normalized d' = true.
Proof. intros p d P D. destruct (normalize_ok p d P D) as (pts & F & E). rewrite E. eexists. split; [reflexivity|]. cbn. repeat split; auto. eexists. reflexivity. Qed.
Lemma abs_pow2 v : absp 2 v = (v * v)%R.
Proof. unfold absp. destruct (Req_EM_T v 0) as [->|N]; [ring|]. change 2%R with (INR 2). rewrite Rpower_pow by now apply Rabs_pos_lt. cbn. rewrite Rmult_1_r, <- Rabs_mult. apply Rabs_pos_eq. nra. Qed.
Lemma abs_pow1 v : absp 1 v = Rabs v.
Proof. unfold absp. destruct (Req_EM_T v 0) as [->|N]; [now rewrite Rabs_R0|]. apply Rpower_1. now apply Rabs_pos_lt. Qed.
(** C15 for p = 2 (the default): the squares of the coordinates of every point sum to one; for p = 1 the absolute values. *)
Lemma c15_euclid : forall (d : data R), data_ok d -> exists d', normalize 2 d = Ok (Some d') /\ forall q, In q (d_points d') -> sum (map (fun v => v * v)%R (p_x q)) = 1%R.
Proof.
  intros d D. destruct (c15_normalize 2 d ltac:(lra) D) as (d' & E & F & _). exists d'. split; [auto|]. intros q I. induction F as [|a b la lb N F IH]; [destruct I|]. destruct I as [<-|I]; [|auto]. destruct N as (_ & _ & _ & _ & N). unfold normp in N. rewrite (map_ext _ (fun v => v * v)%R) in N by apply abs_pow2. exact N.
Qed.
Lemma c15_taxicab : forall (d : data R), data_ok d -> exists d', normalize 1 d = Ok (Some d') /\ forall q, In q (d_points d') -> sum (map Rabs (p_x q)) = 1%R.
Proof.
  intros d D. destruct (c15_normalize 1 d ltac:(lra) D) as (d' & E & F & _). exists d'. split; [auto|]. intros q I. induction F as [|a b la lb N F IH]; [destruct I|]. destruct I as [<-|I]; [|auto]. destruct N as (_ & _ & _ & _ & N). unfold normp in N. rewrite (map_ext _ Rabs) in N by apply abs_pow1. exact N.
Qed.
(** Two points of two features. *)
Definition nx (names : list Z) : data R := mkData [mkPoint [3; 4]%R 1%Z 1%Z 0%R; mkPoint [0; -2]%R 2%Z 2%Z 0%R] names [0; 1]%Z ["1"; "2"]%string [1; 2]%Z [1; 1]%Z 2 2 false false true true.
Lemma nx_ok names : length names = 2 -> StronglySorted Z.lt names -> (forall f, In f names -> (0 < f)%Z) -> data_ok (nx names).
Proof.
  intros L St Po. constructor; cbn; auto; try lia; try discriminate.
  - constructor; cbn; auto.
    + repeat constructor; cbn; lia.
    + intros p [<-|[<-|[]]]; cbn; auto.
    + intros [|[|i]] c E; cbn in E; [injection E as <-; reflexivity|injection E as <-; reflexivity|destruct i; discriminate].
  - intros p [<-|[<-|[]]]; reflexivity.
Qed.
Lemma nx12 : data_ok (nx [1; 2]%Z).
Proof. apply nx_ok; [reflexivity|repeat constructor; lia|intros f [<-|[<-|[]]]; lia]. Qed.
Lemma nx23 : data_ok (nx [2; 3]%Z).
Proof. apply nx_ok; [reflexivity|repeat constructor; lia|intros f [<-|[<-|[]]]; lia]. Qed.
Lemma c15_normalize_ex : (0 < 3)%R /\ data_ok (nx [1; 2]%Z).
Proof. split; [lra|apply nx12]. Qed.
Lemma c15_euclid_ex : data_ok (nx [1; 2]%Z).
Proof. apply nx12. Qed.

(** C86: a non-empty dataset none of whose features was removed (names up to the dimension) stays well formed. *)
Lemma sorted_snoc l f : StronglySorted Z.lt l -> (forall x, In x l -> (x < f)%Z) -> StronglySorted Z.lt (l ++ [f]).
Proof.
  induction l as [|x l IH]; intros S H; [repeat constructor|]. cbn. apply StronglySorted_inv in S as [S F]. constructor; [apply IH; [auto|intros; apply H; now right]|]. apply Forall_app. split; [auto|]. repeat constructor. apply H. now left.
Qed.
Lemma normalised_labels p pts r : Forall2 (normalised p) pts r -> map p_y r = map p_y pts.
Proof. induction 1 as [|a b la lb N F IH]; cbn; [auto|]. destruct N as [E _]. congruence. Qed.
Lemma c86_well_formed : forall p (d : data R), (0 < p)%R -> data_ok d -> d_points d <> [] -> (forall f, In f (d_fnames d) -> (f <= Z.of_nat (d_dim d))%Z) -> exists d', normalize p d = Ok (Some d') /\ data_ok d'.
Proof.
  intros p d P D NE B. destruct (normalize_ok p d P D) as (pts & F & E). eexists. split; [exact E|]. assert (length pts = length (d_points d)) as L by (symmetry; clear -F; induction F; cbn; congruence).
  pose proof (normalised_labels _ _ _ F) as Ly. assert (forall c, label_count c pts = label_count c (d_points d)) as Lc by (intro; unfold label_count, labels; now rewrite Ly).
  constructor; cbn.
  - rewrite L. apply (ok_size _ D).
  - destruct (ok_class _ D) as [C1 C2 C3 C4 C5]. constructor; cbn; auto.
    + intros q I. assert (In (p_y q) (map p_y pts)) as J by now apply in_map. rewrite Ly in J. apply in_map_iff in J as (q' & <- & J). now apply C3.
    + intros i c Ei. rewrite Lc. now apply C5.
  - apply (ok_names _ D).
  - rewrite L. apply (ok_index _ D).
  - intros q I. clear -F I D. assert (forall q, In q (d_points d) -> length (p_x q) = d_dim d) as K by apply (ok_dim _ D). clear D. induction F as [|a b la lb N F IH]; [destruct I|]. destruct I as [<-|I]; [|apply IH; [auto|intros; apply K; now right]]. destruct N as (_ & _ & _ & (c & _ & ->) & _). rewrite map_length, app_length, (K a) by now left. cbn. lia.
  - rewrite app_length, (ok_fnames _ D). cbn. lia.
  - apply sorted_snoc; [apply (ok_sorted _ D)|]. intros f I. specialize (B f I). destruct (d_points d); [congruence|]. lia.
  - intros f I. apply in_app_or in I as [I|[<-|[]]]; [now apply (ok_fpos _ D)|]. destruct (d_points d); [congruence|]. lia.
  - intros ->. destruct (d_points d); [congruence|discriminate].
  - rewrite L. apply (ok_cap _ D).
Qed.
Lemma c86_well_formed_ex : (0 < 2)%R /\ data_ok (nx [1; 2]%Z) /\ d_points (nx [1; 2]%Z) <> [] /\ (forall f, In f (d_fnames (nx [1; 2]%Z)) -> (f <= Z.of_nat (d_dim (nx [1; 2]%Z)))%Z).
Proof. split; [lra|]. split; [apply nx12|]. split; [discriminate|]. cbn. intros f [<-|[<-|[]]]; lia. Qed.
(** C86 fails after features were removed: the new feature gets the name of one that exists. *)
Lemma c86_removed_refuted : forall p (d : data R), (0 < p)%R -> data_ok d -> d_points d <> [] -> In (Z.of_nat (S (d_dim d))) (d_fnames d) -> exists d', normalize p d = Ok (Some d') /\ ~ NoDup (d_fnames d').
Proof.
  intros p d P D NE I. destruct (normalize_ok p d P D) as (pts & F & E). eexists. split; [exact E|]. cbn [d_fnames]. destruct (d_points d); [congruence|]. intro N. apply NoDup_remove in N as [_ N]. apply N. now rewrite app_nil_r.
Qed.
Lemma c86_removed_refuted_ex : (0 < 2)%R /\ data_ok (nx [2; 3]%Z) /\ d_points (nx [2; 3]%Z) <> [] /\ In (Z.of_nat (S (d_dim (nx [2; 3]%Z)))) (d_fnames (nx [2; 3]%Z)).
Proof. split; [lra|]. split; [apply nx23|]. split; [discriminate|]. cbn. tauto. Qed.
(** ... and for an empty dataset: the new feature is named 0. *)
Lemma c86_empty_refuted : forall p (d : data R), (0 < p)%R -> data_ok d -> d_points d = [] -> exists d', normalize p d = Ok (Some d') /\ d_points d' = [] /\ d_dim d' = 1 /\ d_fnames d' = [0%Z].
Proof.
  intros p d P D NE. destruct (normalize_ok p d P D) as (pts & F & E). eexists. split; [exact E|]. cbn. rewrite NE in *. inversion F. subst. rewrite (ok_empty _ D NE). repeat split; auto. pose proof (ok_fnames _ D) as L. rewrite (ok_empty _ D NE) in L. destruct (d_fnames d); [reflexivity|discriminate].
Qed.
