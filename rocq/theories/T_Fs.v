(** Proofs about feature selection. *)
From Coq Require Import String ZArith Bool Reals Lia Lra List Permutation Sorted.
From Verif Require Import Base ListLib Loop L_Vec M_Data S_Data L_Data L_Insert L_Feat L_Smo L_Knn M_Kmeans T_Kmeans S_Stat T_Stat M_Fs S_Fs.
Import ListNotations.
Local Open Scope nat_scope.

Lemma keep_twice {T} (k1 k2 : Z -> bool) (names : list Z) : forall xs : list T, length names = length xs ->
  keep_features k2 (filter k1 names) (keep_features k1 names xs) = keep_features (fun n => k1 n && k2 n) names xs.
Proof.
  unfold keep_features. induction names as [|n names IH]; intros [|x xs] L; cbn in L; try discriminate; [reflexivity|]. injection L as L.
  cbn [combine filter map fst]. destruct (k1 n); cbn [andb].
  - cbn [combine map snd]. cbn [filter fst]. destruct (k2 n); cbn [map snd]; rewrite IH; auto.
  - apply IH; auto.
Qed.
Lemma filter_and {A} (f g : A -> bool) l : filter g (filter f l) = filter (fun x => f x && g x) l.
Proof. induction l as [|x l IH]; cbn; [reflexivity|]. destruct (f x); cbn; [destruct (g x); rewrite IH; reflexivity|exact IH]. Qed.
Lemma restricted_ext k k' d e : (forall n, In n (d_fnames d) -> k n = k' n) -> restricted k d e -> restricted k' d e.
Proof.
  intros H (F & P & C). split; [rewrite F; apply filter_ext_in; exact H|]. split; [|exact C]. rewrite P. apply map_ext. intro p. f_equal. apply keep_features_ext. exact H.
Qed.
Lemma restricted_all d : data_ok d -> restricted (fun _ => true) d d.
Proof.
  intro O. split; [rewrite filter_all; auto|]. split; [|repeat split].
  rewrite <- (map_id (d_points d)) at 1. apply map_ext_in. intros p Hp. rewrite keep_all; [destruct p; reflexivity| |auto]. rewrite (ok_fnames _ O). symmetry. apply (ok_dim _ O). exact Hp.
Qed.
Lemma rm_ok d cur keep feats : data_ok d -> data_ok cur -> d_points d <> [] -> restricted keep d cur -> feats <> [] -> length (d_fnames cur) <> 1 ->
  NoDup (filter (fun f => memZ f (d_fnames cur)) feats) ->
  exists c, removeFeatures cur feats = Ok (c, true) /\ data_ok c /\ restricted (fun n => keep n && negb (memZ n feats)) d c.
Proof.
  intros O Oc N (F & P & C1 & C2 & C3) Nf L ND. destruct (removeFeatures_spec cur feats Oc Nf L ND) as (c & E & Hp & Hf & _ & _ & Hcn & Hcl & Hds & _).
  exists c. split; [exact E|]. split.
  - apply (removeFeatures_ok cur feats c true Oc ND); [|exact E]. intro Z. rewrite P in Z. apply map_eq_nil in Z. auto.
  - split; [rewrite Hf, F; apply filter_and|]. split; [|repeat split; congruence]. rewrite Hp, P, map_map. apply map_ext_in. intros p Ip. unfold project. cbn [p_x p_y p_id p_alpha]. f_equal.
    rewrite F. apply keep_twice. rewrite (ok_fnames _ O). symmetry. apply (ok_dim _ O). exact Ip.
Qed.
Lemma data_dim (d : data R) : data_ok d -> d_points d <> [] -> dim d = length (d_fnames d).
Proof. intros O N. unfold dim. rewrite (ok_fnames _ O). pose proof (ok_dim _ O) as D. destruct (d_points d) as [|p l]; [congruence|]. apply D. left. reflexivity. Qed.
Lemma copy_ok (d : data R) : data_ok d -> d_points d <> [] -> copy d = d.
Proof.
  intros O N. unfold copy. rewrite (data_dim d O N), (ok_fnames _ O). unfold size. rewrite <- (ok_size _ O).
  replace (map _ (d_points d)) with (d_points d); [destruct d; reflexivity|]. rewrite <- (map_id (d_points d)) at 1. apply map_ext. intros []. reflexivity.
Qed.

Lemma NoDup_app_disj {A} (l l' : list A) : NoDup (l ++ l') -> forall x, In x l -> In x l' -> False.
Proof. induction l as [|y l IH]; intros N x Hx Hx'; [destruct Hx|]. inversion N as [|? ? N1 N2]; subst. destruct Hx as [->|Hx]; [apply N1, in_or_app; auto|apply (IH N2 x); auto]. Qed.
(** The features in order of score: the first [k] are left out. *)
Definition entries (d : data R) (score : nat -> R) : list (Z * R) := map (fun j => (nth j (d_fnames d) 0%Z, score j)) (seq 0 (length (d_fnames d))).
Lemma map_nth_seq {A} (l : list A) x : map (fun i => nth i l x) (seq 0 (length l)) = l.
Proof. induction l as [|a l IH]; cbn [length seq map]; [reflexivity|]. cbn [nth]. f_equal. rewrite <- seq_shift, map_map. exact IH. Qed.
Lemma entries_names d score : map fst (entries d score) = d_fnames d.
Proof. unfold entries. rewrite map_map. apply map_nth_seq. Qed.
Lemma not_firstn (l : list Z) k : NoDup l -> filter (fun n => negb (memZ n (firstn k l))) l = skipn k l.
Proof.
  revert k. induction l as [|x l IH]; intros [|k] N; cbn [firstn skipn]; try reflexivity.
  - apply filter_all. reflexivity.
  - inversion N as [|? ? N1 N2]; subst. cbn [filter]. assert (memZ x (x :: firstn k l) = true) as -> by (apply memZ_In; left; reflexivity). cbn [negb].
    rewrite <- (IH k N2). apply filter_ext_in. intros y Hy. f_equal. destruct (memZ y (firstn k l)) eqn:M.
    + apply memZ_In. right. apply memZ_In. exact M.
    + apply memZ_notIn. apply memZ_notIn in M. intros [->|H]; auto.
Qed.
Lemma before_after (key : R -> R) (l : list (Z * R)) k a b : StronglySorted (fun a b => key (snd a) <= key (snd b))%R l -> In a (firstn k l) -> In b (skipn k l) -> (key (snd a) <= key (snd b))%R.
Proof.
  revert k. induction l as [|x l IH]; intros [|k] S Ha Hb; cbn [firstn skipn] in *; try contradiction. inversion S as [|? ? S1 S2]; subst. destruct Ha as [->|Ha].
  - rewrite Forall_forall in S2. apply S2. rewrite <- (firstn_skipn k l). apply in_or_app. right. exact Hb.
  - apply (IH k); auto.
Qed.
Lemma best_ranked key score k d e l : data_ok d -> Permutation l (entries d score) -> StronglySorted (fun a b => key (snd a) <= key (snd b))%R l ->
  k <= length (d_fnames d) -> restricted (fun n => negb (memZ n (firstn k (map fst l)))) d e -> best (fun j => key (score j)) (length (d_fnames d) - k) d e.
Proof.
  intros O P St Hk Hr. exists (fun n => negb (memZ n (firstn k (map fst l)))). split; [exact Hr|].
  assert (Permutation (map fst l) (d_fnames d)) as Pn by (rewrite <- (entries_names d score); apply Permutation_map; exact P).
  assert (NoDup (d_fnames d)) as Nd by (apply sorted_lt_NoDup; apply (ok_sorted _ O)).
  assert (NoDup (map fst l)) as Nl by (eapply Permutation_NoDup; [apply Permutation_sym; exact Pn|exact Nd]). split.
  - destruct Hr as (-> & _). rewrite <- (Permutation_length (Permutation_filter (fun n => negb (memZ n (firstn k (map fst l)))) _ _ Pn)), not_firstn by exact Nl. rewrite skipn_length, (Permutation_length Pn). reflexivity.
  - intros i j Hi Hj Ki Kj. apply negb_true_iff, memZ_notIn in Ki. apply negb_false_iff, memZ_In in Kj.
    assert (forall i, i < length (d_fnames d) -> In (nth i (d_fnames d) 0%Z, score i) l) as G.
    { intros n Hn. apply (Permutation_in _ (Permutation_sym P)). unfold entries. apply in_map_iff. exists n. split; [reflexivity|]. apply in_seq. lia. }
    pose proof (G _ Hi) as Gi. pose proof (G _ Hj) as Gj. apply (before_after key l k (nth j (d_fnames d) 0%Z, score j) (nth i (d_fnames d) 0%Z, score i) St).
    + rewrite firstn_map in Kj. apply in_map_iff in Kj. destruct Kj as ([f s] & Ef & If). cbn [fst] in Ef. subst f.
      rewrite <- (firstn_skipn k l) in Gj. apply in_app_or in Gj. destruct Gj as [Gj|Gj]; [exact Gj|exfalso].
      rewrite <- (firstn_skipn k l), map_app in Nl. apply (NoDup_app_disj _ _ Nl (nth j (d_fnames d) 0%Z)); [apply (in_map fst) in If; exact If|apply (in_map fst) in Gj; exact Gj].
    + rewrite <- (firstn_skipn k l) in Gi. apply in_app_or in Gi. destruct Gi as [Gi|Gi]; [exfalso|exact Gi]. apply Ki. rewrite firstn_map. apply (in_map fst) in Gi. exact Gi.
Qed.

(** Scores. *)
Lemma fs_fold (f : R -> R) lab j l : (forall p : point R, In p l -> j < length (p_x p)) -> forall s : nat * R,
  ofold (fun s p => if lab (p_y p) : bool then let* x := vget (p_x p) j in Ok (S (fst s), (snd s + f x)%R) else Ok s) l s =
  Ok (fst s + length (filter (fun p => lab (p_y p)) l), (snd s + sumn (length (filter (fun p => lab (p_y p)) l)) (fun i => f (nz (nth i (map p_x (filter (fun p => lab (p_y p)) l)) []) j)))%R).
Proof.
  induction l as [|p l IH]; intros D [n x]; cbn [ofold filter]; [cbn [length sumn fst snd]; f_equal; f_equal; [lia|lra]|].
  specialize (IH (fun q H => D q (or_intror H))). destruct (lab (p_y p)).
  - rewrite vget_nz by (apply D; left; reflexivity). cbn [obind]. rewrite IH. cbn [length fst snd]. rewrite sumn_S. cbn [map nth]. f_equal. f_equal; [lia|lra].
  - cbn [obind]. apply IH.
Qed.
Lemma fs_sum_ok d ng i f lab : (forall y, Bool.eqb (Z.eqb y (-1)) ng = lab y) -> (forall p, In p (d_points d) -> i < length (p_x p)) ->
  fs_sum d ng i f = Ok (length (members d lab), sumn (length (members d lab)) (fun k => f (nz (nth k (map p_x (members d lab)) []) i))).
Proof.
  intros L D. unfold fs_sum, size. rewrite (ofold_vget (fun s (p : point R) => if Bool.eqb (Z.eqb (p_y p) (-1)) ng then let* x := vget (p_x p) i in Ok (S (fst s), (snd s + f x)%R) else Ok s)).
  transitivity (ofold (fun s (p : point R) => if lab (p_y p) then let* x := vget (p_x p) i in Ok (S (fst s), (snd s + f x)%R) else Ok s) (d_points d) (0, 0%R)).
  2: { rewrite (fs_fold f lab i (d_points d) D (0, 0%R)). cbn [fst snd Nat.add]. rewrite Rplus_0_l. reflexivity. }
  generalize (0, 0%R). induction (d_points d) as [|p l IH]; intro s; cbn [ofold]; [reflexivity|]. rewrite L. specialize (IH (fun q H => D q (or_intror H))).
  destruct (lab (p_y p)); [|cbn [obind]; apply IH]. destruct (vget (p_x p) i); cbn [obind]; [apply IH| |]; reflexivity.
Qed.
Lemma fs_avg_ok d ng i lab : (forall y, Bool.eqb (Z.eqb y (-1)) ng = lab y) -> (forall p, In p (d_points d) -> i < length (p_x p)) -> 2 <= length (members d lab) ->
  fs_avg d ng i = Ok (Some (label_mean d lab i)).
Proof. intros L D H. unfold fs_avg. rewrite (fs_sum_ok d ng i _ lab L D). cbn [obind fst snd]. destruct (Nat.eqb_spec (length (members d lab)) 0); [lia|]. reflexivity. Qed.
Lemma fs_sd_ok d ng i lab : (forall y, Bool.eqb (Z.eqb y (-1)) ng = lab y) -> (forall p, In p (d_points d) -> i < length (p_x p)) -> 2 <= length (members d lab) ->
  fs_sd d ng i = Ok (Some (label_sd d lab i)).
Proof. intros L D H. unfold fs_sd. rewrite (fs_avg_ok d ng i lab L D H). cbn [obind]. rewrite (fs_sum_ok d ng i _ lab L D). cbn [obind fst snd]. destruct (Nat.ltb_spec (length (members d lab)) 2); [lia|]. reflexivity. Qed.
Definition score (f : bool) (d : data R) (j : nat) : R := if f then fisher d j else golub d j.
Lemma label_neg y : Bool.eqb (Z.eqb y (-1)) true = neg y.
Proof. unfold neg. destruct (Z.eqb y (-1)); reflexivity. Qed.
Lemma label_pos y : Bool.eqb (Z.eqb y (-1)) false = pos y.
Proof. unfold pos, neg. destruct (Z.eqb y (-1)); reflexivity. Qed.
Lemma fs_score_ok f d i : data_ok d -> scorable d -> i < length (d_fnames d) -> fs_score f d i = Ok (Some (score f d i)).
Proof.
  intros O (P & N & Z) Hi. assert (forall p, In p (d_points d) -> i < length (p_x p)) as D by (intros p Hp; rewrite (ok_dim _ O p Hp), <- (ok_fnames _ O); exact Hi).
  unfold fs_score. rewrite (fs_avg_ok d _ i _ label_pos D P). cbn [obind]. rewrite (fs_avg_ok d _ i _ label_neg D N). cbn [obind]. rewrite (fs_sd_ok d _ i _ label_pos D P). cbn [obind]. rewrite (fs_sd_ok d _ i _ label_neg D N). cbn [obind].
  destruct (Req_EM_T _ 0) as [E|_]; [exfalso; exact (Z i Hi E)|]. unfold score. destruct f; reflexivity.
Qed.
Lemma fs_scores_ok f d : data_ok d -> d_points d <> [] -> scorable d -> fs_scores f d = Ok (map (fun s => (fst s, Some (snd s))) (entries d (score f d))).
Proof.
  intros O N H. unfold fs_scores, entries. rewrite (data_dim d O N), map_map. apply map_outcome_Ok. intros i Hi. apply in_seq in Hi. rewrite (vget_nth _ i 0%Z) by lia. cbn [obind]. rewrite fs_score_ok by (auto; lia). reflexivity.
Qed.

(** The loop. *)
Section Rank.
Context (d : data R) (sorted : list (Z * R)) (train : nat -> data R -> bool) (fill : Z).
Context (O : data_ok d) (N : d_points d <> []) (Pn : Permutation (map fst sorted) (d_fnames d)) (Hf : (fill <= 0)%Z).
Let n := length (d_fnames d).
Definition without (i : nat) : Z -> bool := fun x => negb (memZ x (firstn i (map fst sorted))).
Lemma sorted_len : length sorted = n.
Proof using Pn. rewrite <- (map_length fst), (Permutation_length Pn). reflexivity. Qed.
Lemma left_len i cur : i <= n -> restricted (without i) d cur -> length (d_fnames cur) = n - i.
Proof using O Pn.
  intros Hi (F & _). rewrite F. rewrite <- (Permutation_length (Permutation_filter (without i) _ _ Pn)). unfold without.
  rewrite not_firstn, skipn_length, (Permutation_length Pn); [reflexivity|]. eapply Permutation_NoDup; [apply Permutation_sym, Pn|]. apply sorted_lt_NoDup, (ok_sorted _ O).
Qed.
Lemma filter_nil {A} (f : A -> bool) l : (forall x, In x l -> f x = false) -> filter f l = [].
Proof. induction l as [|x l IH]; intro H; cbn; [reflexivity|]. rewrite H by (left; reflexivity). apply IH. intros y Hy. apply H. right. exact Hy. Qed.
Lemma nth_first {A} (l : list A) i x : nth_error l i = Some x -> firstn (S i) l = firstn i l ++ [x].
Proof. revert i. induction l as [|y l IH]; intros [|i] E; try discriminate; [injection E as ->; reflexivity|]. change (firstn (S (S i)) (y :: l)) with (y :: firstn (S i) l). rewrite (IH i E). reflexivity. Qed.
Lemma fill_out (cur : data R) k i : restricted (without i) d cur -> forall x, In x (repeat fill k) -> memZ x (d_fnames cur) = false.
Proof using O Hf. intros (F & _) x Hx. apply repeat_spec in Hx. subst x. apply memZ_notIn. rewrite F. intro I. apply filter_In in I. pose proof (ok_fpos _ O fill (proj1 I)). lia. Qed.
Lemma step_ok i cur m : i < n -> n - i <> 1 -> data_ok cur -> restricted (without i) d cur ->
  exists c, removeFeatures cur (firstn (S i) (map fst sorted) ++ repeat fill m) = Ok (c, true) /\ data_ok c /\ restricted (without (S i)) d c.
Proof using O N Pn Hf.
  intros Hi H1 Oc Hr. pose proof sorted_len as SL. assert (length (map fst sorted) = n) as SL' by (rewrite map_length; exact SL).
  destruct (nth_error (map fst sorted) i) as [x|] eqn:Ex; [|apply nth_error_None in Ex; lia]. rewrite (nth_first _ _ _ Ex).
  assert (forall y, In y (firstn i (map fst sorted)) -> memZ y (d_fnames cur) = false) as Hold.
  { intros y Hy. apply memZ_notIn. destruct Hr as (F & _). rewrite F. intro I. apply filter_In in I. destruct I as (_ & I). unfold without in I. apply negb_true_iff, memZ_notIn in I. auto. }
  pose proof (fill_out cur m i Hr) as Hnew.
  destruct (rm_ok d cur (without i) ((firstn i (map fst sorted) ++ [x]) ++ repeat fill m) O Oc N Hr) as (c & E & C & Rc).
  - intro Z. apply app_eq_nil in Z. destruct Z as (Z & _). apply app_eq_nil in Z. destruct Z. discriminate.
  - rewrite (left_len i cur) by (auto; lia). exact H1.
  - rewrite !filter_app, (filter_nil _ _ Hold), (filter_nil _ _ Hnew), app_nil_r. cbn [app filter]. destruct (memZ x (d_fnames cur)); repeat constructor. intros [].
  - exists c. split; [exact E|]. split; [exact C|]. apply (restricted_ext _ _ d c) with (2 := Rc). intros y Hy. unfold without. rewrite (nth_first _ _ _ Ex).
    destruct (memZ y (firstn i (map fst sorted))) eqn:M; cbn [negb andb].
    + symmetry. apply negb_false_iff, memZ_In, in_or_app. left. apply memZ_In. exact M.
    + f_equal. destruct (memZ y ((firstn i (map fst sorted) ++ [x]) ++ repeat fill m)) eqn:M2.
      * apply memZ_In in M2. apply in_app_or in M2. destruct M2 as [M2|M2]; [symmetry; apply memZ_In; exact M2|]. apply repeat_spec in M2. subst y. pose proof (ok_fpos _ O fill Hy). lia.
      * symmetry. apply memZ_notIn. apply memZ_notIn in M2. intro I. apply M2, in_or_app. left. exact I.
Qed.
Lemma one_left cur feats : length (d_fnames cur) = 1 -> feats <> [] -> removeFeatures cur feats = Ok (cur, false) :> outcome (data R * bool).
Proof. intros L Nf. unfold removeFeatures. destruct feats; [congruence|]. rewrite L. reflexivity. Qed.
Lemma loop_ok m : forall i cur, i + m <= n -> data_ok cur -> restricted (without (Nat.min i (n - 1))) d cur ->
  exists k ds, i <= k <= i + m /\ ds i = cur /\ (forall j, i <= j <= i + m -> j <= S k -> data_ok (ds j) /\ restricted (without (Nat.min j (n - 1))) d (ds j)) /\
    fs_loop train sorted (seq i m) (firstn i (map fst sorted) ++ repeat fill m) cur cur = Ok (ds k) /\
    (forall j, i < j <= k -> train j (ds j) = true) /\ (k < i + m -> train (S k) (ds (S k)) = false).
Proof using O N Pn Hf.
  induction m as [|m IH]; intros i cur Hi Oc Hr.
  - exists i, (fun _ => cur). repeat match goal with |- _ /\ _ => split end; try lia; try reflexivity. intros j Hj _. replace j with i by lia. split; [exact Oc|exact Hr].
  - pose proof sorted_len as SL. cbn [seq fs_loop]. destruct (vget_lt sorted i ltac:(lia)) as (x & Ex & Vx). rewrite Vx. cbn [obind].
    assert (length (firstn i (map fst sorted)) = i) as Li by (rewrite firstn_length, map_length; lia).
    assert (vupd i (fun _ : Z => fst x) (firstn i (map fst sorted) ++ repeat fill (S m)) = Ok (firstn (S i) (map fst sorted) ++ repeat fill m)) as U.
    { rewrite <- Li at 1. cbn [repeat]. rewrite vupd_mid. rewrite (nth_first (map fst sorted) i (fst x)), <- app_assoc; [reflexivity|]. rewrite nth_error_map, Ex. reflexivity. }
    rewrite U. cbn [obind].
    assert (exists c b, removeFeatures cur (firstn (S i) (map fst sorted) ++ repeat fill m) = Ok (c, b) /\ data_ok c /\ restricted (without (Nat.min (S i) (n - 1))) d c) as (c & b & E & Cc & Rc).
    { destruct (Nat.eq_dec (n - i) 1) as [e|ne].
      - exists cur, false. split; [|split; [exact Oc|]]. 2: { replace (Nat.min (S i) (n - 1)) with (Nat.min i (n - 1)) by lia. exact Hr. }
        apply one_left.
        + rewrite (left_len (Nat.min i (n - 1)) cur) by (auto; lia). lia.
        + intro E0. apply app_eq_nil in E0. destruct E0 as (E0 & _). apply (f_equal (@length Z)) in E0. rewrite firstn_length, map_length in E0. cbn [length] in E0. lia.
      - replace (Nat.min i (n - 1)) with i in Hr by lia. destruct (step_ok i cur m ltac:(lia) ne Oc Hr) as (c & E & Cc & Rc). exists c, true. split; [exact E|]. split; [exact Cc|]. replace (Nat.min (S i) (n - 1)) with (S i) by lia. exact Rc. }
    rewrite E. cbn [obind fst].
    assert (d_points c <> []) as Nc. { destruct Rc as (_ & P & _). rewrite P. intro Z. apply map_eq_nil in Z. auto. }
    destruct (train (S i) c) eqn:T.
    + rewrite (copy_ok c Cc Nc). destruct (IH (S i) c ltac:(lia) Cc Rc) as (k & ds & B1 & B2 & B3 & B4 & B5 & B6).
      exists k, (fun j => if Nat.eqb j i then cur else ds j). rewrite Nat.eqb_refl. repeat match goal with |- _ /\ _ => split end.
      * lia.
      * lia.
      * reflexivity.
      * intros j Hj Hj'. destruct (Nat.eqb_spec j i) as [->|ne]; [split; auto|]. apply B3; lia.
      * destruct (Nat.eqb_spec k i); [lia|]. exact B4.
      * intros j Hj. destruct (Nat.eqb_spec j i); [lia|]. destruct (Nat.eq_dec j (S i)) as [->|]; [rewrite B2; exact T|]. apply B5. lia.
      * intro Hk. destruct (Nat.eqb_spec (S k) i); [lia|]. apply B6. lia.
    + exists i, (fun j => if Nat.eqb j i then cur else c). rewrite Nat.eqb_refl. repeat match goal with |- _ /\ _ => split end; try lia; try reflexivity.
      * intros j Hj Hj'. destruct (Nat.eqb_spec j i) as [->|ne]; [split; auto|]. replace j with (S i) by lia. split; auto.
      * intros _. destruct (Nat.eqb_spec (S i) i); [lia|]. exact T.
Qed.
End Rank.

Lemma opt_all_map {A} (l : list A) : opt_all (map Some l) = Some l.
Proof. apply opt_all_some. reflexivity. Qed.
(** C66: removal goes on until a training fails or the number of features asked for is reached (one always stays); whatever was removed scored no better than what stays.
    [ds k] is the dataset after [k] removals; the answer is the last one on which training succeeded (or the whole dataset). *)
Lemma c66_select : forall f srt train number (d : data R), data_ok d -> 0 < dim d -> scorable d -> sorts_by (fun x => x) srt -> number <= dim d ->
  exists k (ds : nat -> data R), k <= dim d - number /\ fs_select f srt train number d = Ok (Some (ds k)) /\ ds 0 = d /\
    (forall i, i <= dim d - number -> i <= S k -> data_ok (ds i) /\ best (if f then fisher d else golub d) (Nat.max 1 (dim d - i)) d (ds i)) /\
    (forall i, 0 < i <= k -> train i (ds i) = true) /\ (k < dim d - number -> train (S k) (ds (S k)) = false).
Proof.
  intros f srt train number d O Hd H Hs Hn. assert (d_points d <> []) as N by (intro Z; unfold dim in Hd; rewrite Z in Hd; lia). unfold fs_select. destruct (Nat.ltb_spec (dim d) number) as [|_]; [lia|]. rewrite (fs_scores_ok f d O N H). cbn [obind].
  rewrite map_map. cbn [fst snd option_map]. rewrite (map_ext _ (fun s : Z * R => Some s)) by (intros []; reflexivity). rewrite opt_all_map. rewrite (copy_ok d O N). rewrite (data_dim d O N) in *.
  destruct (Hs (entries d (score f d))) as (P & St). pose proof (Permutation_map fst P) as Pn. rewrite entries_names in Pn.
  assert (((if f then -1 else 0) <= 0)%Z) as Hf by (destruct f; lia).
  destruct (loop_ok d (srt (entries d (score f d))) train (if f then -1 else 0)%Z O N Pn Hf (length (d_fnames d) - number) 0 d) as (k & ds & B1 & B2 & B3 & B4 & B5 & B6); [lia|exact O| |].
  { rewrite Nat.min_0_l. apply (restricted_ext (fun _ => true)); [reflexivity|apply restricted_all; exact O]. }
  exists k, ds. cbn [firstn app] in B4. rewrite B4. cbn [obind]. split; [lia|]. split; [reflexivity|]. split; [exact B2|]. split; [|split; [intros i Hi; apply B5; lia|exact B6]].
  intros i Hi Hk. destruct (B3 i) as (A1 & A2); [lia|lia|]. split; [exact A1|].
  replace (Nat.max 1 (length (d_fnames d) - i)) with (length (d_fnames d) - Nat.min i (length (d_fnames d) - 1)) by lia.
  pose proof (best_ranked (fun x => x) (score f d) (Nat.min i (length (d_fnames d) - 1)) d (ds i) _ O P St ltac:(lia) A2) as Q. destruct f; exact Q.
Qed.

(** Recursive elimination. *)
Lemma fill_feats (weight : list (Z * R)) level pre x m step : length pre = level -> step <= m -> step <= length weight ->
  ofold (fun fs i => let* y := vget weight (i - level) in vupd i (fun _ => fst y) fs) (seq level step) (pre ++ repeat x m) = Ok (pre ++ firstn step (map fst weight) ++ repeat x (m - step)).
Proof.
  intros L Hm Hw. induction step as [|step IH]; [cbn [seq ofold firstn app]; rewrite Nat.sub_0_r; reflexivity|]. rewrite seq_S, ofold_app, IH by lia. cbn [obind ofold].
  replace (level + step - level) with step by lia. destruct (vget_lt weight step ltac:(lia)) as (y & Ey & Vy). rewrite Vy. cbn [obind].
  assert (nth_error (map fst weight) step = Some (fst y)) as En by (rewrite nth_error_map, Ey; reflexivity).
  replace (m - step) with (S (m - S step)) by lia. cbn [repeat]. rewrite app_assoc.
  assert (length (pre ++ firstn step (map fst weight)) = level + step) as Lp by (rewrite app_length, firstn_length, map_length; lia).
  rewrite <- Lp, vupd_mid. cbn [obind]. rewrite (nth_first _ _ _ En), <- !app_assoc. reflexivity.
Qed.
Section RfeP.
Context (srt : list (Z * R) -> list (Z * R)) (train : nat -> data R -> option (list R)) (depth J D : nat) (samples : data R).
Context (Hs : sorts_by Rabs srt) (Ha : forall n e w, train n e = Some w -> dim e <= length w) (HD : depth < D) (HJ : 0 < J) (Osm : data_ok samples) (Nsm : d_points samples <> []).
Lemma weights_ok n cur w : data_ok cur -> d_points cur <> [] -> train n cur = Some w ->
  map_outcome (fun i => let* v := vget w i in let* f := vget (d_fnames cur) i in Ok (f, v)) (seq 0 (dim cur)) = Ok (entries cur (nz w)).
Proof using Ha.
  clear HD HJ. intros O N T. pose proof (Ha _ _ _ T) as L. rewrite (data_dim cur O N) in *. apply map_outcome_Ok. intros i Hi. apply in_seq in Hi. rewrite vget_nz by lia. cbn [obind]. rewrite (vget_nth _ i 0%Z) by lia. reflexivity.
Qed.
Lemma drop_ok cur w pre m step : data_ok cur -> d_points cur <> [] -> (forall x, In x pre -> ~ In x (d_fnames cur)) -> 0 < step -> step < length (d_fnames cur) ->
  exists c, removeFeatures cur (pre ++ firstn step (map fst (srt (entries cur (nz w)))) ++ repeat (-1)%Z m) = Ok (c, true) /\ data_ok c /\ d_points c <> [] /\
    best (fun i => Rabs (nz w i)) (length (d_fnames cur) - step) cur c /\ length (d_fnames c) = length (d_fnames cur) - step /\
    forall x, In x (pre ++ firstn step (map fst (srt (entries cur (nz w))))) -> ~ In x (d_fnames c).
Proof using Hs.
  clear HD HJ. intros O N Hp H0 H1. destruct (Hs (entries cur (nz w))) as (P & St). pose proof (Permutation_map fst P) as Pn. rewrite entries_names in Pn. set (l := srt (entries cur (nz w))) in *.
  assert (NoDup (map fst l)) as Nl by (eapply Permutation_NoDup; [apply Permutation_sym; exact Pn|apply sorted_lt_NoDup, (ok_sorted _ O)]).
  pose proof (Permutation_length Pn) as Ln.
  assert (forall x, In x (repeat (-1)%Z m) -> ~ In x (d_fnames cur)) as Hm by (intros x Hx I; apply repeat_spec in Hx; subst x; pose proof (ok_fpos _ O _ I); lia).
  destruct (rm_ok cur cur (fun _ => true) (pre ++ firstn step (map fst l) ++ repeat (-1)%Z m) O O N (restricted_all cur O)) as (c & E & C & Rc).
  - intro E0. apply (f_equal (@length Z)) in E0. rewrite !app_length, firstn_length, Ln in E0. cbn [length] in E0. lia.
  - lia.
  - rewrite !filter_app, (filter_nil _ pre), (filter_nil _ (repeat _ _)), app_nil_r by (intros x Hx; apply memZ_notIn; auto). cbn [app]. apply NoDup_filter. rewrite <- (firstn_skipn step (map fst l)) in Nl. apply L_Knn.NoDup_left in Nl. exact Nl.
  - assert (restricted (fun x => negb (memZ x (firstn step (map fst l)))) cur c) as Rc'.
    { apply (restricted_ext _ _ cur c) with (2 := Rc). intros x Hx. cbn [andb]. f_equal. destruct (memZ x (firstn step (map fst l))) eqn:M.
      - apply memZ_In, in_or_app. right. apply in_or_app. left. apply memZ_In. exact M.
      - apply memZ_notIn. apply memZ_notIn in M. intro I. apply in_app_or in I. destruct I as [I|I]; [exact (Hp x I Hx)|]. apply in_app_or in I. destruct I as [I|I]; [auto|exact (Hm x I Hx)]. }
    pose proof (best_ranked Rabs (nz w) step cur c l O P St ltac:(lia) Rc') as B.
    exists c. split; [exact E|]. split; [exact C|]. split; [destruct Rc as (_ & Pc & _); rewrite Pc; intro E0; apply map_eq_nil in E0; auto|]. split; [exact B|].
    split; [destruct B as (k & _ & B & _); exact B|]. intros x Hx I. destruct Rc' as (F & _). rewrite F in I. apply filter_In in I. destruct I as (I & K). apply negb_true_iff, memZ_notIn in K. apply in_app_or in Hx. destruct Hx as [Hx|Hx]; [exact (Hp x Hx I)|auto].
Qed.
Lemma rfe_last fuel n jump feats cur : data_ok cur -> d_points cur <> [] -> length (d_fnames cur) = D - depth -> (depth = 0 -> cur = samples) ->
  exists r, rfe_loop srt train depth samples (S fuel) n depth jump feats cur = Ok (Some (jump, r)) /\
    ((elim train depth J n depth cur r /\ data_ok r /\ length (d_fnames r) = D - depth) \/ (r = samples /\ exists n e, train n e = None)).
Proof using Ha Osm Nsm.
  clear HD HJ Hs. intros O N L Hz. cbn [rfe_loop]. destruct (train n cur) as [w|] eqn:T.
  - rewrite (weights_ok n cur w O N T). cbn [obind]. rewrite Nat.leb_refl. exists cur. split; [reflexivity|]. left. split; [apply (elim_end _ _ _ _ _ w); exact T|]. auto.
  - eexists. split; [reflexivity|]. right. split; [|eauto]. destruct (Nat.ltb_spec 0 depth); [apply copy_ok; auto|]. apply Hz. lia.
Qed.
Lemma rfe_run : forall fuel level n pre cur, level < depth -> depth - level < fuel -> length pre = level -> data_ok cur -> d_points cur <> [] -> length (d_fnames cur) = D - level ->
  (forall x, In x pre -> ~ In x (d_fnames cur)) -> (level = 0 -> cur = samples) ->
  exists j r, rfe_loop srt train depth samples fuel n level J (pre ++ repeat (-1)%Z (depth - level)) cur = Ok (Some (j, r)) /\
    ((elim train depth J n level cur r /\ data_ok r /\ length (d_fnames r) = D - depth /\ j = if Nat.eqb ((depth - level) mod J) 0 then J else 0) \/ (r = samples /\ exists n e, train n e = None)).
Proof using Hs Ha HD HJ Osm Nsm.
  induction fuel as [|fuel IH]; intros level n pre cur Hl Hf Lp O N Ln Hp Hz; [lia|]. cbn [rfe_loop]. destruct (train n cur) as [w|] eqn:T.
  2: { do 2 eexists. split; [reflexivity|]. right. split; [|eauto]. destruct (Nat.ltb_spec 0 level); [apply copy_ok; auto|apply Hz; lia]. }
  rewrite (weights_ok n cur w O N T). cbn [obind]. destruct (Nat.leb_spec depth level); [lia|].
  set (lj := if Nat.ltb depth (level + J) then depth else level + J). set (step := lj - level).
  assert (step = Nat.min J (depth - level)) as Es by (unfold step, lj; destruct (Nat.ltb_spec depth (level + J)); lia).
  assert (length (srt (entries cur (nz w))) = D - level) as Lw. { rewrite (Permutation_length (proj1 (Hs _))). unfold entries. rewrite map_length, seq_length. exact Ln. }
  cbv zeta. rewrite (fill_feats _ level pre) by (try exact Lp; lia). cbn [obind].
  destruct (drop_ok cur w pre (depth - level - step) step O N Hp ltac:(lia) ltac:(lia)) as (c & Ec & Oc & Nc & B & Lc & Hc). rewrite Ec. cbn [obind fst].
  assert (length (pre ++ firstn step (map fst (srt (entries cur (nz w))))) = level + step) as Lp' by (rewrite app_length, firstn_length, map_length; lia).
  assert (forall r, elim train depth J (S n) (level + step) c r -> elim train depth J n level cur r) as El.
  { intros r Hr. apply (elim_step _ _ _ n level cur w c r Hl T); rewrite <- Es; auto. }
  rewrite app_assoc. replace (depth - level - step) with (depth - (level + step)) by lia.
  destruct (Nat.ltb_spec depth (level + J)) as [Hd|Hd].
  - destruct fuel as [|fuel]; [lia|]. destruct (rfe_last fuel (S n) 0 ((pre ++ firstn step (map fst (srt (entries cur (nz w))))) ++ repeat (-1)%Z (depth - (level + step))) c Oc Nc ltac:(lia) ltac:(lia)) as (r & Er & Hr). rewrite Er.
    exists 0, r. split; [reflexivity|]. destruct Hr as [(H1 & H2 & H3)|Hr]; [left|right; exact Hr]. replace depth with (level + step) in H1 at 2 by lia. split; [apply El; exact H1|]. split; [exact H2|]. split; [exact H3|]. rewrite Nat.mod_small by lia. destruct (Nat.eqb_spec (depth - level) 0); [lia|reflexivity].
  - assert (step = J) as EJ by lia. destruct (Nat.eq_dec (level + J) depth) as [e|ne].
    + destruct fuel as [|fuel]; [lia|]. rewrite e. destruct (rfe_last fuel (S n) J ((pre ++ firstn step (map fst (srt (entries cur (nz w))))) ++ repeat (-1)%Z (depth - (level + step))) c Oc Nc ltac:(lia) ltac:(lia)) as (r & Er & Hr). rewrite Er.
      exists J, r. split; [reflexivity|]. destruct Hr as [(H1 & H2 & H3)|Hr]; [left|right; exact Hr]. replace depth with (level + step) in H1 at 2 by lia. split; [apply El; exact H1|]. split; [exact H2|]. split; [exact H3|]. replace (depth - level) with J by lia. rewrite Nat.mod_same by lia. reflexivity.
    + rewrite EJ in *. destruct (IH (level + J) (S n) (pre ++ firstn J (map fst (srt (entries cur (nz w))))) c) as (j & r & Er & Hr); try assumption; try lia. rewrite Er.
      exists j, r. split; [reflexivity|]. destruct Hr as [(H1 & H2 & H3 & H4)|Hr]; [left|right; exact Hr]. split; [apply El; exact H1|]. split; [exact H2|]. split; [exact H3|]. rewrite H4. replace (depth - level) with ((depth - (level + J)) + 1 * J) by lia. rewrite Nat.mod_add by lia. reflexivity.
Qed.
End RfeP.
Lemma rfe_result srt train depth J (d : data R) fuel : sorts_by Rabs srt -> (forall n e w, train n e = Some w -> dim e <= length w) -> data_ok d -> 0 < depth < dim d -> 0 < J -> depth < fuel ->
  exists j r, rfe srt train depth d fuel J = Ok (Some (j, r)) /\
    ((elim train depth J 0 0 d r /\ data_ok r /\ length (d_fnames r) = dim d - depth /\ j = if Nat.eqb (depth mod J) 0 then J else 0) \/ (r = d /\ exists n e, train n e = None)).
Proof.
  intros Hs Ha O Hd HJ Hf. assert (d_points d <> []) as N by (intro Z; unfold dim in Hd; rewrite Z in Hd; lia). unfold rfe.
  destruct (Nat.ltb_spec depth 1); [lia|]. destruct (Nat.leb_spec (dim d) depth); [lia|]. cbn [orb]. rewrite (copy_ok d O N).
  destruct (rfe_run srt train depth J (dim d) d Hs Ha ltac:(lia) HJ O N fuel 0 0 [] d) as (j & r & E & H1); try assumption; try lia; auto.
  - rewrite (data_dim d O N). lia.
  - cbn [app] in E. rewrite Nat.sub_0_r in *. eauto.
Qed.
Lemma elim_trains train depth J n level e r : elim train depth J n level e r -> forall k, n <= k -> (k - n) * J < depth - level + J -> exists e w, train k e = Some w.
Proof.
  induction 1 as [n e w T|n level e w e' r Hl T B _ IH]; intros k Hk HJ.
  - assert (k = n) as ->; [|eauto]. destruct (Nat.eq_dec k n) as [|ne]; [assumption|]. exfalso. assert (1 <= k - n) as H1 by lia. apply (Nat.mul_le_mono_r _ _ J) in H1. lia.
  - destruct (Nat.eq_dec k n) as [->|ne]; [eauto|]. apply IH; [lia|]. replace (k - n) with (S (k - S n)) in HJ by lia. cbn [Nat.mul] in HJ. destruct (Nat.min_spec J (depth - level)) as [(M & ->)|(M & ->)]; [lia|].
    replace (depth - (level + (depth - level))) with 0 by lia. assert (k - S n = 0) as ->; [|lia]. destruct (k - S n) as [|x]; [reflexivity|]. cbn [Nat.mul] in HJ. lia.
Qed.
(** C67: when no training fails, features of least absolute weight are removed level by level and exactly [depth] are gone in the end.
    The object's jump is 0 afterwards when it does not divide the depth. *)
Lemma c67_rfe : forall srt train depth jump (d : data R) fuel, sorts_by Rabs srt -> (forall n e, exists w, train n e = Some w /\ dim e <= length w) -> data_ok d -> 0 < depth < dim d -> 0 < jump -> depth < fuel ->
  exists r, rfe srt train depth d fuel jump = Ok (Some (if Nat.eqb (depth mod jump) 0 then jump else 0, r)) /\ elim train depth jump 0 0 d r /\ data_ok r /\ length (d_fnames r) = dim d - depth.
Proof.
  intros srt train depth jump d fuel Hs Ha O Hd HJ Hf. destruct (rfe_result srt train depth jump d fuel Hs) as (j & r & E & [(H1 & H2 & H3 & ->)|(_ & n & e & T)]); auto.
  - intros n e w T. destruct (Ha n e) as (w' & T' & L). congruence.
  - exists r. auto.
  - destruct (Ha n e) as (w' & T' & _). congruence.
Qed.
(** C67: a depth that is not between 1 and the number of features minus 1 gives an empty dataset. *)
Lemma c67_invalid : forall srt train depth jump (d : data R) fuel, ~ (0 < depth < dim d) -> rfe srt train depth d fuel jump = Ok (Some (jump, data_empty)).
Proof.
  intros srt train depth jump d fuel H. unfold rfe. destruct (Nat.ltb_spec depth 1) as [|H1]; [reflexivity|]. destruct (Nat.leb_spec (dim d) depth) as [|H2]; [reflexivity|]. exfalso. apply H. lia.
Qed.
(** C67, why trainings must not fail: when the one at some level fails, every feature of the dataset comes back, those already removed included. *)
Lemma c67_failure_refuted : forall srt train depth jump (d : data R) fuel k, sorts_by Rabs srt -> (forall n e w, train n e = Some w -> dim e <= length w) -> data_ok d -> 0 < depth < dim d -> 0 < jump -> depth < fuel ->
  k * jump < depth + jump -> (forall e, train k e = None) -> exists j, rfe srt train depth d fuel jump = Ok (Some (j, d)).
Proof.
  intros srt train depth jump d fuel k Hs Ha O Hd HJ Hf Hk Hn. destruct (rfe_result srt train depth jump d fuel Hs Ha O Hd HJ Hf) as (j & r & E & [(H1 & _)|(-> & _)]); [|eauto].
  destruct (elim_trains _ _ _ _ _ _ _ H1 k) as (e & w & T); [lia|lia|]. rewrite Hn in T. discriminate.
Qed.
(** C67, why the jump must be positive: with 0 the levels never end. *)
Lemma rfe_zero srt train depth samples fuel : sorts_by Rabs srt -> (forall n e, exists w, train n e = Some w /\ dim e <= length w) -> forall n cur, data_ok cur -> d_points cur <> [] -> length (d_fnames cur) <> 1 -> 0 < depth ->
  rfe_loop srt train depth samples fuel n 0 0 (repeat (-1)%Z depth) cur = Ok None.
Proof.
  intros Hs Ha. induction fuel as [|fuel IH]; intros n cur O N L Hd; [reflexivity|]. cbn [rfe_loop]. destruct (Ha n cur) as (w & T & Lw). rewrite T.
  assert (forall n e w, train n e = Some w -> dim e <= length w) as Hb by (intros n0 e w0 T0; destruct (Ha n0 e) as (w' & T' & L'); congruence).
  rewrite (weights_ok train Hb n cur w O N T).
  cbn [obind]. destruct (Nat.leb_spec depth 0); [lia|]. cbn [Nat.add]. destruct (Nat.ltb_spec depth 0); [lia|]. cbn [Nat.sub seq ofold obind].
  assert (forall x, In x (repeat (-1)%Z depth) -> ~ In x (d_fnames cur)) as Hm by (intros x Hx I; apply repeat_spec in Hx; subst x; pose proof (ok_fpos _ O _ I); lia).
  destruct (rm_ok cur cur (fun _ => true) (repeat (-1)%Z depth) O O N (restricted_all cur O)) as (c & E & C & Rc); [destruct depth; [lia|discriminate]|exact L| |].
  - rewrite filter_nil; [constructor|]. intros x Hx. apply memZ_notIn. auto.
  - rewrite E. cbn [obind fst]. assert (restricted (fun _ => true) cur c) as Rt. { apply (restricted_ext _ _ _ _) with (2 := Rc). intros x Hx. cbn [andb]. apply negb_true_iff, memZ_notIn. intro I. exact (Hm x I Hx). }
    destruct Rt as (F & P & _). rewrite filter_all in F by reflexivity. apply IH; auto.
    + rewrite P. intro Z. apply map_eq_nil in Z. auto.
    + rewrite F. exact L.
Qed.
Lemma c67_jump_refuted : forall srt train depth (d : data R) fuel, sorts_by Rabs srt -> (forall n e, exists w, train n e = Some w /\ dim e <= length w) -> data_ok d -> 0 < depth < dim d -> rfe srt train depth d fuel 0 = Ok None.
Proof.
  intros srt train depth d fuel Hs Ha O Hd. assert (d_points d <> []) as N by (intro Z; unfold dim in Hd; rewrite Z in Hd; lia). unfold rfe.
  destruct (Nat.ltb_spec depth 1); [lia|]. destruct (Nat.leb_spec (dim d) depth); [lia|]. cbn [orb]. rewrite (copy_ok d O N). apply rfe_zero; auto; try lia. rewrite <- (data_dim d O N). lia.
Qed.
(** C67: hence a second call on the same object never ends when the jump does not divide the depth. *)
Lemma c67_again_refuted : forall srt train train2 depth jump (d : data R) fuel, sorts_by Rabs srt -> (forall n e, exists w, train n e = Some w /\ dim e <= length w) -> (forall n e, exists w, train2 n e = Some w /\ dim e <= length w) ->
  data_ok d -> 0 < depth < dim d -> 0 < jump -> depth < fuel -> depth mod jump <> 0 ->
  exists j r, rfe srt train depth d fuel jump = Ok (Some (j, r)) /\ forall fuel, rfe srt train2 depth d fuel j = Ok None.
Proof.
  intros srt train train2 depth jump d fuel Hs Ha Ha2 O Hd HJ Hf Hm. destruct (c67_rfe srt train depth jump d fuel Hs Ha O Hd HJ Hf) as (r & E & _). destruct (Nat.eqb_spec (depth mod jump) 0); [congruence|].
  exists 0, r. split; [exact E|]. intro. apply c67_jump_refuted; auto.
Qed.

(** C66: more features asked for than there are. *)
Lemma c66_too_many : forall f srt train number (d : data R), dim d < number -> fs_select f srt train number d = Abort.
Proof. intros f srt train number d H. unfold fs_select. destruct (Nat.ltb_spec (dim d) number); [reflexivity|lia]. Qed.
(** C66: when every training succeeds, exactly the number of features asked for, and the best ones. *)
Lemma c66_number : forall f srt train number (d : data R), data_ok d -> scorable d -> sorts_by (fun x => x) srt -> 1 <= number <= dim d -> (forall n e, train n e = true) ->
  exists d', fs_select f srt train number d = Ok (Some d') /\ data_ok d' /\ best (if f then fisher d else golub d) number d d'.
Proof.
  intros f srt train number d O H Hs Hn Ht. destruct (c66_select f srt train number d O ltac:(lia) H Hs ltac:(lia)) as (k & ds & Hk & E & _ & B & _ & Hl).
  assert (k = dim d - number) as ->. { destruct (Nat.eq_dec k (dim d - number)) as [|ne]; [assumption|]. rewrite Ht in Hl. discriminate Hl. lia. }
  exists (ds (dim d - number)). split; [exact E|]. destruct (B (dim d - number)) as (B1 & B2); [lia|lia|]. split; [exact B1|]. replace (Nat.max 1 (dim d - (dim d - number))) with number in B2 by lia. exact B2.
Qed.
(** C66, why at least one feature must be asked for: asking for none leaves one. *)
Lemma c66_zero_refuted : forall f srt train (d : data R), data_ok d -> 0 < dim d -> scorable d -> sorts_by (fun x => x) srt -> (forall n e, train n e = true) ->
  exists d', fs_select f srt train 0 d = Ok (Some d') /\ best (if f then fisher d else golub d) 1 d d'.
Proof.
  intros f srt train d O Hd H Hs Ht. destruct (c66_select f srt train 0 d O Hd H Hs ltac:(lia)) as (k & ds & Hk & E & _ & B & _ & Hl).
  assert (k = dim d) as ->. { destruct (Nat.eq_dec k (dim d)) as [|ne]; [assumption|]. rewrite Ht in Hl. discriminate Hl. lia. }
  exists (ds (dim d)). split; [exact E|]. destruct (B (dim d)) as (_ & B2); [lia|lia|]. rewrite Nat.sub_diag in B2. exact B2.
Qed.

Definition fmk (a b c : R) (y i : Z) : point R := mkPoint [a; b; c] y i 0%R.
Definition fx : data R := mkData [fmk 0 0 0 (-1) 1; fmk 2 2 2 (-1) 2; fmk 4 2 0 1 3; fmk 6 4 2 1 4] [1; 2; 3]%Z [0; 1; 2; 3]%Z ["-1"; "1"]%string [-1; 1]%Z [2; 2]%Z 4 3 false false false true.
Lemma fx_ok : data_ok fx.
Proof.
  constructor; [reflexivity| |reflexivity|cbn; lia| |reflexivity| | |discriminate|cbn; lia].
  - constructor; [reflexivity|repeat constructor; cbn; intuition discriminate|intros p Hp; cbn in Hp; intuition (subst; cbn; auto)|reflexivity|intros [|[|[|i]]] c E; cbn in E; try discriminate; injection E as <-; reflexivity].
  - intros p Hp. cbn in Hp. intuition (subst; reflexivity).
  - repeat constructor.
  - intros f [<-|[<-|[<-|[]]]]; lia.
Qed.
Lemma fx_sd lab j a b : map (fun p => nz (p_x p) j) (members fx lab) = [a; b] -> a <> b -> (0 < label_sd fx lab j)%R.
Proof.
  unfold label_sd, label_mean. destruct (members fx lab) as [|p [|q [|]]]; cbn [map]; try discriminate. intro E. injection E as <- <-. intro H. cbn [length map nth sumn]. rewrite S_INR. cbn [INR].
  apply sqrt_lt_R0. assert (0 < Rsqr (nz (p_x p) j - nz (p_x q) j))%R by (apply Rsqr_pos_lt; lra). unfold Rsqr in *. cbn [nth]. lra.
Qed.
Lemma fx_scorable : scorable fx.
Proof.
  split; [cbn; lia|]. split; [cbn; lia|]. intros j Hj. cbn [fx d_fnames length] in Hj. enough (0 < label_sd fx pos j /\ 0 < label_sd fx neg j)%R by lra.
  destruct j as [|[|[|j]]]; [| | |lia]; (split; [eapply fx_sd; [reflexivity|cbn; lra]|eapply fx_sd; [reflexivity|cbn; lra]]).
Qed.
Definition fsort (key : R -> R) (l : list (Z * R)) : list (Z * R) := isort (fun a b => if Rle_dec (key (snd a)) (key (snd b)) then true else false) l.
Lemma fsort_ok key : sorts_by key (fsort key).
Proof.
  intro l. split; [apply isort_perm|]. unfold fsort. set (leb := fun a b : Z * R => if Rle_dec (key (snd a)) (key (snd b)) then true else false).
  assert (StronglySorted (fun a b => leb a b = true) (isort leb l)) as H. { apply isort_sorted; unfold leb; [intros a b|intros a b c]; repeat (destruct (Rle_dec _ _)); auto; try discriminate; lra. }
  induction H as [|a r _ IH F]; constructor; [auto|]. eapply Forall_impl; [|exact F]. intros b. unfold leb. destruct (Rle_dec _ _); [auto|discriminate].
Qed.
Lemma c66_number_ex : data_ok fx /\ scorable fx /\ sorts_by (fun x => x) (fsort (fun x => x)) /\ 1 <= 2 <= dim fx.
Proof. split; [apply fx_ok|]. split; [apply fx_scorable|]. split; [apply fsort_ok|cbn; lia]. Qed.
Lemma c67_rfe_ex : data_ok fx /\ 0 < 2 < dim fx /\ sorts_by Rabs (fsort Rabs) /\ (forall (n : nat) (e : data R), exists w, Some (repeat 1%R (dim e)) = Some w /\ dim e <= length w).
Proof. split; [apply fx_ok|]. split; [cbn; lia|]. split; [apply fsort_ok|]. intros _ e. eexists. split; [reflexivity|]. rewrite repeat_length. lia. Qed.
(** Training fails after the first level: all three features come back. *)
Lemma c67_failure_refuted_ex : exists j, rfe (fsort Rabs) (fun n e => if Nat.eqb n 1 then None else Some (repeat 1%R (dim e))) 2 fx 3 1 = Ok (Some (j, fx)).
Proof.
  apply (c67_failure_refuted _ _ 2 1 fx 3 1); [apply fsort_ok| |apply fx_ok|cbn; lia|lia|lia|lia|reflexivity].
  intros n e w E. destruct (Nat.eqb n 1); [discriminate|]. injection E as <-. rewrite repeat_length. lia.
Qed.
Lemma c67_again_refuted_ex : 0 < 2 < dim fx /\ 2 mod 3 <> 0.
Proof. split; [cbn; lia|discriminate]. Qed.
