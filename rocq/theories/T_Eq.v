(** Proofs for P_Eq.v: C99 comparing and copying datasets, C100 name of a dataset, C101 views of a dataset. *)
From Coq Require Import ZArith Ascii Bool String List Lia Sorted.
From Verif Require Import Base ListLib M_Data S_Data M_Str S_Str L_Str2 L_Str3 T_Data T_Str L_Feat M_Eq S_Eq.
Import ListNotations.
Open Scope Z_scope.

Lemma vec_eqb_spec {A} (eqb : A -> A -> bool) : decides eqb -> decides (vec_eqb eqb).
Proof.
  intros D. intro a. induction a as [|x a IH]; intros [|y b]; cbn [vec_eqb]; split; try discriminate; auto.
  - intros H. apply andb_true_iff in H as (H1 & H2). f_equal; [now apply D|now apply IH].
  - intros E. injection E as -> ->. apply andb_true_iff. split; [now apply D|now apply IH].
Qed.
Lemma zeqb_decides : decides Z.eqb.
Proof. intros x y. apply Z.eqb_eq. Qed.
Lemma points_spec {T} (eqb : T -> T -> bool) : decides eqb -> forall a b : list (point T), vec_eqb (point_eqb eqb) a b = true <-> map p_x a = map p_x b.
Proof.
  intros D a. induction a as [|x a IH]; intros [|y b]; cbn [vec_eqb map]; split; try discriminate; auto.
  - intros H. apply andb_true_iff in H as (H1 & H2). f_equal; [now apply (vec_eqb_spec eqb D)|now apply IH].
  - intros E. injection E as E1 E2. apply andb_true_iff. split; [now apply (vec_eqb_spec eqb D)|now apply IH].
Qed.
Lemma dist_loop_ok a : forall b, (length a <= length b)%nat -> exists r, dist_loop a b = Ok r /\ (r = true <-> a = firstn (length a) b).
Proof.
  induction a as [|x a IH]; intros b L; cbn [dist_loop length firstn].
  - exists true. tauto.
  - destruct b as [|y b]; cbn [length] in L; [lia|]. cbn [firstn]. destruct (Z.eqb x y) eqn:E.
    + apply Z.eqb_eq in E. subst y. destruct (IH b) as (r & Er & Hr); [lia|]. exists r. split; auto. rewrite Hr. split; intros H; [now f_equal|now injection H].
    + exists false. split; auto. split; [discriminate|]. intros H. injection H as H _. apply Z.eqb_neq in E. contradiction.
Qed.
Lemma dist_loop_same a : dist_loop a a = Ok true.
Proof. induction a as [|x a IH]; cbn [dist_loop]; auto. now rewrite Z.eqb_refl. Qed.

(** C99. Equality on well-formed data. *)

Lemma c99_equal (T : Type) (eqb : T -> T -> bool) (a b : dset T) : decides eqb -> data_ok (ds_data a) -> data_ok (ds_data b) ->
  exists r, ds_eq eqb a b = Ok r /\ (r = true <-> same_table a b).
Proof.
  intros D Ha Hb. unfold ds_eq. pose proof (points_spec eqb D (d_points (ds_data a)) (d_points (ds_data b))) as P.
  assert (V : forall x y, vec_eqb Z.eqb x y = true <-> x = y) by exact (vec_eqb_spec Z.eqb zeqb_decides).
  destruct (vec_eqb (point_eqb eqb) _ _) eqn:E1; cbn [negb].
  2:{ exists false. split; auto. split; [discriminate|]. intros S0. destruct S0 as [Rw _ _ _ _ _ _ _ _ _]. apply P in Rw. discriminate. }
  pose proof (proj1 P eq_refl) as Rw. destruct (vec_eqb Z.eqb (d_classes _) _) eqn:E2; cbn [negb].
  2:{ exists false. split; auto. split; [discriminate|]. intros S0. destruct S0 as [_ Cl _ _ _ _ _ _ _ _]. apply V in Cl. congruence. }
  apply V in E2. pose proof (co_len _ (ok_class _ Ha)) as La. pose proof (co_len _ (ok_class _ Hb)) as Lb. rewrite <- E2 in Lb.
  destruct (dist_loop_ok (d_dist (ds_data a)) (d_dist (ds_data b))) as (r & Er & Hr); [lia|]. rewrite Er. cbn [obind].
  replace (length (d_dist (ds_data a))) with (length (d_dist (ds_data b))) in Hr by lia. rewrite firstn_all in Hr.
  destruct r; cbn [negb].
  2:{ exists false. split; auto. split; [discriminate|]. intros S0. destruct S0 as [_ _ Di _ _ _ _ _ _ _]. apply Hr in Di. discriminate. }
  eexists. split; [reflexivity|]. assert (Ls : length (d_points (ds_data a)) = length (d_points (ds_data b))).
  { rewrite <- (map_length p_x (d_points (ds_data a))), Rw. apply map_length. }
  rewrite !andb_true_iff, !Nat.eqb_eq, !String.eqb_eq, !eqb_true_iff, !V. split.
  - intros (((((((? & ?) & ?) & ?) & ?) & ?) & ?) & ?). constructor; auto. now apply Hr.
  - intros S0. destruct S0. repeat split; auto. rewrite Ls. symmetry. apply (ok_size _ Hb).
Qed.

Lemma c99_equivalence (T : Type) (eqb : T -> T -> bool) (D : decides eqb) :
  (forall a, data_ok (ds_data a) -> ds_eq eqb a a = Ok true) /\
  (forall a b, data_ok (ds_data a) -> data_ok (ds_data b) -> ds_eq eqb a b = ds_eq eqb b a) /\
  (forall a b c, data_ok (ds_data a) -> data_ok (ds_data b) -> data_ok (ds_data c) ->
     ds_eq eqb a b = Ok true -> ds_eq eqb b c = Ok true -> ds_eq eqb a c = Ok true).
Proof.
  split; [|split].
  - intros a Ha. destruct (c99_equal T eqb a a D Ha Ha) as (r & E & H). rewrite E. f_equal. apply H. now constructor.
  - intros a b Ha Hb. destruct (c99_equal T eqb a b D Ha Hb) as (r & E & H). destruct (c99_equal T eqb b a D Hb Ha) as (r' & E' & H').
    rewrite E, E'. f_equal. destruct r, r'; auto.
    + symmetry. apply H'. destruct (proj1 H eq_refl). constructor; now symmetry.
    + apply H. destruct (proj1 H' eq_refl). constructor; now symmetry.
  - intros a b c Ha Hb Hc E1 E2. destruct (c99_equal T eqb a b D Ha Hb) as (r & E & H). destruct (c99_equal T eqb b c D Hb Hc) as (r' & E' & H').
    destruct (c99_equal T eqb a c D Ha Hc) as (r'' & E'' & H''). rewrite E in E1. rewrite E' in E2. injection E1 as ->. injection E2 as ->.
    rewrite E''. f_equal. apply H''. destruct (proj1 H eq_refl), (proj1 H' eq_refl). constructor; congruence.
Qed.

Lemma c99_differs (T : Type) (eqb : T -> T -> bool) (a b : dset T) : decides eqb -> data_ok (ds_data a) -> data_ok (ds_data b) ->
  exists r, ds_ne eqb a b = Ok (negb r) /\ ds_eq eqb a b = Ok r.
Proof.
  intros D Ha Hb. destruct (c99_equal T eqb a b D Ha Hb) as (r & E & H). exists r. split; auto. unfold ds_ne.
  destruct (c99_equivalence T eqb D) as (_ & Sy & _). rewrite (Sy b a Hb Ha), E. reflexivity.
Qed.

(** The copy of a dataset is equal to it exactly when the names of its two classes are the default ones. *)
Lemma c99_copy (T : Type) (eqb : T -> T -> bool) (a : dset T) : decides eqb -> data_ok (ds_data a) ->
  exists r, ds_eq eqb (ds_copy a) a = Ok r /\ (r = true <-> ds_pos a = "1"%string /\ ds_neg a = "-1"%string).
Proof.
  intros D Ha. pose proof (c08_copy_value T (ds_data a) Ha) as Ec.
  assert (Hc : data_ok (ds_data (ds_copy a))) by (unfold ds_copy, ds_copy_into; cbn [ds_data]; rewrite Ec; auto).
  destruct (c99_equal T eqb (ds_copy a) a D Hc Ha) as (r & E & H). exists r. split; auto. rewrite H. unfold ds_copy, ds_copy_into, ds_fresh. split.
  - intros S0. destruct S0 as [_ _ _ _ _ _ _ _ Sp Sn]. cbn [ds_pos ds_neg] in Sp, Sn. now split.
  - intros (E1 & E2). constructor; cbn [ds_data ds_pos ds_neg]; rewrite ?Ec; auto.
Qed.
Lemma c99_copy_refuted (T : Type) (eqb : T -> T -> bool) (a : dset T) : decides eqb -> data_ok (ds_data a) -> ds_pos a <> "1"%string ->
  ds_eq eqb (ds_copy a) a = Ok false.
Proof.
  intros D Ha N. destruct (c99_copy T eqb a D Ha) as (r & E & H). rewrite E. destruct r; auto. exfalso. apply N. now apply H.
Qed.

(** An assigned dataset is equal to the source, and keeps everything but whether its counts are known. *)
Lemma c99_assign (T : Type) (eqb : T -> T -> bool) (a b : dset T) : decides eqb -> data_ok (ds_data b) ->
  data_ok (ds_data (ds_assign a b)) /\ ds_eq eqb (ds_assign a b) b = Ok true /\
  d_points (ds_data (ds_assign a b)) = d_points (ds_data b) /\ d_cnames (ds_data (ds_assign a b)) = d_cnames (ds_data b).
Proof.
  intros D Hb. assert (Ho : data_ok (ds_data (ds_assign a b))).
  { unfold ds_assign. cbn [ds_data]. destruct Hb as [? Hcl]. destruct Hcl. constructor; cbn; auto. constructor; cbn; auto. }
  split; auto. split; [|now split]. destruct (c99_equal T eqb (ds_assign a b) b D Ho Hb) as (r & E & H). rewrite E. f_equal. apply H. now constructor.
Qed.

(** Comparing against a dataset with fewer counts: clear() keeps the counts of the classes. *)
Lemma c99_clear_refuted (T : Type) (eqb : T -> T -> bool) (a : dset T) : data_ok (ds_data a) -> d_classes (ds_data a) <> [] ->
  ds_eq eqb (ds_clear a) ds_fresh = UB /\
  (ds_pos a = "1"%string -> ds_neg a = "-1"%string -> ds_eq eqb ds_fresh (ds_clear a) = Ok true).
Proof.
  intros Ha Nc. pose proof (co_len _ (ok_class _ Ha)) as La. split.
  - unfold ds_eq, ds_clear, clear, ds_fresh, data_empty. cbn [ds_data d_points d_classes d_dist vec_eqb negb].
    destruct (d_dist (ds_data a)) as [|c l]; [|reflexivity]. destruct (d_classes (ds_data a)); [congruence|cbn in La; lia].
  - intros E1 E2. unfold ds_eq, ds_clear. rewrite E1, E2. reflexivity.
Qed.

Definition lab3 (y1 y2 y3 : Z) : list (point Z) := [pt [1] y1 0; pt [2] y2 0; pt [3] y3 0].
Lemma c99_equal_ex : decides Z.eqb /\ data_ok ex5 /\ data_ok ex3 /\
  ds_eq Z.eqb (mkDset ex5 "1" "-1") (mkDset ex5 "1" "-1") = Ok true /\ ds_eq Z.eqb (mkDset ex5 "1" "-1") (mkDset ex3 "1" "-1") = Ok false.
Proof. split; [exact zeqb_decides|]. split; [exact ex5_ok|]. split; [exact ex3_ok|]. split; vm_compute; reflexivity. Qed.
Lemma c99_copy_ex : ds_eq Z.eqb (ds_copy (mkDset ex5 "1" "-1")) (mkDset ex5 "1" "-1") = Ok true /\
  ds_eq Z.eqb (ds_copy (mkDset ex5 "yes" "no")) (mkDset ex5 "yes" "no") = Ok false /\ d_classes ex5 <> [].
Proof. split; [vm_compute; reflexivity|]. split; [vm_compute; reflexivity|]. vm_compute. discriminate. Qed.

(** Labels take no part in the comparison. *)
Lemma c99_labels_refuted : exists a b : dset Z, data_ok (ds_data a) /\ data_ok (ds_data b) /\
  labels (d_points (ds_data a)) <> labels (d_points (ds_data b)) /\ ds_eq Z.eqb a b = Ok true.
Proof.
  exists (mkDset (build false (lab3 1 2 1)) "1" "-1"), (mkDset (build false (lab3 1 1 2)) "1" "-1"). cbn [ds_data]. split; [|split; [|split]].
  - apply (build_ok false 1); [|discriminate|lia|simpl; lia]. simpl. intros p [<-|[<-|[<-|[]]]]; auto.
  - apply (build_ok false 1); [|discriminate|lia|simpl; lia]. simpl. intros p [<-|[<-|[<-|[]]]]; auto.
  - vm_compute. discriminate.
  - vm_compute. reflexivity.
Qed.

(** Counting the classes of an assigned dataset is a different computation from counting those of its source: the flag that says the
    counts are known stays the one of the overwritten dataset. *)
Lemma c99_assign_flag_refuted : exists a b : dset Z, d_cdist (ds_data a) = true /\ d_points (ds_data (ds_assign a b)) = d_points (ds_data b) /\
  (exists d, computeClassesDistribution (ds_data b) = Ok d /\ d_dist d = [3; 2]) /\
  (exists d, computeClassesDistribution (ds_data (ds_assign a b)) = Ok d /\ d_dist d = [0; 0]).
Proof.
  exists (mkDset (mkData [] [] [] [] [] [] 0%nat 0%nat true false true true) "1" "-1").
  exists (mkDset (mkData (d_points ex5) (d_fnames ex5) (d_index ex5) (d_cnames ex5) (d_classes ex5) [0; 0] 5%nat 1%nat false false false true) "1" "-1").
  split; [reflexivity|]. split; [reflexivity|]. split; eexists; (split; [vm_compute; reflexivity|]); reflexivity.
Qed.

(** C100. The name of a dataset. *)
Lemma runs_one c B n k : B <> [] -> ~ In c B -> runs c (repeat c k ++ B ++ repeat c n) [B].
Proof.
  intros NB IB. destruct n as [|n].
  - cbn [repeat]. rewrite app_nil_r. now apply runs_last.
  - cbn [repeat]. apply runs_cons; auto. apply (runs_end c (S n)).
Qed.
Lemma ends_tail c (a : list ascii) x s : ends_with c (a ++ x :: s) -> exists u, x :: s = u ++ [c].
Proof.
  intros [E|(u & E)]; [destruct a; discriminate|].
  destruct (@exists_last _ (x :: s)) as (v & y & Ev); [discriminate|]. rewrite Ev in E. rewrite app_assoc in E. apply app_inj_tail in E as (_ & ->).
  exists v. exact Ev.
Qed.
Lemma runs_dir c B n : B <> [] -> ~ In c B -> forall s l, runs c s l -> ends_with c s -> runs c (s ++ B ++ repeat c n) (l ++ [B]).
Proof.
  intros NB IB s l H. induction H as [k|k t Nt It|k t s l Nt It H IH]; intros E.
  - now apply runs_one.
  - exfalso. destruct t as [|x t]; [congruence|]. apply ends_tail in E as (u & E). apply It. rewrite E. apply in_or_app. right. now left.
  - rewrite <- !app_assoc. cbn [app]. rewrite app_assoc in E. apply ends_tail in E as (u & E).
    apply runs_cons; auto. apply IH. right. now exists u.
Qed.
Lemma tokenize_runs s c l : runs c s l -> tokenize s c = Some l.
Proof. intros H. destruct (c20_tokenize s c) as (l' & E & _ & U). rewrite E. f_equal. symmetry. now apply U. Qed.
Lemma name_base dir base n : ends_with "/" dir -> base <> [] -> ~ In "/"%char base ->
  dataset_name (dir ++ base ++ repeat "/"%char n) = match tokenize base "." with None => Abort | Some [] => Ok [] | Some (u :: _) => Ok u end.
Proof.
  intros E NB IB. destruct (c20_tokenize dir "/") as (l & _ & Rl & _). pose proof (runs_dir "/" base n NB IB dir l Rl E) as H.
  unfold dataset_name. rewrite (tokenize_runs _ _ _ H). destruct l as [|t l]; cbn [app]; [reflexivity|].
  change (t :: l ++ [base]) with ((t :: l) ++ [base]). unfold str in *. now rewrite last_last.
Qed.
Lemma stem_runs k (stem rest : list ascii) : stem <> [] -> ~ In "."%char stem -> starts_with "." rest ->
  exists l, runs "." (repeat "."%char k ++ stem ++ rest) (stem :: l).
Proof.
  intros N I [->|(u & ->)].
  - exists []. rewrite app_nil_r. now apply runs_last.
  - destruct (c20_tokenize ("."%char :: u) ".") as (l & _ & H & _). exists l. now apply runs_cons.
Qed.
Lemma no_slash_dots k : ~ In "/"%char (repeat "."%char k).
Proof. intros H. apply repeat_spec in H. discriminate. Qed.

Lemma c100_name dir k stem rest n : ends_with "/" dir -> stem <> [] -> ~ In "."%char stem -> ~ In "/"%char stem ->
  starts_with "." rest -> ~ In "/"%char rest ->
  dataset_name (dir ++ (repeat "."%char k ++ stem ++ rest) ++ repeat "/"%char n) = Ok stem.
Proof.
  intros E N I1 I2 S0 I3. rewrite name_base; auto.
  - destruct (stem_runs k stem rest N I1 S0) as (l & H). now rewrite (tokenize_runs _ _ _ H).
  - destruct k; [|discriminate]. destruct stem; [congruence|discriminate].
  - rewrite !in_app_iff. intros [H|[H|H]]; auto. now apply no_slash_dots in H.
Qed.
Lemma c100_name_ex : ends_with "/" (list_ascii_of_string "/home/data.d/") /\
  dataset_name (list_ascii_of_string "/home/data.d/iris.data.csv") = Ok (list_ascii_of_string "iris") /\
  dataset_name (list_ascii_of_string "iris") = Ok (list_ascii_of_string "iris") /\
  dataset_name (list_ascii_of_string "../sets/.iris.csv//") = Ok (list_ascii_of_string "iris").
Proof.
  split; [right; exists (list_ascii_of_string "/home/data.d"); reflexivity|]. split; [vm_compute; reflexivity|]. split; vm_compute; reflexivity.
Qed.
Lemma c100_dots dir k n : ends_with "/" dir -> dataset_name (dir ++ repeat "."%char (S k) ++ repeat "/"%char n) = Ok [].
Proof.
  intros E. rewrite name_base; auto; [|discriminate|apply no_slash_dots]. now rewrite (tokenize_runs _ _ _ (runs_end "." (S k))).
Qed.
Lemma c100_dots_ex : dataset_name (list_ascii_of_string "sets/../") = Ok [] /\ ends_with "/" (list_ascii_of_string "sets/").
Proof. split; [vm_compute; reflexivity|]. right. now exists (list_ascii_of_string "sets"). Qed.
(** The empty path and paths of slashes only: the last of no tokens. *)
Lemma c100_slashes_refuted n : dataset_name (repeat "/"%char n) = UB.
Proof. unfold dataset_name. now rewrite (tokenize_runs _ _ _ (runs_end "/" n)). Qed.
(** Files that differ after their first dot get one name. *)
Lemma c100_distinct_refuted dir stem r1 r2 : ends_with "/" dir -> stem <> [] -> ~ In "."%char stem -> ~ In "/"%char stem ->
  ~ In "/"%char r1 -> ~ In "/"%char r2 ->
  dataset_name (dir ++ stem ++ "."%char :: r1) = dataset_name (dir ++ stem ++ "."%char :: r2).
Proof.
  intros E N I1 I2 J1 J2.
  assert (H : forall r, ~ In "/"%char r -> dataset_name (dir ++ stem ++ "."%char :: r) = Ok stem).
  { intros r J. pose proof (c100_name dir 0 stem ("."%char :: r) 0 E N I1 I2) as G. cbn [repeat app] in G. rewrite app_nil_r in G. apply G.
    - right. now exists r.
    - intros [H|H]; [discriminate|auto]. }
  now rewrite !H.
Qed.
Lemma c100_distinct_ex : dataset_name (list_ascii_of_string "runs/iris.v1.csv") = dataset_name (list_ascii_of_string "runs/iris.v2.csv").
Proof. vm_compute. reflexivity. Qed.

(** C101. Columns, labels and point-wise changes. *)
Lemma seq_view {T B} (d : data T) (f : point T -> outcome B) (g : point T -> B) : d_size d = length (d_points d) ->
  (forall p, In p (d_points d) -> f p = Ok (g p)) ->
  map_outcome (fun i => let* p := vget (d_points d) i in f p) (seq 0 (d_size d)) = Ok (map g (d_points d)).
Proof.
  intros E H. rewrite E. clear E. revert H. generalize (d_points d) as l. intros l. 
  assert (G : forall a b, (forall p, In p b -> f p = Ok (g p)) ->
    map_outcome (fun i => let* p := vget (a ++ b) i in f p) (seq (length a) (length b)) = Ok (map g b)).
  { intros a b. revert a. induction b as [|x b IH]; intros a H; [reflexivity|]. cbn [length seq map_outcome].
    unfold vget at 1. rewrite nth_error_app2, Nat.sub_diag by lia. cbn [nth_error obind]. rewrite (H x) by now left. cbn [obind].
    specialize (IH (a ++ [x])). rewrite <- app_assoc, app_length in IH. cbn [app length] in IH. rewrite Nat.add_1_r in IH.
    rewrite IH by (intros; apply H; now right). reflexivity. }
  apply (G [] l).
Qed.
Lemma c101_feature (T : Type) (d : data T) idx : data_ok d -> 0 <= idx < Z.of_nat (d_dim d) ->
  exists col, getFeature d idx = Ok col /\ length col = size d /\
    forall i p, nth_error (d_points d) i = Some p -> nth_error col i = nth_error (p_x p) (Z.to_nat idx).
Proof.
  intros Hd Hi. destruct (d_points d) as [|p0 ps] eqn:Ep.
  { exists []. unfold getFeature. rewrite (ok_size _ Hd), Ep. cbn. split; auto. unfold size. rewrite Ep. split; auto. intros [|i] p X; discriminate. }
  assert (N0 : exists v, nth_error (p_x p0) (Z.to_nat idx) = Some v).
  { destruct (nth_error (p_x p0) (Z.to_nat idx)) eqn:E; eauto. apply nth_error_None in E.
    assert (length (p_x p0) = d_dim d) by (apply (ok_dim _ Hd); rewrite Ep; now left). lia. }
  destruct N0 as (v0 & _).
  assert (V : forall p, In p (d_points d) -> exists v, nth_error (p_x p) (Z.to_nat idx) = Some v).
  { intros p Ip. pose proof (ok_dim _ Hd p Ip) as L. destruct (vget_lt (p_x p) (Z.to_nat idx)) as (v & E & _); [lia|]. eauto. }
  pose (g := fun p : point T => nth (Z.to_nat idx) (p_x p) v0).
  exists (map g (d_points d)). split; [|split].
  - unfold getFeature. apply seq_view; [apply (ok_size _ Hd)|]. intros p Ip. rewrite (ok_dim _ Hd p Ip).
    replace ((0 <=? idx) && (idx <? Z.of_nat (d_dim d)))%bool with true by (symmetry; apply andb_true_iff; split; [apply Z.leb_le|apply Z.ltb_lt]; lia).
    destruct (V p Ip) as (v & E). apply vget_Ok. unfold g. now rewrite E, (nth_error_nth _ _ _ E).
  - unfold size. apply map_length.
  - intros i p E. rewrite <- Ep in E. rewrite nth_error_map, E. cbn [option_map]. destruct (V p) as (v & Ev); [now apply nth_error_In in E|].
    unfold g. now rewrite Ev, (nth_error_nth _ _ _ Ev).
Qed.
Lemma c101_range (T : Type) (d : data T) idx : data_ok d -> d_points d <> [] -> (idx < 0 \/ Z.of_nat (d_dim d) <= idx) -> getFeature d idx = Abort.
Proof.
  intros Hd N H. unfold getFeature. rewrite (ok_size _ Hd). pose proof (ok_dim _ Hd) as L. destruct (d_points d) as [|p l]; [congruence|].
  cbn [length seq map_outcome]. unfold vget at 1. cbn [nth_error obind]. rewrite (L p) by now left.
  replace ((0 <=? idx) && (idx <? Z.of_nat (d_dim d)))%bool with false; auto.
  symmetry. apply andb_false_iff. destruct H; [left; apply Z.leb_gt|right; apply Z.ltb_ge]; lia.
Qed.
(** The argument is a position from 0, not a feature name from 1: asked for the last feature by name, the program stops. *)
Lemma c101_by_name_refuted (T : Type) (d : data T) : data_ok d -> d_points d <> [] -> d_dim d <> O -> d_fnames d = iota 1 (d_dim d) ->
  In (Z.of_nat (d_dim d)) (d_fnames d) /\ getFeature d (Z.of_nat (d_dim d)) = Abort.
Proof.
  intros Hd N D0 F. split; [|apply c101_range; auto; right; lia]. rewrite F. unfold iota. apply in_map_iff.
  exists (d_dim d - 1)%nat. split; [lia|]. apply in_seq. lia.
Qed.
Lemma c101_labels (T : Type) (d : data T) : data_ok d -> getLabels d = Ok (labels (d_points d)).
Proof. intros Hd. unfold getLabels, labels. apply (seq_view d (fun p => Ok (p_y p)) p_y); auto. apply (ok_size _ Hd). Qed.

(** A change that keeps labels and dimensions keeps the dataset well-formed and its labels. *)
Lemma c101_apply (T : Type) (f : point T -> point T) (d : data T) : data_ok d -> (forall p, p_y (f p) = p_y p /\ length (p_x (f p)) = length (p_x p)) ->
  data_ok (apply f d) /\ size (apply f d) = size d /\ getLabels (apply f d) = getLabels d /\
  forall i p, nth_error (d_points d) i = Some p -> nth_error (d_points (apply f d)) i = Some (f p).
Proof.
  intros Hd Hf. assert (L : labels (map f (d_points d)) = labels (d_points d)).
  { unfold labels. rewrite map_map. apply map_ext. intros p. apply Hf. }
  assert (Ho : data_ok (apply f d)).
  { destruct Hd as [Sz Cl]. destruct Cl as [C1 C2 C3 C4 C5]. constructor; cbn; auto; rewrite ?map_length; auto.
    - constructor; cbn; auto.
      + intros p Ip. apply in_map_iff in Ip as (q & <- & Iq). rewrite (proj1 (Hf q)). auto.
      + intros i c Hc. rewrite (C5 i c Hc). unfold label_count. now rewrite L.
    - intros p Ip. apply in_map_iff in Ip as (q & <- & Iq). rewrite (proj2 (Hf q)). auto.
    - intros X. apply map_eq_nil in X. auto. }
  split; auto. split; [unfold size; cbn; apply map_length|]. split.
  - rewrite !c101_labels; auto. cbn [apply d_points]. now rewrite L.
  - intros i p E. cbn [apply d_points]. now rewrite nth_error_map, E.
Qed.
(** A change of label does not reach the list of classes and their counts. *)
Lemma c101_apply_refuted (T : Type) (d : data T) y : d_points d <> [] -> ~ In y (d_classes d) ->
  ~ class_ok (apply (fun p => mkPoint (p_x p) y (p_id p) (p_alpha p)) d).
Proof.
  intros N I H. destruct (d_points d) as [|p l] eqn:E; [congruence|]. apply I. apply (co_listed _ H (mkPoint (p_x p) y (p_id p) (p_alpha p))).
  cbn [apply d_points]. rewrite E. now left.
Qed.
Lemma c101_ex : data_ok ex3 /\ getFeature ex3 2 = Ok [30; 31; 32] /\ getFeature ex3 3 = Abort /\ getFeature ex3 (-1) = Abort /\
  getLabels ex3 = Ok [1; -1; 1] /\ ~ In 5 (d_classes ex3) /\ d_points ex3 <> [] /\ d_fnames ex3 = iota 1 (d_dim ex3).
Proof.
  split; [exact ex3_ok|]. repeat (split; [vm_compute; reflexivity|]). split; [vm_compute; intuition discriminate|].
  split; [vm_compute; discriminate|vm_compute; reflexivity].
Qed.
Lemma c101_apply_ex : forall p : point Z, p_y (mkPoint (map (Z.mul 2) (p_x p)) (p_y p) (p_id p) (p_alpha p)) = p_y p /\
  length (p_x (mkPoint (map (Z.mul 2) (p_x p)) (p_y p) (p_id p) (p_alpha p))) = length (p_x p).
Proof. intros p. split; auto. apply map_length. Qed.
