(** Property lemmas about sharing of points: C08, C84. *)
From Coq Require Import ZArith Bool String List Lia Permutation.
From Verif Require Import Base ListLib M_Data S_Data M_Hist Loop L_Valid L_Data L_Data2 M_Heap L_Heap T_Data.
Import ListNotations.
Local Open Scope nat_scope.

(** The calls of a history made on one of the two datasets. *)
Definition calls_on {T} (side : bool) (hist : list (bool * op T)) : list (op T) := map snd (filter (fun c => Bool.eqb (fst c) side) hist).

Lemma step_allowed {T} hp (h : hdata T) o d r : distinct h -> view hp h = Ok d -> data_ok d -> allowed_run d (o :: r) ->
  exists d' hp' h', h_step hp h o = Ok (hp', h') /\ step d o = Ok d' /\ data_ok d' /\ view hp' h' = Ok d' /\ frame hp h hp' h' /\ allowed_run d' r.
Proof.
  intros ND V D [A R]. destruct (c02_history T [o] d D) as (d' & E & D'); [split; [auto|intros; exact I]|]. cbn [run] in E. destruct (step d o) as [d1| |] eqn:Es; cbn [obind] in E; try discriminate. injection E as ->.
  destruct (step_ok hp h o d d' ND V Es) as (hp' & h' & E1 & V' & F).
  { intros perm ->. cbn [allowed] in A. eapply Permutation_NoDup; [symmetry; exact A|apply seq_NoDup]. }
  exists d', hp', h'. auto 10.
Qed.
Lemma run_apart {T} hist : forall hp (a b : hdata T) da db, distinct a -> distinct b -> apart a b -> view hp a = Ok da -> view hp b = Ok db -> data_ok da -> data_ok db ->
  allowed_run da (calls_on true hist) -> allowed_run db (calls_on false hist) ->
  exists hp' a' b' da' db', h_run hp a b hist = Ok (hp', a', b') /\ run da (calls_on true hist) = Ok da' /\ run db (calls_on false hist) = Ok db' /\ view hp' a' = Ok da' /\ view hp' b' = Ok db'.
Proof.
  induction hist as [|[side o] hist IH]; intros hp a b da db Na Nb Ap Va Vb Da Db Aa Ab.
  - exists hp, a, b, da, db. auto.
  - destruct side; cbn [calls_on filter map fst snd Bool.eqb] in Aa, Ab |- *; cbn [h_run].
    + destruct (step_allowed hp a o da _ Na Va Da Aa) as (d' & hp' & a' & E & Es & D' & V' & F & R'). rewrite E. cbn [obind]. destruct (step_other _ _ _ _ b db F Ap Vb) as [Vb' Ap'].
      destruct (IH hp' a' b d' db) as (h2 & a2 & b2 & da2 & db2 & E1 & E2 & E3 & V1 & V2); auto; [apply (fr_distinct _ _ _ _ F)|]. exists h2, a2, b2, da2, db2. cbn [run]. rewrite Es. cbn [obind]. auto.
    + assert (apart b a) as Ap0 by (intros r I J; eapply Ap; eauto). destruct (step_allowed hp b o db _ Nb Vb Db Ab) as (d' & hp' & b' & E & Es & D' & V' & F & R'). rewrite E. cbn [obind]. destruct (step_other _ _ _ _ a da F Ap0 Va) as [Va' Ap'].
      destruct (IH hp' a b' da d') as (h2 & a2 & b2 & da2 & db2 & E1 & E2 & E3 & V1 & V2); auto; [apply (fr_distinct _ _ _ _ F)|intros r I J; eapply Ap'; eauto|]. exists h2, a2, b2, da2, db2. cbn [run]. rewrite Es. cbn [obind]. auto.
Qed.
Lemma copy_fresh {T} hp (src : hdata T) d : view hp src = Ok d -> data_ok d -> exists hp1 cp, h_copy hp src = Ok (hp1, cp) /\ view hp1 cp = Ok d /\ view hp1 src = Ok d /\ distinct cp /\ apart src cp /\ (forall o do, view hp o = Ok do -> view hp1 o = Ok do).
Proof.
  intros V D. unfold h_copy. rewrite V. cbn [obind]. rewrite c08_copy_value by auto. unfold alloc. do 2 eexists. split; [reflexivity|]. split; [apply view_strip, reads_fresh|].
  assert (forall (o : hdata T) do, view hp o = Ok do -> view (hp ++ d_points d) o = Ok do) as K by (intros o do Vo; apply view_ok in Vo as [R E]; apply view_ok; split; [now apply reads_app|auto]).
  split; [auto|]. split; [apply seq_NoDup|]. split; [|auto]. intros r I J. cbn [h_refs] in J. apply in_seq in J. apply view_ok in V as [R _]. eapply reads_lt in I; eauto. lia.
Qed.
(** C08: a dataset and its copy: in every interleaving of calls on either, each behaves as if it were alone, starting from the same contents. *)
Lemma c08_independent : forall (T : Type) (hp : heap T) (src : hdata T) (d : data T) (hist : list (bool * op T)), view hp src = Ok d -> data_ok d -> NoDup (h_refs src) ->
  allowed_run d (calls_on true hist) -> allowed_run d (calls_on false hist) ->
  exists hp1 cp hp' src' cp' d1 d2, h_copy hp src = Ok (hp1, cp) /\ view hp1 cp = Ok d /\ h_run hp1 src cp hist = Ok (hp', src', cp') /\
    run d (calls_on true hist) = Ok d1 /\ run d (calls_on false hist) = Ok d2 /\ view hp' src' = Ok d1 /\ view hp' cp' = Ok d2.
Proof.
  intros T hp src d hist V D ND A1 A2. destruct (copy_fresh hp src d V D) as (hp1 & cp & E & Vc & Vs & Nc & Ap & _).
  destruct (run_apart hist hp1 src cp d d ND Nc Ap Vs Vc D D A1 A2) as (hp' & s' & c' & d1 & d2 & E1 & E2 & E3 & V1 & V2). exists hp1, cp, hp', s', c', d1, d2. auto 10.
Qed.
(** C08: copying changes nothing that any dataset reads. *)
Lemma c08_copy_reads : forall (T : Type) (hp : heap T) (src : hdata T) (d : data T), view hp src = Ok d -> data_ok d ->
  exists hp1 cp, h_copy hp src = Ok (hp1, cp) /\ view hp1 cp = Ok d /\ forall other do, view hp other = Ok do -> view hp1 other = Ok do.
Proof. intros T hp src d V D. destruct (copy_fresh hp src d V D) as (hp1 & cp & E & Vc & _ & _ & _ & K). eauto. Qed.
Definition hp3 : heap Z := d_points ex3.
Definition h3 : hdata Z := mkH [0; 1; 2] (strip ex3).
Lemma view3 : view hp3 h3 = Ok ex3.
Proof. vm_compute. reflexivity. Qed.
Lemma c08_independent_ex : view hp3 h3 = Ok ex3 /\ data_ok ex3 /\ NoDup (h_refs h3) /\ allowed_run ex3 (calls_on true (map (fun o => (true, o)) hist)) /\ allowed_run ex3 (calls_on false (map (fun o => (true, o)) hist)).
Proof.
  split; [apply view3|]. destruct c02_history_ex as (D & A & _). split; [exact D|]. split; [repeat constructor; cbn; lia|]. split; [exact A|exact I].
Qed.
Lemma c08_copy_reads_ex : view hp3 h3 = Ok ex3 /\ data_ok ex3.
Proof. split; [apply view3|apply c02_history_ex]. Qed.

(** C08: plain assignment shares the points: a new label given through one dataset shows in the other, whose class counts then no longer fit. *)
Lemma c08_assign_shares : forall (T : Type) (hp : heap T) (a dst : hdata T) (d : data T) i q v, view hp a = Ok d -> data_ok d -> NoDup (h_refs a) -> nth_error (d_points d) i = Some q -> In v (d_classes d) -> v <> p_y q ->
  exists hp' a' db p', h_step hp a (RelabelOp i v) = Ok (hp', a') /\ view hp' (h_assign dst a) = Ok db /\ nth_error (d_points db) i = Some p' /\ p_y p' = v /\ ~ class_ok db.
Proof.
  intros T hp a dst d i q v V D ND Eq Hv N. assert (i < length (d_points d)) as Li by (apply nth_error_Some; congruence).
  destruct (updatePointValue_spec d i v D ltac:(exact Li) Hv) as (d' & q' & EU & D' & _). assert (step d (RelabelOp i v) = Ok d') as Es by (cbn [step]; rewrite EU; reflexivity).
  destruct (step_ok hp a _ d d' ND V Es) as (hp' & a' & E & V' & F); [intros; discriminate|].
  assert (h_refs a' = h_refs a) as Er. { cbn [h_step] in E. rewrite V in E. cbn [obind] in E. rewrite EU in E. cbn [obind snd fst] in E. destruct (h_write _ _ _ _); cbn [obind] in E; try discriminate. injection E as <- <-. reflexivity. }
  apply view_ok in V' as [R' E']. rewrite Er in R'. destruct (updatePoint_points _ _ _ _ _ EU) as [[? _]|[_ P]]; [discriminate|]. apply vupd_Ok in P. pose proof (upd_nth_same _ _ _ _ P) as Pi. rewrite Eq in Pi. cbn [option_map] in Pi.
  apply view_ok in V as [R Em]. set (db := with_points (d_points d') (h_meta (h_assign dst a))). assert (view hp' (h_assign dst a) = Ok db) as Vb by (apply view_ok; split; [exact R'|reflexivity]).
  exists hp', a', db, (mkPoint (p_x q) v (p_id q) (p_alpha q)). split; [auto|]. split; [auto|]. split; [exact Pi|]. split; [reflexivity|]. intro C.
  apply In_nth_error in Hv as (k & Ek). pose proof (ok_class d D) as Cd. pose proof (co_count _ Cd k v Ek) as C1. assert (d_classes db = d_classes d) as Q1 by (rewrite Em; reflexivity). assert (d_dist db = d_dist d) as Q2 by (rewrite Em; reflexivity).
  pose proof (co_count _ C k v) as C2. rewrite Q1, Q2, C1 in C2. specialize (C2 Ek). injection C2 as C2. unfold label_count, labels in C2. cbn [db with_points d_points] in C2.
  destruct (upd_split _ _ _ _ P) as (l1 & x & l2 & E1 & E2 & E3). assert (x = q) as -> by (rewrite E1, <- E3, nth_error_app2, Nat.sub_diag in Eq by auto; cbn in Eq; congruence).
  rewrite E1, E2, !map_app, !count_occ_app in C2. cbn [map count_occ p_y] in C2. destruct (Z.eq_dec v v) as [_|?]; [|congruence]. destruct (Z.eq_dec (p_y q) v) as [?|_]; [congruence|]. lia.
Qed.
Lemma c08_assign_shares_ex : exists q v, view hp3 h3 = Ok ex3 /\ data_ok ex3 /\ nth_error (d_points ex3) 0 = Some q /\ In v (d_classes ex3) /\ v <> p_y q.
Proof. do 2 eexists. split; [apply view3|]. split; [apply c02_history_ex|]. split; [vm_compute; reflexivity|]. cbn [p_y]. vm_compute. split; [right; left; reflexivity|congruence]. Qed.

(** C84: a point of another dataset inserted with keepIndex leaves every dataset as it was. *)
Lemma c84_keep_index : forall (T : Type) (hp : heap T) (h src h' : hdata T) i b hp', h_insert_from hp h src i true = Ok (hp', h', b) -> hp' = hp.
Proof.
  intros T hp h src h' i b hp' E. unfold h_insert_from, h_insert in E. destruct (vget (h_refs src) i); cbn [obind] in E; try discriminate. destruct (vget hp a); cbn [obind] in E; try discriminate. destruct (view hp h); cbn [obind] in E; try discriminate.
  destruct (insertPoint _ _ _); cbn [obind] in E; try discriminate. destruct (snd a2); cbn [obind fst] in E; congruence.
Qed.
Lemma c84_keep_index_ex : exists h' b hp', h_insert_from hp3 (mkH [] (strip data_empty)) h3 1 true = Ok (hp', h', b).
Proof. do 3 eexists. vm_compute. reflexivity. Qed.
(** C84: without keepIndex the id of the point is overwritten in the dataset it comes from: it becomes the new size of the receiving dataset. *)
Lemma c84_renumbered_refuted : forall (T : Type) (hp : heap T) (h src : hdata T) (d s : data T) i p, view hp h = Ok d -> view hp src = Ok s -> data_ok d -> NoDup (h_refs src) -> apart h src ->
  nth_error (d_points s) i = Some p -> (d_points d = [] \/ length (p_x p) = d_dim d) ->
  exists hp' h' s', h_insert_from hp h src i false = Ok (hp', h', true) /\ view hp' src = Ok s' /\ nth_error (d_points s') i = Some (with_id (Z.of_nat (S (length (d_points d)))) p).
Proof.
  intros T hp h src d s i p Vd Vs D ND Ap Ep Hx. pose proof Vd as Vd0. pose proof Vs as Vs0. apply view_ok in Vd0 as [Rd Ed]. apply view_ok in Vs0 as [Rs Es]. destruct (reads_nth _ _ _ _ _ Rs Ep) as (r & Er & Eh). unfold h_insert_from, h_insert.
  unfold vget at 1. rewrite Er. cbn [obind]. unfold vget at 1. rewrite Eh. cbn [obind]. rewrite Vd. cbn [obind].
  assert (accepts d p) as Ac. { destruct Hx as [Hx|Hx]; [now left|]. unfold accepts, dim. destruct (d_points d) as [|q l] eqn:El; [now left|]. right. rewrite Hx. symmetry. apply (ok_dim d D). rewrite El. now left. }
  destruct (insertPoint_accept d p false Ac (ok_size d D) (co_len _ (ok_class d D))) as (d' & -> & _). cbn [obind snd fst]. rewrite (ok_size d D). unfold h_write. cbn [h_refs]. cbn [Nat.sub]. rewrite Nat.sub_0_r.
  rewrite <- (reads_len _ _ _ Rd). unfold vget at 1. rewrite nth_error_app2, Nat.sub_diag by auto. cbn [nth_error obind].
  assert (exists s2, vupd i (fun q => mkPoint (p_x q) (p_y q) (Z.of_nat (S (length (h_refs h)))) (p_alpha q)) (d_points s) = Ok s2) as [s2 U]. { destruct (vupd_lt i (fun q => mkPoint (p_x q) (p_y q) (Z.of_nat (S (length (h_refs h)))) (p_alpha q)) (d_points s)) as (s2 & _ & U); [apply nth_error_Some; congruence|eauto]. }
  destruct (upd_reads _ _ _ _ _ _ Rs ND U) as (r' & hp' & G1 & _ & G2 & R2 & _). unfold vget in G1. rewrite Er in G1. injection G1 as <-. rewrite G2. cbn [obind fst].
  do 2 eexists. exists (with_points s2 (h_meta src)). split; [reflexivity|]. split; [apply view_ok; split; [exact R2|reflexivity]|]. cbn [with_points d_points]. apply vupd_Ok in U. rewrite (upd_nth_same _ _ _ _ U), Ep. reflexivity.
Qed.
Lemma c84_renumbered_refuted_ex : exists p, view hp3 (mkH [] (strip data_empty)) = Ok data_empty /\ view hp3 h3 = Ok ex3 /\ @data_ok Z data_empty /\ NoDup (h_refs h3) /\ apart (mkH [] (strip data_empty)) h3 /\
  nth_error (d_points ex3) 1 = Some p /\ d_points (@data_empty Z) = [] /\ p_id p <> 1%Z.
Proof.
  eexists. split; [vm_compute; reflexivity|]. split; [apply view3|]. split; [constructor; cbn; try lia; try tauto; try discriminate; try constructor; cbn; try tauto; try constructor; try (intros [|?] ?; discriminate)|]. split; [repeat constructor; cbn; lia|]. split; [intros r []|]. split; [vm_compute; reflexivity|]. split; [reflexivity|]. vm_compute. congruence.
Qed.
