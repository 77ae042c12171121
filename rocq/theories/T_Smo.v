(** Theorems about SMO. *)
From Coq Require Import ZArith Bool List Permutation Arith Lia Reals Lra Psatz.
From Verif Require Import Base ListLib M_Data M_Point L_Vec Loop M_Kernel S_Kernel L_Kernel M_Perc S_Perc L_Perc M_Dll S_Dll L_Dll M_Smo S_Smo L_Smo.
Import ListNotations.
Local Open Scope R_scope.

Lemma kernel_matrix_get n K k : kernel_matrix n K k -> (forall i j, (i < n)%nat -> (j < n)%nat -> mget K i j = Ok (k i j)) /\ (forall i j, (i < n)%nat -> (j < n)%nat -> k i j = k j i).
Proof.
  intro H. split; intros i j Hi Hj; destruct (H i j Hi Hj) as [(r & E1 & E2) Sy]; auto. unfold mget. apply vget_Ok in E1. rewrite E1. cbn [obind]. apply vget_Ok. auto.
Qed.

(** The state in which training starts. *)
Definition smo_start (d : data R) (h : heap) : smo :=
  mkSmo (repeat 0 (size d)) 0 (fst (dll_new h)) (snd (dll_new h)) (repeat ld_fresh (size d)).
Lemma nz_repeat n i : nz (repeat 0 n) i = 0.
Proof. unfold nz. revert i. induction n as [|n IH]; intros [|i]; cbn; auto. Qed.
Lemma start_inv C d kf h : 0 < C -> heap_ok h -> inv C d kf h (smo_start d h).
Proof.
  intros HC HH. assert (forall i, ldn (repeat ld_fresh (size d)) i = ld_fresh) as LF.
  { intro i. unfold ldn. generalize (size d). intro n. revert i. induction n as [|n IH]; intros [|i]; cbn; auto. }
  exists []. unfold smo_start. cbn [fst snd dll_new]. split; [|split; [|split]].
  - constructor; cbn [sm_alpha sm_ld sm_heap sm_head map tag].
    + apply repeat_length.
    + apply repeat_length.
    + intros a Ha. cbn in *. destruct (Nat.eqb_spec a (brk h)); [lia|]. apply HH. lia.
    + split; [constructor; [intros []|constructor]|]. cbn. rewrite Nat.eqb_refl. auto.
    + constructor.
    + intros a i. rewrite LF. cbn. split; [intros []|intros [_ E]; discriminate].
    + intros a [->|[]]. apply HH. lia.
    + cbn. lia.
    + intros a Na _. cbn. destruct (Nat.eqb_spec a (brk h)); [contradiction|auto].
  - intros i Hi. cbn [sm_alpha map]. rewrite nz_repeat. split; [intros []|lra].
  - cbn [sm_alpha]. split; [intros i _; rewrite nz_repeat; lra|]. apply sumn_zero. intros i _. rewrite nz_repeat. ring.
  - intros i Hi P. cbn [sm_alpha] in P. rewrite nz_repeat in P. lra.
Qed.
Lemma inv_feasible C d kf h s : inv C d kf h s -> dual_feasible C d (nz (sm_alpha s)).
Proof. intros (l & _ & _ & FE & _). exact FE. Qed.

(** Any sequence of steps on pairs of different examples. *)
Definition take_steps (C EPS : R) (d : data R) (K : list (list R)) (ops : list (nat * nat)) (s : smo) : outcome smo :=
  ofold (fun s ij => let* r := take_step C EPS d K s (fst ij) (snd ij) in Ok (fst r)) ops s.
Definition pairs_ok (d : data R) (ops : list (nat * nat)) : Prop :=
  forall i j, In (i, j) ops -> (i < size d)%nat /\ (j < size d)%nat /\ i <> j.

Lemma take_steps_inv C EPS d K kf h ops : 0 < C -> 0 < EPS -> binary d -> kernel_matrix (size d) K kf -> heap_ok h -> pairs_ok d ops ->
  exists s, take_steps C EPS d K ops (smo_start d h) = Ok s /\ inv C d kf h s /\ sm_head s = brk h /\ (dist_nonneg (size d) kf -> 0 <= dual_objective d kf (nz (sm_alpha s))).
Proof.
  intros HC HE HB HK HH HO. destruct (kernel_matrix_get _ _ _ HK) as [KG KS]. unfold take_steps.
  assert (W d kf (sm_alpha (smo_start d h)) = 0) as W0.
  { unfold W, smo_start. cbn [sm_alpha]. rewrite (sumn_zero (size d) (fun i => nz (repeat 0 (size d)) i)) by (intros; apply nz_repeat).
    rewrite (sumn_zero (size d) (fun i => nz (repeat 0 (size d)) i * Y d i * G d kf (repeat 0 (size d)) i)) by (intros; rewrite nz_repeat; ring). ring. }
  apply (ofold_list _ (fun _ s => inv C d kf h s /\ sm_head s = brk h /\ (dist_nonneg (size d) kf -> 0 <= dual_objective d kf (nz (sm_alpha s))))).
  - split; [apply start_inv; auto|]. split; [reflexivity|]. intros _. change (0 <= W d kf (sm_alpha (smo_start d h))). rewrite W0. lra.
  - intros dn [i j] r s El (I & Hd & O). destruct (HO i j) as (Hi & Hj & N); [rewrite El, in_app_iff; right; left; auto|]. cbn [fst snd].
    destruct (take_step_ok C EPS d K kf h HC HE KG KS HH HB s i j I Hi Hj N) as [(s' & b & -> & I' & Hd' & Wm & _) _]. cbn [obind fst]. exists s'. split; auto. split; auto. split; [congruence|].
    intro DN. specialize (O DN). change (0 <= W d kf (sm_alpha s)) in O. change (0 <= W d kf (sm_alpha s')).
    assert (W d kf (sm_alpha s) <= W d kf (sm_alpha s')); [|lra]. apply Wm. intros p q Hp Hq. specialize (DN p q Hp Hq). lra.
Qed.

(** C44: after any number of steps the dual variables are feasible. *)
Lemma c44_steps C EPS d K kf h ops : 0 < C -> 0 < EPS -> binary d -> kernel_matrix (size d) K kf -> heap_ok h -> pairs_ok d ops ->
  exists s, take_steps C EPS d K ops (smo_start d h) = Ok s /\ length (sm_alpha s) = size d /\ dual_feasible C d (nz (sm_alpha s)).
Proof.
  intros HC HE HB HK HH HO. destruct (take_steps_inv C EPS d K kf h ops HC HE HB HK HH HO) as (s & E & I & _). exists s. split; auto. split; [|apply (inv_feasible C d kf h s I)].
  destruct I as (l & S & _). apply S.
Qed.

(** C45: after any number of steps the list, read in both directions from its head, holds exactly the examples with a positive dual variable, each once. *)
Lemma c45_steps C EPS d K kf h ops : 0 < C -> 0 < EPS -> binary d -> kernel_matrix (size d) K kf -> heap_ok h -> pairs_ok d ops ->
  exists s l, take_steps C EPS d K ops (smo_start d h) = Ok s /\ dll (sm_heap s) ((sm_head s, (-1)%Z) :: l) /\ NoDup (map snd l) /\
    (forall z, In z (map snd l) <-> exists i, z = Z.of_nat i /\ (i < size d)%nat /\ 0 < nz (sm_alpha s) i) /\
    (forall a, a <> sm_head s -> ~ In a (map fst l) -> mem (sm_heap s) a = mem h a).
Proof.
  intros HC HE HB HK HH HO. destruct (take_steps_inv C EPS d K kf h ops HC HE HB HK HH HO) as (s & E & (l & S & SU & _) & _). exists s, (tag l). split; auto. split; [apply S|].
  assert (map snd (tag l) = map Z.of_nat (map snd l)) as ET by (unfold tag; rewrite !map_map; reflexivity). split; [|split].
  - rewrite ET. apply FinFun.Injective_map_NoDup; [intros x y; lia|apply S].
  - intro z. rewrite ET, in_map_iff. split.
    + intros (i & <- & Hi). pose proof (struct_lt _ _ _ _ i S Hi). exists i. split; auto. split; auto. apply SU; auto.
    + intros (i & -> & Hi & P). exists i. split; auto. apply SU; auto.
  - intros a Na Nl. rewrite tag_fst in Nl. apply (st_frame _ _ _ _ S); auto.
Qed.

(** C73: the cached error of every example strictly between the bounds is its current error. *)
Lemma c73_cache C EPS d K kf h ops : 0 < C -> 0 < EPS -> binary d -> kernel_matrix (size d) K kf -> heap_ok h -> pairs_ok d ops ->
  exists s, take_steps C EPS d K ops (smo_start d h) = Ok s /\
    forall i, (i < size d)%nat -> 0 < nz (sm_alpha s) i -> nz (sm_alpha s) i < C ->
    exists e, nth_error (sm_ld s) i = Some e /\ ld_err e = value_at d kf (nz (sm_alpha s)) (sm_bias s) i - label_at d i.
Proof.
  intros HC HE HB HK HH HO. destruct (take_steps_inv C EPS d K kf h ops HC HE HB HK HH HO) as (s & E & (l & S & SU & _ & CA) & _). exists s. split; auto.
  intros i Hi P1 P2. exists (ldn (sm_ld s) i). split; [apply nth_error_nth'; rewrite (st_ld _ _ _ _ S); auto|]. apply CA; auto.
Qed.

(** C74: the dual objective never decreases. *)
Lemma c74_step C EPS d K kf h ops i j : 0 < C -> 0 < EPS -> binary d -> kernel_matrix (size d) K kf -> dist_nonneg (size d) kf -> heap_ok h -> pairs_ok d ops ->
  (i < size d)%nat -> (j < size d)%nat -> i <> j ->
  exists s s' b, take_steps C EPS d K ops (smo_start d h) = Ok s /\ take_step C EPS d K s i j = Ok (s', b) /\
    0 <= dual_objective d kf (nz (sm_alpha s)) <= dual_objective d kf (nz (sm_alpha s')).
Proof.
  intros HC HE HB HK DN HH HO Hi Hj N. destruct (kernel_matrix_get _ _ _ HK) as [KG KS]. destruct (take_steps_inv C EPS d K kf h ops HC HE HB HK HH HO) as (s & E & I & _ & O).
  destruct (take_step_ok C EPS d K kf h HC HE KG KS HH HB s i j I Hi Hj N) as [(s' & b & E' & I' & Hd' & Wm & _) _]. exists s, s', b. split; auto. split; auto. split; auto.
  apply Wm. intros p q Hp Hq. specialize (DN p q Hp Hq). lra.
Qed.

(** Progress along a pair: the model's step is the best one. *)
Lemma box_bounds C s12 a1 a2 lo hi n : (s12 = 1%Z \/ s12 = (-1)%Z) -> smo_bounds C s12 a1 a2 = (lo, hi) -> 0 <= n <= C -> 0 <= a1 - IZR s12 * (n - a2) <= C -> lo <= n <= hi.
Proof.
  intros [-> | ->] E; unfold smo_bounds in E; cbn [Z.eqb Pos.eqb] in E; injection E as <- <-; unfold Rmax, Rmin; repeat (destruct (Rle_dec _ _)); cbn [IZR IPR IPR_2]; intros; lra.
Qed.
Lemma best_is eta y2 e1 e2 a2 lo hi EPS n : eta < 0 -> y2 * y2 = 1 -> lo <= a2 <= hi -> lo <= n <= hi ->
  let g := fun n => - (y2 * (n - a2)) * (e2 - e1) + / 2 * (n - a2) * (n - a2) * eta in
  g (smo_alpha2 EPS eta y2 e1 e2 a2 lo hi) <= g n -> n = smo_alpha2 EPS eta y2 e1 e2 a2 lo hi.
Proof.
  intros En Yq Ba Bn g. unfold smo_alpha2. destruct (Rlt_dec eta 0); [|contradiction].
  set (q := y2 * (e2 - e1) / eta). assert (q * eta = y2 * (e2 - e1)) as Q by (unfold q; field; lra).
  assert (forall p, g p - g n = - eta * ((p - n) * (q - ((p - a2) + (n - a2)) / 2))) as A.
  { intro p. unfold g. transitivity ((n - p) * (y2 * (e2 - e1)) + / 2 * ((p - a2) * (p - a2) - (n - a2) * (n - a2)) * eta); [ring|]. rewrite <- Q. field. }
  intro H. match type of H with g ?p <= _ => assert ((p - n) * (q - ((p - a2) + (n - a2)) / 2) <= 0) as B end.
  { apply Rnot_lt_le. intro P. pose proof (Rmult_lt_0_compat (- eta) _ ltac:(lra) P) as P2. rewrite <- A in P2. lra. }
  clear H A. clearbody q. destruct (Rlt_dec (a2 + q) lo) as [L|L]; [|destruct (Rlt_dec hi (a2 + q)) as [U|U]].
  - destruct (Req_dec n lo); auto. exfalso. assert (0 < (n - lo) * ((lo - a2 + (n - a2)) / 2 - q)); [apply Rmult_lt_0_compat; lra|lra].
  - destruct (Req_dec n hi); auto. exfalso. assert (0 < (hi - n) * (q - (hi - a2 + (n - a2)) / 2)); [apply Rmult_lt_0_compat; lra|lra].
  - destruct (Req_dec n (a2 + q)) as [|Nq]; auto. exfalso. replace ((a2 + q - n) * (q - (a2 + q - a2 + (n - a2)) / 2)) with (Rsqr (a2 + q - n) / 2) in B by (unfold Rsqr; field).
    assert (0 < Rsqr (a2 + q - n)) by (apply Rsqr_pos_lt; lra). lra.
Qed.
Lemma objective_ext d kf a a' : (forall i, (i < size d)%nat -> a i = a' i) -> dual_objective d kf a = dual_objective d kf a'.
Proof.
  intro H. unfold dual_objective. rewrite (sumn_ext (size d) a a') by auto. f_equal. f_equal. apply sumn_ext. intros i Hi. rewrite H by auto. f_equal. apply sumn_ext. intros r Hr. rewrite H by auto. auto.
Qed.
Lemma moved_objective d kf al b i j n : (forall p, In p (d_points d) -> p_y p = 1%Z \/ p_y p = (-1)%Z) -> (forall i j, (i < size d)%nat -> (j < size d)%nat -> kf i j = kf j i) ->
  length al = size d -> i <> j -> (i < size d)%nat -> (j < size d)%nat ->
  let e k := value_at d kf (nz al) b k - label_at d k in
  dual_objective d kf (moved d (nz al) i j n) = dual_objective d kf (nz al) + (- (label_at d j * (n - nz al j)) * (e j - e i) + / 2 * (n - nz al j) * (n - nz al j) * (2 * kf i j - kf i i - kf j j)).
Proof.
  intros HB KS L N Hi Hj e. set (n1 := nz al i - label_at d i * label_at d j * (n - nz al j)).
  destruct (upd_lt i (fun _ => n1) al) as (al1 & U1); [lia|]. destruct (upd_lt j (fun _ => n) al1) as (al2 & U2); [rewrite (upd_length _ _ _ _ U1); lia|].
  rewrite (objective_ext d kf (moved d (nz al) i j n) (nz al2)).
  - change (W d kf al2 = W d kf al + (- (Y d j * (n - nz al j)) * (e j - e i) + / 2 * (n - nz al j) * (n - nz al j) * (2 * kf i j - kf i i - kf j j))).
    rewrite (W_change d kf KS al al1 al2 i j n1 n L N Hi Hj U1 U2).
    change (e j) with (G d kf al j + b - Y d j). change (e i) with (G d kf al i + b - Y d i). unfold n1. change (label_at d i) with (Y d i). change (label_at d j) with (Y d j).
    pose proof (Ysq d HB i Hi) as Y1. pose proof (Ysq d HB j Hj) as Y2. set (x := n - nz al j). set (g1 := G d kf al i). set (g2 := G d kf al j). generalize dependent (Y d i). generalize dependent (Y d j). intros u Y2 v Y1.
    replace ((nz al i - v * u * x - nz al i) * v) with (- (v * v) * (x * u)) by ring. rewrite Y1.
    assert (x * u * (x * u) = x * x) as XX by (transitivity (x * x * (u * u)); [ring|rewrite Y2; ring]).
    replace (- (1) * (x * u) * (- (1) * (x * u)) * kf i i + 2 * (- (1) * (x * u)) * (x * u) * kf i j + x * u * (x * u) * kf j j) with (- (x * u * (x * u)) * (2 * kf i j - kf i i - kf j j)) by ring.
    rewrite XX. assert (x = x * (u * u)) as XY by (rewrite Y2; ring). 
    transitivity (W d kf al + (- (v * u * x) + x * (u * u) - - (x * u) * g1 - x * u * g2 + / 2 * x * x * (2 * kf i j - kf i i - kf j j))); [rewrite <- XY; field|field].
  - intros r Hr. unfold moved. destruct (Nat.eqb_spec r j) as [->|N1]; [rewrite (nz_upd_same _ _ _ _ U2); auto|]. rewrite (nz_upd_other _ _ _ _ _ U2) by auto.
    destruct (Nat.eqb_spec r i) as [->|N2]; [rewrite (nz_upd_same _ _ _ _ U1); auto|]. rewrite (nz_upd_other _ _ _ _ _ U1) by auto. auto.
Qed.
Lemma stuck_no_progress C EPS d kf al b i j : 0 < C -> 0 < EPS -> binary d -> (forall i j, (i < size d)%nat -> (j < size d)%nat -> kf i j = kf j i) -> dist_pos (size d) kf ->
  length al = size d -> dual_feasible C d (nz al) -> (i < size d)%nat -> (j < size d)%nat -> i <> j -> stuck C EPS d kf al b i j -> no_progress C EPS d kf (nz al) i j.
Proof.
  intros HC HE HB KS DP L FE Hi Hj N ST n [Bn1 Bn2] Best. unfold stuck in ST.
  set (s12 := (p_y (pt d i) * p_y (pt d j))%Z) in ST.
  assert (IZR s12 = Y d i * Y d j) as ES by (unfold s12; rewrite mult_IZR; reflexivity).
  assert (s12 = 1%Z \/ s12 = (-1)%Z) as HS by (unfold s12; destruct (HB (pt d i) (nth_In _ _ Hi)) as [-> | ->], (HB (pt d j) (nth_In _ _ Hj)) as [-> | ->]; auto).
  assert (forall n, moved d (nz al) i j n i = nz al i - IZR s12 * (n - nz al j)) as EM.
  { intro n'. unfold moved. rewrite (proj2 (Nat.eqb_neq i j) N), Nat.eqb_refl, ES. reflexivity. }
  rewrite EM in Bn2. destruct (smo_bounds C s12 (nz al i) (nz al j)) as [lo hi] eqn:BD.
  destruct (bounds_ok C s12 (nz al i) (nz al j) lo hi HS (proj1 FE i Hi) (proj1 FE j Hj) BD) as (Ba & Bl & Bh & B1 & _).
  pose proof (box_bounds C s12 _ _ lo hi n HS BD Bn1 Bn2) as Bn.
  destruct ST as [ST|ST].
  - assert (n = nz al j) as -> by lra. replace (nz al j - nz al j) with 0 by ring. rewrite Rabs_R0. apply Rmult_lt_0_compat; auto. pose proof (proj1 FE j Hj). lra.
  - set (eta := 2 * kf i j - kf i i - kf j j) in ST. assert (eta < 0) as En by (specialize (DP i j Hi Hj N); unfold eta; lra).
    set (e1 := F d kf al b i - Y d i) in ST. set (e2 := F d kf al b j - Y d j) in ST. set (n2 := smo_alpha2 EPS eta (Y d j) e1 e2 (nz al j) lo hi) in ST.
    enough (n = n2) as -> by exact ST. apply best_is; auto; [apply (Ysq d HB j Hj)|].
    destruct (alpha2_ok EPS eta (Y d j) e1 e2 (nz al j) lo hi Ba) as [R2 _]. fold n2. fold n2 in R2.
    pose proof (B1 n2 R2) as R1. specialize (Best n2). rewrite !(moved_objective d kf al b i j) in Best by auto.
    assert (in_box C d (nz al) i j n2) as IB by (split; [lra|rewrite EM; lra]). specialize (Best IB). apply Rplus_le_reg_l in Best. exact Best.
Qed.
Lemma kkt_optimal C TOL d kf al b i : binary d -> (i < size d)%nat -> kkt C TOL d kf al b i -> optimal_at C TOL d kf (nz al) b i.
Proof.
  intros HB Hi KK. unfold kkt in KK. cbv zeta in KK. destruct KK as [K1 K2]. pose proof (Ysq d HB i Hi) as Y1.
  assert (Y d i * (F d kf al b i - Y d i) = Y d i * F d kf al b i - 1) as E by (transitivity (Y d i * F d kf al b i - Y d i * Y d i); [ring|rewrite Y1; ring]). rewrite E in K1, K2.
  unfold optimal_at. change (label_at d i) with (Y d i). split; change (value_at d kf (nz al) b i) with (F d kf al b i); intro P; apply Rnot_lt_le; intro Q; [apply K1|apply K2]; split; auto; lra.
Qed.

(** C44, C45, C74, C75: training as a whole. It always ends, the result is feasible, the list is freed, the number of support vectors is right, and when it answers
    true every example meets the optimality conditions or can make no progress together with any other example. *)
Lemma train_ok C TOL EPS rnd d K kf max_epoch h : 0 < C -> 0 < EPS -> binary d -> kernel_matrix (size d) K kf -> heap_ok h ->
  exists s svs b, smo_train C TOL EPS rnd d K max_epoch h = Ok (Some (s, svs, b)) /\ length (sm_alpha s) = size d /\ dual_feasible C d (nz (sm_alpha s)) /\
    (forall a, mem (sm_heap s) a = mem h a) /\ svs = length (filter (fun i => if Rlt_dec 0 (nz (sm_alpha s) i) then true else false) (seq 0 (size d))) /\
    (dist_nonneg (size d) kf -> 0 <= dual_objective d kf (nz (sm_alpha s))) /\
    (b = true -> forall i, (i < size d)%nat -> quiet C TOL EPS d kf (sm_alpha s) (sm_bias s) i) /\
    (flat d kf -> (1 <= max_epoch)%nat -> b = true /\ sm_bias s = 0 /\ forall i, nz (sm_alpha s) i = 0).
Proof.
  intros HC HE HB HK HH. destruct (kernel_matrix_get _ _ _ HK) as [KG KS]. unfold smo_train. cbn [dll_new].
  pose proof (start_inv C d kf h HC HH) as I0. change (mkSmo (repeat 0 (size d)) 0 {| mem := fun a => if Nat.eqb a (brk h) then Some (mkNode (-1) None None) else mem h a; brk := S (brk h) |} (brk h) (repeat ld_fresh (size d))) with (smo_start d h).
  destruct (loop_ok C TOL EPS rnd d K kf h HC HE KG KS HH HB max_epoch (S (S max_epoch)) 0 0 true (smo_start d h) I0) as (s & b & -> & I & Hd & Wm & Q & Z); [lia|discriminate|]. cbn [obind].
  destruct I as (l & S & SU & FE & CA). destruct (st_dll _ _ _ _ S) as [ND LK].
  destruct (free_ok _ (sm_heap s) None (Datatypes.S (Datatypes.S (size d))) ND LK) as (h' & EF & B' & F1 & F2).
  { cbn [length]. unfold tag. rewrite map_length. pose proof (struct_len _ _ _ _ S). lia. }
  cbn [first] in EF. rewrite EF. cbn [obind]. eexists _, _, _. split; [reflexivity|]. cbn [with_heap sm_alpha sm_heap sm_bias]. split; [apply S|]. split; [exact FE|]. split; [|split; [|split; [|split]]].
  - intro a. cbn [map fst] in F1, F2. rewrite tag_fst in F1, F2. destruct (Nat.eq_dec a (sm_head s)) as [->|Na].
    + rewrite F1 by (left; auto). symmetry. apply (st_fresh _ _ _ _ S). auto.
    + destruct (in_dec Nat.eq_dec a (map fst l)) as [Ia|Ia].
      * rewrite F1 by (right; auto). symmetry. apply (st_fresh _ _ _ _ S). auto.
      * rewrite F2 by (intros [|]; auto). apply (st_frame _ _ _ _ S); auto.
  - assert (sm_alpha s = map (nz (sm_alpha s)) (seq 0 (size d))) as EL.
    { apply nth_error_ext'. intro i. destruct (Nat.lt_ge_cases i (size d)) as [Hi|Hi].
      - rewrite (nth_error_nth' _ 0) by (rewrite (st_al _ _ _ _ S); auto). rewrite nth_error_map. rewrite (nth_error_nth' _ O) by (rewrite seq_length; auto). rewrite seq_nth by auto. reflexivity.
      - rewrite !(proj2 (nth_error_None _ _)); auto; [rewrite map_length, seq_length; auto|rewrite (st_al _ _ _ _ S); auto]. }
    rewrite EL at 1. rewrite filter_map_comm, map_length. reflexivity.
  - intro DN. change (0 <= W d kf (sm_alpha s)). assert (W d kf (sm_alpha (smo_start d h)) <= W d kf (sm_alpha s)) as Q2; [apply Wm; intros p q Hp Hq; specialize (DN p q Hp Hq); lra|].
    enough (W d kf (sm_alpha (smo_start d h)) = 0) by lra.
    unfold W, smo_start. cbn [sm_alpha]. rewrite (sumn_zero (size d) (fun i => nz (repeat 0 (size d)) i)) by (intros; apply nz_repeat).
    rewrite (sumn_zero (size d) (fun i => nz (repeat 0 (size d)) i * Y d i * G d kf (repeat 0 (size d)) i)) by (intros; rewrite nz_repeat; ring). ring.
  - intro Eb. apply andb_true_iff in Eb. destruct Eb as [Eb _]. apply Q; auto.
  - intros FL Me. destruct (Z (or_introl FL)) as (A & B & Tr). rewrite A, B. split; [|split; [reflexivity|intro i; apply nz_repeat]]. rewrite Tr by (auto; lia). cbn [andb]. apply negb_true_iff. apply not_true_is_false. intro X.
    apply existsb_exists in X. destruct X as (a & Ia & Xa). apply repeat_spec in Ia. subst a. destruct (Rlt_dec C 0); [lra|discriminate].
Qed.


Lemma c44_train C TOL EPS rnd d K kf max_epoch h : 0 < C -> 0 < EPS -> binary d -> kernel_matrix (size d) K kf -> heap_ok h ->
  exists s svs b, smo_train C TOL EPS rnd d K max_epoch h = Ok (Some (s, svs, b)) /\ length (sm_alpha s) = size d /\ dual_feasible C d (nz (sm_alpha s)).
Proof.
  intros HC HE HB HK HH. destruct (train_ok C TOL EPS rnd d K kf max_epoch h HC HE HB HK HH) as (s & n & b & E & L & FE & _). eauto 10.
Qed.
Lemma c45_train C TOL EPS rnd d K kf max_epoch h : 0 < C -> 0 < EPS -> binary d -> kernel_matrix (size d) K kf -> heap_ok h ->
  exists s svs b, smo_train C TOL EPS rnd d K max_epoch h = Ok (Some (s, svs, b)) /\ (forall a, mem (sm_heap s) a = mem h a) /\
    svs = length (filter (fun i => if Rlt_dec 0 (nz (sm_alpha s) i) then true else false) (seq 0 (size d))).
Proof.
  intros HC HE HB HK HH. destruct (train_ok C TOL EPS rnd d K kf max_epoch h HC HE HB HK HH) as (s & n & b & E & L & FE & M & SV & _). exists s, n, b. auto.
Qed.
Lemma c74_train C TOL EPS rnd d K kf max_epoch h : 0 < C -> 0 < EPS -> binary d -> kernel_matrix (size d) K kf -> dist_nonneg (size d) kf -> heap_ok h ->
  exists s svs b, smo_train C TOL EPS rnd d K max_epoch h = Ok (Some (s, svs, b)) /\ 0 <= dual_objective d kf (nz (sm_alpha s)).
Proof.
  intros HC HE HB HK DN HH. destruct (train_ok C TOL EPS rnd d K kf max_epoch h HC HE HB HK HH) as (s & n & b & E & L & FE & M & SV & O & _). exists s, n, b. auto.
Qed.

(** C75: what the answer true means. *)
Lemma c75_true C TOL EPS rnd d K kf max_epoch h s svs : 0 < C -> 0 < EPS -> binary d -> kernel_matrix (size d) K kf -> dist_pos (size d) kf -> heap_ok h ->
  smo_train C TOL EPS rnd d K max_epoch h = Ok (Some (s, svs, true)) ->
  forall i, (i < size d)%nat -> optimal_at C TOL d kf (nz (sm_alpha s)) (sm_bias s) i \/
    forall j, (j < size d)%nat -> j <> i -> no_progress C EPS d kf (nz (sm_alpha s)) i j.
Proof.
  intros HC HE HB HK DP HH E i Hi. destruct (kernel_matrix_get _ _ _ HK) as [KG KS]. destruct (train_ok C TOL EPS rnd d K kf max_epoch h HC HE HB HK HH) as (s' & n & b & E' & L & FE & M & SV & O & Q & _).
  rewrite E in E'. injection E' as <- <- <-. destruct (Q eq_refl i Hi) as [Q1|Q1]; [left; apply kkt_optimal; auto|]. right. intros j Hj N. apply (stuck_no_progress C EPS d kf (sm_alpha s) (sm_bias s)); auto.
Qed.

(** A dataset of two examples at the same place with different labels: training answers true with all dual variables zero, although no example meets the optimality
    conditions. *)
Definition smo_dup : data R := mkData [mkPoint [1] 1%Z 1%Z 0; mkPoint [1] (-1)%Z 2%Z 0] [1]%Z [0; 1]%Z [] [1; -1]%Z [1; 1]%Z 2 1 false false false true.
Lemma two_positions (P : nat -> Prop) n : n = 2%nat -> P 0%nat -> P 1%nat -> forall i, (i < n)%nat -> P i.
Proof. intros -> H0 H1 [|[|i]] Hi; auto; lia. Qed.
Lemma smo_dup_kernel : kernel_matrix (size smo_dup) [[1; 1]; [1; 1]] (fun _ _ => 1).
Proof. intros i j Hi Hj. split; auto. change (size smo_dup) with 2%nat in *. destruct i as [|[|i]], j as [|[|j]]; try lia; eexists; split; reflexivity. Qed.
Lemma smo_dup_binary : binary smo_dup.
Proof. intros p [<-|[<-|[]]]; cbn; auto. Qed.
Lemma heap_empty_ok : heap_ok heap_empty.
Proof. intros a _. reflexivity. Qed.
Lemma c75_duplicates_refuted : exists C TOL EPS d K kf, 0 < C /\ 0 < TOL < 1 /\ 0 < EPS /\ binary d /\ kernel_matrix (size d) K kf /\ dist_nonneg (size d) kf /\
  exists s svs, smo_train C TOL EPS 0 d K 100 heap_empty = Ok (Some (s, svs, true)) /\
    (forall i, (i < size d)%nat -> ~ optimal_at C TOL d kf (nz (sm_alpha s)) (sm_bias s) i) /\
    exists n, in_box C d (nz (sm_alpha s)) 0 1 n /\ dual_objective d kf (nz (sm_alpha s)) + 1 < dual_objective d kf (moved d (nz (sm_alpha s)) 0 1 n).
Proof.
  exists 1, (/ 1000), (/ 1000), smo_dup, [[1; 1]; [1; 1]], (fun _ _ => 1). split; [lra|]. split; [lra|]. split; [lra|]. split; [apply smo_dup_binary|]. split; [apply smo_dup_kernel|]. split; [intros i j _ _; lra|].
  destruct (train_ok 1 (/ 1000) (/ 1000) 0 smo_dup [[1; 1]; [1; 1]] (fun _ _ => 1) 100 heap_empty) as (s & n & b & E & L & FE & M & SV & O & Q & Z);
    [lra|lra|apply smo_dup_binary|apply smo_dup_kernel|apply heap_empty_ok|].
  destruct Z as (-> & B0 & A0); [intros i j _ _; lra|lia|]. exists s, n. split; auto. split.
  - intros i Hi [H1 _]. rewrite A0 in H1. specialize (H1 ltac:(lra)). unfold value_at in H1. rewrite B0, sumn_zero in H1 by (intros; rewrite A0; ring). rewrite Rplus_0_l, Rmult_0_r in H1. lra.
  - exists 1. split.
    + unfold in_box, moved. cbn [Nat.eqb]. rewrite !A0. unfold label_at, pt. cbn [nth smo_dup d_points p_y]. lra.
    + unfold dual_objective, moved. change (size smo_dup) with 2%nat. cbn [sumn Nat.eqb]. rewrite !A0. unfold label_at, pt. cbn [nth smo_dup d_points p_y]. lra.
Qed.

(** Two examples at 1 and -3 with the linear kernel. *)
Definition smo_two : data R := mkData [mkPoint [1] 1%Z 1%Z 0; mkPoint [-3] (-1)%Z 2%Z 0] [1]%Z [0; 1]%Z [] [1; -1]%Z [1; 1]%Z 2 1 false false false true.
Definition smo_two_k (i j : nat) : R := (if Nat.eqb i 0 then 1 else -3) * (if Nat.eqb j 0 then 1 else -3).
Lemma smo_two_ok : binary smo_two /\ kernel_matrix (size smo_two) [[1; -3]; [-3; 9]] smo_two_k /\ dist_nonneg (size smo_two) smo_two_k /\ dist_pos (size smo_two) smo_two_k /\ pairs_ok smo_two [(0, 1); (1, 0)]%nat.
Proof.
  split; [intros p [<-|[<-|[]]]; cbn; auto|]. change (size smo_two) with 2%nat. split; [|split; [|split]].
  - intros i j Hi Hj. split.
    + destruct i as [|[|i]], j as [|[|j]]; try lia; eexists; (split; [reflexivity|]); cbn; unfold smo_two_k; cbn [Nat.eqb]; f_equal; ring.
    + unfold smo_two_k. ring.
  - intros i j Hi Hj. destruct i as [|[|i]], j as [|[|j]]; try lia; unfold smo_two_k; cbn [Nat.eqb]; lra.
  - intros i j Hi Hj N. destruct i as [|[|i]], j as [|[|j]]; try lia; unfold smo_two_k; cbn [Nat.eqb]; lra.
  - intros i j [E|[E|[]]]; injection E as <- <-; cbn; lia.
Qed.
Lemma c44_ex : exists s, take_steps 1 (/ 1000) smo_two [[1; -3]; [-3; 9]] [(0, 1); (1, 0)]%nat (smo_start smo_two heap_empty) = Ok s /\ length (sm_alpha s) = 2%nat /\ dual_feasible 1 smo_two (nz (sm_alpha s)).
Proof. destruct smo_two_ok as (A & B & _ & _ & E). apply (c44_steps 1 (/ 1000) smo_two _ smo_two_k heap_empty); auto; try lra. apply heap_empty_ok. Qed.
Lemma c45_ex : exists s svs b, smo_train 1 (/ 1000) (/ 1000) 7 smo_two [[1; -3]; [-3; 9]] 100 heap_empty = Ok (Some (s, svs, b)) /\ (forall a, mem (sm_heap s) a = None) /\
    svs = length (filter (fun i => if Rlt_dec 0 (nz (sm_alpha s) i) then true else false) [0; 1]%nat).
Proof. destruct smo_two_ok as (A & B & _). apply (c45_train 1 (/ 1000) (/ 1000) 7 smo_two _ smo_two_k 100 heap_empty); auto; try lra. apply heap_empty_ok. Qed.
(** The first step really moves both variables. *)
Lemma two_step l0 l1 : ld_sv l0 = None -> ld_sv l1 = None ->
  exists s, take_step 1 (/ 1000) smo_two [[1; -3]; [-3; 9]] (with_ld (smo_start smo_two heap_empty) [l0; l1]) 0 1 = Ok (s, true) /\ sm_alpha s = [/ 8; / 8] /\ sm_bias s = / 2.
Proof.
  intros V0 V1. destruct smo_two_ok as (HB & HK & _). destruct (kernel_matrix_get _ _ _ HK) as [KG KS].
  unfold take_step. set (s0 := smo_start smo_two heap_empty).
  assert (exists ld, vupd 1 (set_done true) (sm_ld (with_ld s0 [l0; l1])) = Ok ld /\ ld = [l0; set_done true l1]) as (ld & -> & ->) by (eexists; split; reflexivity). cbn [obind].
  set (s1 := with_ld (with_ld s0 _) _).
  assert (forall i, nodes smo_two s1 = Ok [] -> (i < 2)%nat -> smo_error 1 smo_two [[1; -3]; [-3; 9]] s1 i = Ok (- label_at smo_two i)) as EE.
  { intros i EN Hi. unfold smo_error, smo_function. rewrite EN. destruct i as [|[|i]]; try lia; cbn [vget nth_error sm_alpha s1 with_ld s0 smo_start repeat size smo_two d_points length obind sm_ld label sm_bias ofold]; (destruct (Rlt_dec 0 0); [lra|]); cbn [obind]; f_equal; unfold label_at, pt; cbn; ring. }
  assert (nodes smo_two s1 = Ok []) as EN by reflexivity.
  change (vget (d_points smo_two) 0) with (Ok (mkPoint [1] 1%Z 1%Z 0)). change (vget (d_points smo_two) 1) with (Ok (mkPoint [-3] (-1)%Z 2%Z 0)).
  change (vget (sm_alpha s1) 0) with (Ok 0). change (vget (sm_alpha s1) 1) with (Ok 0). cbn [obind]. rewrite !EE by (auto; lia). cbn [obind p_y].
  change (1 * -1)%Z with (-1)%Z. assert (smo_bounds 1 (-1) 0 0 = (0, 1)) as -> by (unfold smo_bounds; cbn [Z.eqb Pos.eqb]; f_equal; [rewrite Rminus_0_r; apply Rmax_left; lra|unfold Rmin; destruct (Rle_dec _ _); lra]).
  destruct (Req_EM_T 0 1); [lra|]. change (mget [[1; -3]; [-3; 9]] 0 1) with (Ok (-3)). change (mget [[1; -3]; [-3; 9]] 0 0) with (Ok 1). change (mget [[1; -3]; [-3; 9]] 1 1) with (Ok 9). cbn [obind].
  assert (smo_alpha2 (/ 1000) (2 * -3 - 1 - 9) (IZR (-1)) (- label_at smo_two 0) (- label_at smo_two 1) 0 0 1 = / 8) as ->.
  { unfold smo_alpha2, label_at, pt. cbn [nth smo_two d_points p_y]. destruct (Rlt_dec _ 0); [|lra]. replace (0 + -1 * (- -1 - - (1)) / (2 * -3 - 1 - 9)) with (/ 8) by field.
    destruct (Rlt_dec _ _); [lra|]. destruct (Rlt_dec _ _); [lra|auto]. }
  destruct (Rlt_dec _ _) as [Q|_]; [rewrite Rabs_pos_eq in Q; lra|].
  assert (smo_alpha1 1 (-1) 0 0 (/ 8) = (/ 8, / 8)) as ->.
  { unfold smo_alpha1. replace (0 - -1 * (/ 8 - 0)) with (/ 8) by field. destruct (Rlt_dec _ 0); [lra|]. destruct (Rlt_dec _ _); [lra|auto]. }
  unfold sv_update. destruct (Rlt_dec 0 (/ 8)) as [P|]; [|lra]. destruct l0 as [e0 d0 v0], l1 as [e1 d1 v1]. cbn [ld_sv] in V0, V1. subst v0 v1.
  eexists. split; [cbv -[smo_bias Rinv IZR label_at]; reflexivity|]. cbn [sm_alpha sm_bias]. split; [reflexivity|].
  unfold label_at, pt, smo_bias. cbn [nth smo_two d_points p_y]. destruct (Rlt_dec 0 (/ 8)); [|lra]. destruct (Rlt_dec (/ 8) 1); [|lra]. field.
Qed.
Lemma c73_ex : exists s, take_steps 1 (/ 1000) smo_two [[1; -3]; [-3; 9]] [(0, 1)]%nat (smo_start smo_two heap_empty) = Ok s /\ nz (sm_alpha s) 0 = / 8 /\ nz (sm_alpha s) 1 = / 8 /\
  exists e, nth_error (sm_ld s) 0 = Some e /\ ld_err e = value_at smo_two smo_two_k (nz (sm_alpha s)) (sm_bias s) 0 - label_at smo_two 0.
Proof.
  destruct smo_two_ok as (HB & HK & _ & _ & PO). assert (pairs_ok smo_two [(0, 1)]%nat) as PO' by (intros i j I; apply PO; destruct I as [E|[]]; left; auto).
  destruct (c73_cache 1 (/ 1000) smo_two _ smo_two_k heap_empty [(0, 1)]%nat ltac:(lra) ltac:(lra) HB HK heap_empty_ok PO') as (s & E & H). exists s. split; auto.
  destruct (two_step ld_fresh ld_fresh eq_refl eq_refl) as (s' & E' & A & B). unfold take_steps in E. cbn [ofold fst snd] in E. change (with_ld (smo_start smo_two heap_empty) [ld_fresh; ld_fresh]) with (smo_start smo_two heap_empty) in E'. rewrite E' in E.
  cbn [obind fst] in E. injection E as <-. rewrite A in *. split; [reflexivity|]. split; [reflexivity|]. apply H; [cbn; lia| |]; unfold nz; cbn [nth]; lra.
Qed.
Lemma c74_ex : exists s s' b, take_steps 1 (/ 1000) smo_two [[1; -3]; [-3; 9]] [] (smo_start smo_two heap_empty) = Ok s /\ take_step 1 (/ 1000) smo_two [[1; -3]; [-3; 9]] s 0 1 = Ok (s', b) /\
  0 = dual_objective smo_two smo_two_k (nz (sm_alpha s)) /\ dual_objective smo_two smo_two_k (nz (sm_alpha s')) = / 8.
Proof.
  destruct (two_step ld_fresh ld_fresh eq_refl eq_refl) as (s' & E' & A & B). exists (smo_start smo_two heap_empty), s', true. split; [reflexivity|]. split; [exact E'|]. rewrite A.
  unfold dual_objective, label_at, pt, smo_two_k, nz. change (size smo_two) with 2%nat. cbn [sumn nth Nat.eqb smo_two d_points p_y smo_start sm_alpha repeat size length]. split; field.
Qed.
Lemma smo_train_eq C TOL EPS rnd d K me h : smo_train C TOL EPS rnd d K me h =
  (let* r := smo_loop C TOL EPS rnd d K me (S (S me)) 0 0 true (smo_start d h) in
  match r with
  | None => Ok None
  | Some (s, b) =>
      let* f := dll_free (S (S (size d))) (sm_heap s) (Some (sm_head s)) in
      match f with
      | None => UB
      | Some h' => Ok (Some (with_heap s h', length (filter (fun a => if Rlt_dec 0 a then true else false) (sm_alpha s)),
                             b && negb (existsb (fun a => if Rlt_dec C a then true else false) (sm_alpha s))))
      end
  end).
Proof. reflexivity. Qed.
Lemma first_round C TOL EPS rnd d K me f s : smo_loop C TOL EPS rnd d K (S me) (S f) 0 0 true s =
  let* t := smo_epoch C TOL EPS rnd d K true s in smo_loop C TOL EPS rnd d K (S me) f 1 (snd t) false (fst t).
Proof. reflexivity. Qed.
Lemma two_examine s1 : take_step 1 (/ 1000) smo_two [[1; -3]; [-3; 9]] (with_ld (smo_start smo_two heap_empty) [set_done true ld_fresh; ld_fresh]) 0 1 = Ok (s1, true) ->
  examine_example 1 (/ 1000) (/ 1000) 0 smo_two [[1; -3]; [-3; 9]] (smo_start smo_two heap_empty) 0 = Ok (s1, true).
Proof.
  intro E1.  unfold examine_example. assert (vupd 0 (set_done true) (map (set_done false) (sm_ld (smo_start smo_two heap_empty))) = Ok [set_done true ld_fresh; ld_fresh]) as -> by reflexivity. cbn [obind].
    change (label smo_two 0) with (Ok (IZR 1)). cbn [obind]. change (vget (sm_alpha (with_ld (smo_start smo_two heap_empty) [set_done true ld_fresh; ld_fresh])) 0) with (Ok 0). cbn [obind].
    assert (nodes smo_two (with_ld (smo_start smo_two heap_empty) [set_done true ld_fresh; ld_fresh]) = Ok []) as EN by reflexivity.
    assert (smo_error 1 smo_two [[1; -3]; [-3; 9]] (with_ld (smo_start smo_two heap_empty) [set_done true ld_fresh; ld_fresh]) 0 = Ok (-1)) as ->.
    { unfold smo_error, smo_function. rewrite EN. cbn [vget nth_error sm_alpha with_ld smo_start repeat size smo_two d_points length obind sm_ld label sm_bias ofold]. destruct (Rlt_dec 0 0); [lra|]. cbn [obind p_y]. f_equal. ring. }
    cbn [obind]. destruct (Rlt_dec (1 * -1) (- / 1000)); [|lra]. destruct (Rlt_dec 0 1); [|lra]. cbn [orb]. unfold max_errors. rewrite EN. cbn [obind ofold snd fst]. unfold iterate_non_bound. rewrite EN. cbn [obind try_all snd fst].
    unfold iterate_all_set. change (size smo_two) with 2%nat. cbn [Nat.eqb]. change (map (fun k => (k mod 2)%nat) (seq (0 mod 2) 2)) with [0; 1]%nat. cbn [try_all].
    change (vget (sm_ld (with_ld (smo_start smo_two heap_empty) [set_done true ld_fresh; ld_fresh])) 0) with (Ok (set_done true ld_fresh)). change (vget (sm_ld (with_ld (smo_start smo_two heap_empty) [set_done true ld_fresh; ld_fresh])) 1) with (Ok ld_fresh).
    change (vget (sm_alpha (with_ld (smo_start smo_two heap_empty) [set_done true ld_fresh; ld_fresh])) 0) with (Ok 0). change (vget (sm_alpha (with_ld (smo_start smo_two heap_empty) [set_done true ld_fresh; ld_fresh])) 1) with (Ok 0).
    cbn [obind set_done ld_done ld_fresh negb andb orb]. change (mkLd 0 false None) with ld_fresh. change {| ld_err := ld_err ld_fresh; ld_done := true; ld_sv := ld_sv ld_fresh |} with (set_done true ld_fresh). rewrite E1. cbn [obind snd]. reflexivity.
Qed.
(** Training on these two examples answers true. *)
Lemma two_train me : exists s svs, smo_train 1 (/ 1000) (/ 1000) 0 smo_two [[1; -3]; [-3; 9]] (S (S me)) heap_empty = Ok (Some (s, svs, true)) /\ dist_pos (size smo_two) smo_two_k /\
  nz (sm_alpha s) 0 = / 8 /\ optimal_at 1 (/ 1000) smo_two smo_two_k (nz (sm_alpha s)) (sm_bias s) 0.
Proof.
  destruct smo_two_ok as (HB & HK & _ & DP & PO). destruct (kernel_matrix_get _ _ _ HK) as [KG KS].
  destruct (train_ok 1 (/ 1000) (/ 1000) 0 smo_two [[1; -3]; [-3; 9]] smo_two_k (S (S me)) heap_empty ltac:(lra) ltac:(lra) HB HK heap_empty_ok) as (s & n & b & E & L & FE & _).
  pose proof (start_inv 1 smo_two smo_two_k heap_empty ltac:(lra) heap_empty_ok) as I0.
  destruct (two_step (set_done true ld_fresh) ld_fresh eq_refl eq_refl) as (s1 & E1 & A1 & B1).
  pose proof (two_examine s1 E1) as EX.
  destruct (examine_ok 1 (/ 1000) (/ 1000) 0 smo_two _ smo_two_k heap_empty ltac:(lra) ltac:(lra) KG KS heap_empty_ok HB _ 0 I0 ltac:(cbn; lia)) as (s1' & b1 & EX' & I1 & _). rewrite EX in EX'. injection EX' as <- <-.
  assert (forall i, (i < size smo_two)%nat -> kkt 1 (/ 1000) smo_two smo_two_k (sm_alpha s1) (sm_bias s1) i) as KK.
  { intros i Hi. rewrite A1, B1. unfold kkt, F, Y, pt, smo_two_k, nz. change (size smo_two) with 2%nat in *. cbv zeta. destruct i as [|[|i]]; try lia; cbn [sumn nth Nat.eqb smo_two d_points p_y]; split; intros [Q _]; lra. }
  assert (exists s2 n2, smo_epoch 1 (/ 1000) (/ 1000) 0 smo_two [[1; -3]; [-3; 9]] true (smo_start smo_two heap_empty) = Ok (s2, n2) /\ inv 1 smo_two smo_two_k heap_empty s2 /\ sm_alpha s2 = sm_alpha s1 /\ sm_bias s2 = sm_bias s1 /\ n2 = 1%nat) as (s2 & n2 & EP & I2 & A2 & B2 & ->).
  { unfold smo_epoch. change (seq 0 (size smo_two)) with [0; 1]%nat. cbn [ofold fst snd]. change (vget (sm_alpha (smo_start smo_two heap_empty)) 0) with (Ok 0). cbn [obind orb]. rewrite EX. cbn [obind fst snd]. rewrite A1. cbn [vget nth_error obind].
    destruct (examine_ok 1 (/ 1000) (/ 1000) 0 smo_two _ smo_two_k heap_empty ltac:(lra) ltac:(lra) KG KS heap_empty_ok HB _ 1 I1 ltac:(cbn; lia)) as (s2 & b2 & -> & I2 & _ & _ & Fl & _ & Fk). cbn [obind fst snd]. specialize (Fk (KK 1%nat ltac:(cbn; lia))). subst b2. destruct (Fl eq_refl) as (A2 & B2 & _).
    exists s2, 1%nat. rewrite <- A1. auto. }
  pose proof E as E'. rewrite smo_train_eq in E'.
  destruct (loop_ok 1 (/ 1000) (/ 1000) 0 smo_two _ smo_two_k heap_empty ltac:(lra) ltac:(lra) KG KS heap_empty_ok HB (S (S me)) (S (S (S me))) 1 1 false s2 I2 ltac:(lia)) as (s3 & b3 & E3 & I3 & _ & _ & _ & Z3); [discriminate|].
  destruct Z3 as (A3 & B3 & T3); [right; rewrite A2, B2; auto|]. rewrite T3 in E3 by lia.
  rewrite first_round in E'.
  rewrite EP in E'. cbn [obind fst snd] in E'. rewrite E3 in E'. cbn [obind] in E'. destruct (dll_free _ _ _) as [[h'|]| |]; cbn [obind] in E'; try discriminate. injection E' as Es En Eb.
  exists s, n. assert (sm_alpha s = [/ 8; / 8]) as Al by (rewrite <- Es; cbn [with_heap sm_alpha]; congruence).
  assert (sm_bias s = / 2) as Bi by (rewrite <- Es; cbn [with_heap sm_bias]; congruence).
  assert (b = true) as ->.
  { rewrite <- Eb. cbn [andb]. apply negb_true_iff. rewrite A3, A2, A1. cbn [existsb]. destruct (Rlt_dec 1 (/ 8)); [lra|auto]. }
  split; auto. split; auto. split; [rewrite Al; reflexivity|]. apply kkt_optimal; auto; [cbn; lia|]. rewrite Al, Bi, <- A1, <- B1. apply KK. cbn. lia.
Qed.
Lemma c75_true_ex : exists s svs, smo_train 1 (/ 1000) (/ 1000) 0 smo_two [[1; -3]; [-3; 9]] 100 heap_empty = Ok (Some (s, svs, true)) /\ dist_pos (size smo_two) smo_two_k /\
  nz (sm_alpha s) 0 = / 8 /\ optimal_at 1 (/ 1000) smo_two smo_two_k (nz (sm_alpha s)) (sm_bias s) 0.
Proof. exact (two_train 98). Qed.
