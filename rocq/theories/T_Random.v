(** Property lemmas for the random numbers: C61. *)
From Coq Require Import ZArith List Lia.
From Verif Require Import Base M_Random S_Random.
Import ListNotations.
Local Open Scope Z_scope.

Lemma param_last {G} (seedg : Z -> G) next uniform cs : forall s s' vs, r_run seedg next uniform s cs = Ok (s', vs) -> rs_param s' = last_seed (rs_param s) cs.
Proof.
  induction cs as [|c cs IH]; intros s s' vs E; [injection E as <- _; reflexivity|]. cbn [r_run] in E. destruct c as [dev seed|lo hi]; cbn [r_call obind] in E.
  - unfold r_init in E. cbn [last_seed]. destruct (Z.eqb_spec seed (rs_param s)) as [->|N]; cbn [obind] in E.
    + destruct (r_run _ _ _ s cs) as [[s2 v2]| |] eqn:E2; try discriminate. injection E as <- _. now apply IH in E2.
    + destruct (r_run _ _ _ _ cs) as [[s2 v2]| |] eqn:E2; try discriminate. injection E as <- _. now apply IH in E2.
  - cbn [last_seed]. unfold r_int in E. destruct (hi <? lo); [discriminate|]. destruct (uniform lo hi (rs_gen s)) as [v g]. cbn [obind] in E. destruct (r_run _ _ _ _ cs) as [[s2 v2]| |] eqn:E2; try discriminate. injection E as <- _. now apply IH in E2.
Qed.
Lemma draws_ok {G} (seedg : Z -> G) next uniform rs : (forall lo hi, In (lo, hi) rs -> lo <= hi) -> in_bounds uniform -> forall s, exists t vs, r_run seedg next uniform s (ranges rs) = Ok (t, vs) /\ Forall2 (fun r v => fst r <= v <= snd r) rs vs /\ rs_seed t = rs_seed s.
Proof.
  intros H B. induction rs as [|[lo hi] rs IH]; intro s; [cbn; eauto|]. cbn [ranges map r_run r_call fst snd]. unfold r_int. pose proof (H lo hi ltac:(now left)) as L. destruct (Z.ltb_spec hi lo); [lia|]. pose proof (B lo hi (rs_gen s) L) as Q. destruct (uniform lo hi (rs_gen s)) as [v g]. cbn [obind fst] in *.
  destruct (IH ltac:(intros; apply H; now right) (mkRs (rs_param s) (rs_seed s) g)) as (t & vs & E & F & K). unfold ranges in E. rewrite E. cbn [obind]. exists t, (v :: vs). split; [reflexivity|]. split; [constructor; auto|exact K].
Qed.

(** C61, for a seed that is neither 0 nor the one already in force: whatever was done before in two runs, the values drawn after init(seed) are the same. *)
Lemma c61_reproducible : forall (G : Type) (seedg : Z -> G) next uniform dev1 dev2 cs1 cs2 s1 s2 vs1 vs2 d1 d2 seed rs,
  r_run seedg next uniform (r_start seedg dev1) cs1 = Ok (s1, vs1) -> r_run seedg next uniform (r_start seedg dev2) cs2 = Ok (s2, vs2) ->
  seed <> 0 -> last_seed 1 cs1 <> seed -> last_seed 1 cs2 <> seed -> (forall lo hi, In (lo, hi) rs -> lo <= hi) -> in_bounds uniform ->
  exists t1 t2 vs, r_run seedg next uniform s1 (RInit d1 seed :: ranges rs) = Ok (t1, seed :: vs) /\ r_run seedg next uniform s2 (RInit d2 seed :: ranges rs) = Ok (t2, seed :: vs) /\
    Forall2 (fun r v => fst r <= v <= snd r) rs vs /\ r_getSeed t1 = seed.
Proof.
  intros G seedg next uniform dev1 dev2 cs1 cs2 s1 s2 vs1 vs2 d1 d2 seed rs E1 E2 N0 N1 N2 H B. apply param_last in E1, E2. cbn [r_start rs_param] in E1, E2. cbn [r_run r_call]. unfold r_init. rewrite E1, E2.
  destruct (Z.eqb_spec seed (last_seed 1 cs1)); [congruence|]. destruct (Z.eqb_spec seed (last_seed 1 cs2)); [congruence|]. destruct (Z.eqb_spec seed 0); [contradiction|]. cbn [obind].
  destruct (draws_ok seedg next uniform rs H B (mkRs seed seed (seedg seed))) as (t & vs & E & F & K). rewrite E. cbn [obind]. exists t, t, vs. repeat split; auto.
Qed.
Lemma count_bounds : in_bounds count_uniform.
Proof. intros lo hi g H. unfold count_uniform. cbn [fst]. pose proof (Z.mod_pos_bound g (hi - lo + 1)). lia. Qed.
Lemma c61_reproducible_ex : exists s1 s2 vs1 vs2, r_run (fun s : Z => s) Z.succ count_uniform (r_start (fun s => s) 77) [RInt 0 9; RInit 5 3; RInt 0 9] = Ok (s1, vs1) /\ r_run (fun s : Z => s) Z.succ count_uniform (r_start (fun s => s) 8) [] = Ok (s2, vs2) /\
  4 <> 0 /\ last_seed 1 [RInt 0 9; RInit 5 3; RInt 0 9] <> 4 /\ last_seed 1 [] <> 4 /\ (forall lo hi, In (lo, hi) [(0, 9); (-5, 5)] -> lo <= hi) /\ in_bounds count_uniform.
Proof. do 4 eexists. split; [vm_compute; reflexivity|]. split; [reflexivity|]. repeat split; try (cbn; lia); try apply count_bounds; auto. intros lo hi [E|[E|[]]]; injection E as <- <-; lia. Qed.
Lemma draws_param {G} (seedg : Z -> G) next uniform rs : forall s s' t vs, rs_gen s' = rs_gen s -> r_run seedg next uniform s (ranges rs) = Ok (t, vs) -> exists t', r_run seedg next uniform s' (ranges rs) = Ok (t', vs).
Proof.
  induction rs as [|[lo hi] rs IH]; intros s s' t vs Q E; [injection E as <- <-; exists s'; reflexivity|]. cbn [ranges map r_run r_call fst snd] in *. unfold r_int in *. destruct (hi <? lo); [discriminate|]. rewrite Q. destruct (uniform lo hi (rs_gen s)) as [v g]. cbn [obind] in *.
  destruct (r_run _ _ _ _ _) as [[t1 v1]| |] eqn:E1 in E; try discriminate. injection E as <- <-. destruct (IH (mkRs (rs_param s) (rs_seed s) g) (mkRs (rs_param s') (rs_seed s') g) t1 v1 eq_refl E1) as (t' & E'). unfold ranges in E'. rewrite E'. cbn [obind]. eauto.
Qed.
(** C61, for init(0), not called twice running: the seed taken from the device is returned, reported by getSeed, and calling init with it in another run gives the same values. *)
Lemma c61_device : forall (G : Type) (seedg : Z -> G) next uniform dev1 dev2 cs1 cs2 s1 s2 vs1 vs2 d1 d2 rs,
  r_run seedg next uniform (r_start seedg dev1) cs1 = Ok (s1, vs1) -> r_run seedg next uniform (r_start seedg dev2) cs2 = Ok (s2, vs2) ->
  last_seed 1 cs1 <> 0 -> d1 <> 0 -> last_seed 1 cs2 <> d1 -> (forall lo hi, In (lo, hi) rs -> lo <= hi) -> in_bounds uniform ->
  exists t1 t2 vs, r_run seedg next uniform s1 (RInit d1 0 :: ranges rs) = Ok (t1, d1 :: vs) /\ r_getSeed t1 = d1 /\ r_run seedg next uniform s2 (RInit d2 d1 :: ranges rs) = Ok (t2, d1 :: vs).
Proof.
  intros G seedg next uniform dev1 dev2 cs1 cs2 s1 s2 vs1 vs2 d1 d2 rs E1 E2 N0 N1 N2 H B. apply param_last in E1, E2. cbn [r_start rs_param] in E1, E2. cbn [r_run r_call]. unfold r_init. rewrite E1, E2.
  destruct (Z.eqb_spec 0 (last_seed 1 cs1)); [congruence|]. destruct (Z.eqb_spec d1 (last_seed 1 cs2)); [congruence|]. destruct (Z.eqb_spec d1 0); [contradiction|]. rewrite Z.eqb_refl. cbn [obind].
  destruct (draws_ok seedg next uniform rs H B (mkRs 0 d1 (seedg d1))) as (t & vs & E & F & K). rewrite E. cbn [obind].
  destruct (draws_param seedg next uniform rs (mkRs 0 d1 (seedg d1)) (mkRs d1 d1 (seedg d1)) t vs eq_refl E) as (t' & E'). rewrite E'. cbn [obind]. exists t, t', vs. repeat split; auto.
Qed.
Lemma c61_device_ex : exists s1 s2 vs1 vs2, r_run (fun s : Z => s) Z.succ count_uniform (r_start (fun s => s) 77) [RInt 0 9; RInit 5 3; RInt 0 9] = Ok (s1, vs1) /\ r_run (fun s : Z => s) Z.succ count_uniform (r_start (fun s => s) 8) [] = Ok (s2, vs2) /\
  last_seed 1 [RInt 0 9; RInit 5 3; RInt 0 9] <> 0 /\ last_seed 1 [] <> 1234.
Proof. do 4 eexists. split; [vm_compute; reflexivity|]. split; [reflexivity|]. split; cbn; lia. Qed.
(** C61 fails for the seed already in force (1 at the start): init leaves the generator as it is. *)
Lemma c61_in_force_refuted : forall (G : Type) (seedg : Z -> G) next uniform dev cs s vs d seed, r_run seedg next uniform (r_start seedg dev) cs = Ok (s, vs) -> last_seed 1 cs = seed ->
  r_run seedg next uniform s [RInit d seed] = Ok (s, [r_getSeed s]).
Proof. intros G seedg next uniform dev cs s vs d seed E L. apply param_last in E. cbn [r_start rs_param] in E. cbn [r_run r_call]. unfold r_init. rewrite E, L, Z.eqb_refl. reflexivity. Qed.
Lemma c61_in_force_refuted_ex : exists s vs, r_run (fun s : Z => s) Z.succ count_uniform (r_start (fun s => s) 77) [RInit 0 7; RInt 0 9] = Ok (s, vs) /\ last_seed 1 [RInit 0 7; RInt 0 9] = 7.
Proof. do 2 eexists. split; vm_compute; reflexivity. Qed.
(** Two programs that begin with init(1) and draw the same ranges can see different values; and init(7) a second time does not restart the sequence. *)
Lemma c61_first_refuted : exists (uniform : Z -> Z -> Z -> Z * Z) dev1 dev2 s1 s2 v1 v2, in_bounds uniform /\ v1 <> v2 /\
  r_run (fun s : Z => s) Z.succ uniform (r_start (fun s => s) dev1) [RInit 0 1; RInt 0 9] = Ok (s1, [1; v1]) /\ r_run (fun s : Z => s) Z.succ uniform (r_start (fun s => s) dev2) [RInit 0 1; RInt 0 9] = Ok (s2, [1; v2]).
Proof. exists count_uniform, 5, 6. do 4 eexists. split; [apply count_bounds|]. split; [|split; vm_compute; reflexivity]. discriminate. Qed.
Lemma c61_again_refuted : exists (uniform : Z -> Z -> Z -> Z * Z) dev s v1 v2, in_bounds uniform /\ v1 <> v2 /\
  r_run (fun s : Z => s) Z.succ uniform (r_start (fun s => s) dev) [RInit 0 7; RInt 0 9; RInit 0 7; RInt 0 9] = Ok (s, [7; v1; 7; v2]).
Proof. exists count_uniform, 5. do 3 eexists. split; [apply count_bounds|]. split; [|vm_compute; reflexivity]. discriminate. Qed.
