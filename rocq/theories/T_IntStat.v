(** Proofs about the statistics of int points. *)
From Coq Require Import ZArith Bool Reals Lia Lra List Psatz.
From Verif Require Import Base Loop M_Data M_IntStat S_IntStat.
Import ListNotations.
Local Open Scope Z_scope.

Fixpoint zs (l : list Z) : Z := match l with [] => 0 | v :: r => v + zs r end.
Lemma icheck_ok z : - 2 ^ 31 <= z <= 2 ^ 31 - 1 -> icheck z = Ok z.
Proof. intro H. unfold icheck. destruct (Z.leb_spec (- 2 ^ 31) z), (Z.leb_spec z (2 ^ 31 - 1)); try lia. reflexivity. Qed.
Lemma zs_bound B l : (forall v, In v l -> Z.abs v <= B) -> 0 <= B -> Z.abs (zs l) <= Z.of_nat (length l) * B.
Proof. intros H P. induction l as [|v l IH]; [cbn; lia|]. cbn [zs length]. specialize (IH (fun w I => H w (or_intror I))). specialize (H v (or_introl eq_refl)). nia. Qed.
Lemma isum_from B l s : (forall v, In v l -> Z.abs v <= B) -> 0 <= B -> Z.abs s + Z.of_nat (length l) * B <= 2 ^ 31 - 1 -> ofold (fun s v => icheck (s + v)) l s = Ok (s + zs l).
Proof.
  intros H P. revert s H. induction l as [|v l IH]; intros s H L; cbn [ofold zs length] in *; [f_equal; ring|]. pose proof (H v (or_introl eq_refl)) as Hv. rewrite icheck_ok by nia. cbn [obind]. rewrite IH; [f_equal; ring|intros w I; apply H; now right|nia].
Qed.
Lemma isum_ok B l : (forall v, In v l -> Z.abs v <= B) -> 0 <= B -> Z.of_nat (length l) * B <= 2 ^ 31 - 1 -> isum l = Ok (zs l).
Proof. intros H P L. unfold isum. rewrite (isum_from B) by (auto; cbn [Z.abs]; lia). reflexivity. Qed.
Lemma map_icheck {A} (f : A -> Z) l : (forall x, In x l -> - 2 ^ 31 <= f x <= 2 ^ 31 - 1) -> map_outcome (fun x => icheck (f x)) l = Ok (map f l).
Proof. induction l as [|x l IH]; intro H; [reflexivity|]. cbn [map_outcome map]. rewrite icheck_ok by (apply H; now left). cbn [obind]. rewrite IH by (intros; apply H; now right). reflexivity. Qed.
Lemma total_zs x : total (map IZR x) = IZR (zs x).
Proof. induction x as [|v x IH]; cbn [map total zs]; [reflexivity|]. rewrite plus_IZR, IH. reflexivity. Qed.
Lemma len_pos (x : list Z) : x <> [] -> 0 < Z.of_nat (length x).
Proof. destruct x; [congruence|cbn [length]; lia]. Qed.
Lemma small_sum B x : small B x -> isum x = Ok (zs x) /\ Z.abs (zs x) <= Z.of_nat (length x) * B /\ Z.of_nat (length x) * B <= 2 ^ 31 - 1 /\ B <= 2 ^ 31 - 1 \/ x = [].
Proof.
  intros (H & P & L). destruct x as [|v x]; [now right|]. left. set (n := Z.of_nat (length (v :: x))) in *. assert (1 <= n) by (unfold n; cbn [length]; lia). assert (n * B <= 4 * n * (B * B)) by (destruct (Z.eq_dec B 0) as [->|]; [lia|]; nia). assert (B <= n * B) by nia.
  split; [apply (isum_ok B); [assumption|assumption|fold n; lia]|]. split; [apply zs_bound; assumption|]. lia.
Qed.
Lemma imean_eq x s : x <> [] -> isum x = Ok s -> imean x = Ok ((s mod 2 ^ 64) / Z.of_nat (length x)).
Proof. intros N E. destruct x as [|v x]; [congruence|]. unfold imean. rewrite E. reflexivity. Qed.
Lemma mean_pos B x : small B x -> x <> [] -> 0 <= zs x -> imean x = Ok (zs x / Z.of_nat (length x)) /\ 0 <= zs x / Z.of_nat (length x) <= B /\ B <= 2 ^ 31 - 1.
Proof.
  intros S N P. destruct (small_sum B x S) as [(E & A & L & LB)|]; [|contradiction]. pose proof (len_pos x N) as Ln. rewrite (imean_eq x (zs x) N E). rewrite Z.mod_small by lia. split; [reflexivity|]. split; [|exact LB]. split; [apply Z.div_pos; lia|]. apply Z.div_le_upper_bound; lia.
Qed.
Lemma mean_frac x : x <> [] -> exists f, (0 <= f < 1)%R /\ true_mean x = (IZR (zs x / Z.of_nat (length x)) + f)%R.
Proof.
  intro N. pose proof (len_pos x N) as Ln. pose proof (Z.div_mod (zs x) (Z.of_nat (length x)) ltac:(lia)) as D. pose proof (Z.mod_pos_bound (zs x) (Z.of_nat (length x)) Ln) as M. unfold true_mean. rewrite total_zs, INR_IZR_INZ.
  set (n := Z.of_nat (length x)) in *. set (q := zs x / n) in *. set (r := zs x mod n) in *. apply IZR_lt in Ln as LR. exists (IZR r / IZR n)%R. split.
  - split; [apply Rle_mult_inv_pos; [apply IZR_le; lia|exact LR]|]. apply (Rmult_lt_reg_r (IZR n)); [exact LR|]. unfold Rdiv. rewrite Rmult_assoc, Rinv_l by lra. rewrite Rmult_1_r, Rmult_1_l. apply IZR_lt. lia.
  - rewrite D, plus_IZR, mult_IZR. field. lra.
Qed.
(** C150: the mean of an int point whose sum is not negative is the mean rounded down. *)
Lemma c150_mean : forall (B : Z) (x : list Z), small B x -> x <> [] -> (0 <= true_mean x)%R -> exists m, imean x = Ok m /\ (IZR m <= true_mean x < IZR m + 1)%R.
Proof.
  intros B x S N P. assert (0 <= zs x) as Q. { apply le_IZR. rewrite <- total_zs. unfold true_mean in P. pose proof (len_pos x N) as Ln. apply IZR_lt in Ln. rewrite <- INR_IZR_INZ in Ln. apply Rnot_lt_le. intro X. assert (total (map IZR x) / INR (length x) * INR (length x) = total (map IZR x))%R as Y by (field; lra). nra. }
  destruct (mean_pos B x S N Q) as (E & _). eexists. split; [exact E|]. destruct (mean_frac x N) as (f & F & ->). lra.
Qed.
Lemma c150_mean_ex : small 2 [2; 1; 0; 2] /\ imean [2; 1; 0; 2] = Ok 1.
Proof. split; [|reflexivity]. split; [|cbn; lia]. intros v H. cbn in H. lia. Qed.
(** C150: if the sum is negative the mean reported is above every int, and variance, deviation and covariance are undefined. *)
Lemma c150_mean_refuted : forall (B : Z) (x : list Z), small B x -> Z.of_nat (length x) < 2 ^ 32 -> (true_mean x < 0)%R ->
  exists m, imean x = Ok m /\ 2 ^ 31 < m /\ ivar x = UB /\ istd x = UB /\ forall y, length y = length x -> icovar x y = UB.
Proof.
  intros B x S L P. assert (x <> []) as N. { intros ->. unfold true_mean in P. cbn [map total length INR] in P. unfold Rdiv in P. rewrite Rmult_0_l in P. lra. }
  assert (zs x < 0) as Q. { apply lt_IZR. rewrite <- total_zs. unfold true_mean in P. pose proof (len_pos x N) as Ln. apply IZR_lt in Ln. rewrite <- INR_IZR_INZ in Ln. apply Rnot_le_lt. intro X. assert (0 <= total (map IZR x) / INR (length x))%R by (apply Rle_mult_inv_pos; assumption). lra. }
  destruct (small_sum B x S) as [(E & A & L1 & _)|]; [|contradiction]. pose proof (len_pos x N) as Ln. pose proof (imean_eq x (zs x) N E) as M. assert (zs x mod 2 ^ 64 = zs x + 2 ^ 64) as Em. { symmetry. apply (Zmod_unique _ _ (-1)); lia. }
  set (m := (zs x mod 2 ^ 64) / Z.of_nat (length x)) in *. assert (2 ^ 31 < m) as Lm. { unfold m. rewrite Em. apply Z.lt_le_trans with (2 ^ 31 + 1); [lia|]. apply Z.div_le_lower_bound; [lia|]. nia. }
  assert (idev x = UB) as D. { unfold idev. rewrite M. cbn [obind]. unfold icheck. destruct (Z.leb_spec m (2 ^ 31 - 1)); [lia|]. rewrite andb_false_r. reflexivity. }
  exists m. split; [exact M|]. split; [exact Lm|]. assert (ivar x = UB) as V by (unfold ivar; rewrite D; reflexivity). split; [exact V|]. split; [unfold istd; rewrite V; reflexivity|]. intros y Ey. unfold icovar. rewrite Ey, Nat.eqb_refl, D. reflexivity.
Qed.
Lemma c150_mean_refuted_ex : small 3 [1; -3] /\ (true_mean [1; -3]%Z < 0)%R /\ imean [1; -3] = Ok (2 ^ 63 - 1).
Proof. split; [split; [intros v H; cbn in H; lia|cbn; lia]|]. split; [|reflexivity]. unfold true_mean. cbn [map total length]. rewrite INR_IZR_INZ. cbn [Z.of_nat Pos.of_succ_nat Pos.succ]. lra. Qed.

(** C150: no numbers, and points of different dimensions, stop. *)
Lemma c150_stop : imean [] = Abort /\ ivar [] = Abort /\ istd [] = Abort /\ icovar [] [] = Abort /\ forall x y, length x <> length y -> icovar x y = Abort.
Proof. repeat (split; [reflexivity|]). intros x y N. unfold icovar. destruct (Nat.eqb_spec (length x) (length y)); [contradiction|reflexivity]. Qed.
Lemma idev_ok B x : small B x -> x <> [] -> 0 <= zs x -> idev x = Ok (map (fun v => v - zs x / Z.of_nat (length x)) x) /\ forall v, In v x -> Z.abs (v - zs x / Z.of_nat (length x)) <= 2 * B.
Proof.
  intros S N P. destruct (mean_pos B x S N P) as (E & M & LB). unfold idev. rewrite E. cbn [obind]. rewrite icheck_ok by lia. cbn [obind]. destruct S as (H & PB & L). pose proof (len_pos x N) as Ln.
  assert (forall v, In v x -> Z.abs (v - zs x / Z.of_nat (length x)) <= 2 * B) as K by (intros v I; specialize (H v I); lia). split; [|exact K].
  apply map_icheck. intros v I. specialize (K v I). assert (2 * B <= 4 * Z.of_nat (length x) * (B * B)); [|lia]. destruct (Z.eq_dec B 0) as [->|]; [lia|]. nia.
Qed.
(** Sums over pairs. *)
Lemma pairs_expand (l : list (Z * Z)) (a b : R) : total (map (fun p => (IZR (fst p) - a) * (IZR (snd p) - b))%R l) = (total (map (fun p => IZR (fst p) * IZR (snd p)) l) - b * total (map (fun p => IZR (fst p)) l) - a * total (map (fun p => IZR (snd p)) l) + INR (length l) * (a * b))%R.
Proof. induction l as [|p l IH]; [cbn; ring|]. cbn [map total length]. rewrite IH, S_INR. ring. Qed.
Lemma pairs_shift (l : list (Z * Z)) (a b : R) (c d : R) : (0 < length l)%nat -> a = (total (map (fun p => IZR (fst p)) l) / INR (length l))%R -> b = (total (map (fun p => IZR (snd p)) l) / INR (length l))%R ->
  total (map (fun p => (IZR (fst p) - c) * (IZR (snd p) - d))%R l) = (total (map (fun p => (IZR (fst p) - a) * (IZR (snd p) - b))%R l) + INR (length l) * ((a - c) * (b - d)))%R.
Proof.
  intros N Ea Eb. apply lt_0_INR in N. rewrite !pairs_expand. assert (total (map (fun p => IZR (fst p)) l) = a * INR (length l))%R as -> by (rewrite Ea; field; lra). assert (total (map (fun p => IZR (snd p)) l) = b * INR (length l))%R as -> by (rewrite Eb; field; lra). ring.
Qed.
Lemma zs_pairs (l : list (Z * Z)) c d : IZR (zs (map (fun p => (fst p - c) * (snd p - d)) l)) = total (map (fun p => (IZR (fst p) - IZR c) * (IZR (snd p) - IZR d))%R l).
Proof. induction l as [|p l IH]; [reflexivity|]. cbn [map zs total]. rewrite plus_IZR, IH, mult_IZR, !minus_IZR. reflexivity. Qed.
Lemma fst_combine {A B} (x : list A) (y : list B) : length x = length y -> map fst (combine x y) = x /\ map snd (combine x y) = y.
Proof. revert y. induction x as [|a x IH]; intros [|b y] L; try discriminate; [split; reflexivity|]. cbn [combine map fst snd]. destruct (IH y ltac:(cbn in L; lia)) as [-> ->]. split; reflexivity. Qed.
Lemma mean_nonneg x : x <> [] -> (0 <= true_mean x)%R -> 0 <= zs x.
Proof.
  intros N P. apply le_IZR. rewrite <- total_zs. unfold true_mean in P. pose proof (len_pos x N) as Ln. apply IZR_lt in Ln. rewrite <- INR_IZR_INZ in Ln. apply Rnot_lt_le. intro X. assert (total (map IZR x) / INR (length x) * INR (length x) = total (map IZR x))%R as Y by (field; lra). nra.
Qed.
(** The sum of the products of the deviations, in ints. *)
Lemma products B x y : small B x -> small B y -> x <> [] -> length x = length y -> (0 <= true_mean x)%R -> (0 <= true_mean y)%R ->
  exists d e q s f g, idev x = Ok d /\ idev y = Ok e /\ map_outcome (fun p => icheck (fst p * snd p)) (combine d e) = Ok q /\ isum q = Ok s /\ Z.abs s <= 2 ^ 31 - 1 /\ (0 <= f < 1)%R /\ (0 <= g < 1)%R /\ (x = y -> f = g) /\
    IZR s = (total (map (fun p => (IZR (fst p) - true_mean x) * (IZR (snd p) - true_mean y))%R (combine x y)) + INR (length x) * (f * g))%R.
Proof.
  intros Sx Sy N L Px Py. assert (y <> []) as Ny by (intros ->; destruct x; [congruence|discriminate]). pose proof (mean_nonneg x N Px) as Zx. pose proof (mean_nonneg y Ny Py) as Zy.
  destruct (idev_ok B x Sx N Zx) as [Dx Bx], (idev_ok B y Sy Ny Zy) as [Dy By]. destruct (mean_frac x N) as (f & F & Ef), (mean_frac y Ny) as (g & G & Eg). set (c := zs x / Z.of_nat (length x)) in *. set (d := zs y / Z.of_nat (length y)) in *.
  assert (combine (map (fun v => v - c) x) (map (fun v => v - d) y) = map (fun p => (fst p - c, snd p - d)) (combine x y)) as EC. { clearbody c d. clear. revert y. induction x as [|a x IH]; intros [|b y]; try reflexivity. cbn [map combine fst snd]. rewrite IH. reflexivity. }
  destruct Sx as (Hx & PB & LB). pose proof (len_pos x N) as Ln. assert (forall p, In p (combine x y) -> Z.abs ((fst p - c) * (snd p - d)) <= 4 * (B * B)) as K.
  { intros [a b] I. cbn [fst snd]. specialize (Bx a (in_combine_l _ _ _ _ I)). specialize (By b (in_combine_r _ _ _ _ I)). rewrite Z.abs_mul. nia. }
  assert (4 * (B * B) <= 2 ^ 31 - 1) as K2 by nia. exists (map (fun v => v - c) x), (map (fun v => v - d) y), (map (fun p => (fst p - c) * (snd p - d)) (combine x y)), (zs (map (fun p => (fst p - c) * (snd p - d)) (combine x y))), f, g.
  assert (length (combine x y) = length x) as Lc by (rewrite combine_length; lia).
  assert (forall v, In v (map (fun p => (fst p - c) * (snd p - d)) (combine x y)) -> Z.abs v <= 4 * (B * B)) as K3 by (intros v I; apply in_map_iff in I as (p & <- & I); apply K, I).
  split; [exact Dx|]. split; [exact Dy|]. split; [|split; [|split; [|split; [exact F|split; [exact G|split]]]]].
  - rewrite EC, (map_icheck (fun p => fst p * snd p)); [rewrite map_map; reflexivity|]. intros p I. apply in_map_iff in I as (p' & <- & I). cbn [fst snd]. specialize (K p' I). lia.
  - apply (isum_ok (4 * (B * B))); [exact K3|nia|]. rewrite map_length, Lc. nia.
  - eapply Z.le_trans; [apply (zs_bound (4 * (B * B))); [exact K3|nia]|]. rewrite map_length, Lc. nia.
  - intros ->. unfold c, d in *. lra.
  - rewrite zs_pairs, (pairs_shift _ (true_mean x) (true_mean y)); rewrite ?Lc.
    + f_equal. f_equal. rewrite Ef, Eg. ring.
    + destruct x; [congruence|cbn; lia].
    + rewrite <- (map_map fst IZR), (proj1 (fst_combine x y L)). reflexivity.
    + rewrite <- (map_map snd IZR), (proj2 (fst_combine x y L)). unfold true_mean. rewrite L. reflexivity.
Qed.
Lemma combine_same (x : list Z) : combine x x = map (fun v => (v, v)) x.
Proof. induction x as [|a x IH]; [reflexivity|]. cbn [combine map]. rewrite IH. reflexivity. Qed.
Lemma map_outcome_same (d : list Z) : map_outcome (fun v => icheck (v * v)) d = map_outcome (fun p => icheck (fst p * snd p)) (combine d d).
Proof. induction d as [|a d IH]; [reflexivity|]. cbn [combine map_outcome fst snd]. rewrite IH. reflexivity. Qed.
(** C150: otherwise the variance is a whole number less than 1 off the variance, and the deviation its root. *)
Lemma c150_var : forall (B : Z) (x : list Z), small B x -> x <> [] -> (0 <= true_mean x)%R ->
  exists v, ivar x = Ok v /\ 0 <= v /\ (Rabs (IZR v - true_var x) < 1)%R /\ istd x = Ok (sqrt (IZR v)).
Proof.
  intros B x S N P. destruct (products B x x S S N eq_refl P P) as (d & e & q & s & f & g & D & E & Q & Ss & As & F & _ & FG & Es). specialize (FG eq_refl). subst g. rewrite D in E. injection E as <-. rewrite <- map_outcome_same in Q.
  rewrite combine_same, map_map in Es. cbn [fst snd] in Es. pose proof (len_pos x N) as Ln. apply IZR_lt in Ln as LR. rewrite <- INR_IZR_INZ in LR.
  assert (total (map (fun v => (IZR v - true_mean x) * (IZR v - true_mean x))%R x) = true_var x * INR (length x))%R as Tv by (unfold true_var; field; lra). rewrite Tv in Es.
  assert (0 <= true_var x * INR (length x))%R as V0. { rewrite <- Tv. clear. generalize (true_mean x) as a. intro a. induction x as [|v x IH]; cbn [map total]; [lra|]. pose proof (Rle_0_sqr (IZR v - a)) as R0. unfold Rsqr in R0. lra. }
  assert (0 <= s) as S0. { apply le_IZR. rewrite Es. apply Rplus_le_le_0_compat; [exact V0|]. apply Rmult_le_pos; [lra|]. nra. }
  assert (ivar x = Ok (s / Z.of_nat (length x))) as Ev. { unfold ivar. rewrite D. cbn [obind]. rewrite Q. cbn [obind]. rewrite Ss. cbn [obind]. rewrite Z.mod_small by lia. reflexivity. }
  exists (s / Z.of_nat (length x)). split; [exact Ev|]. split; [apply Z.div_pos; lia|]. split; [|unfold istd; rewrite Ev; reflexivity].
  pose proof (Z.div_mod s (Z.of_nat (length x)) ltac:(lia)) as DM. pose proof (Z.mod_pos_bound s (Z.of_nat (length x)) Ln) as MB. set (v := s / Z.of_nat (length x)) in *. set (r := s mod Z.of_nat (length x)) in *.
  assert (IZR s = INR (length x) * IZR v + IZR r)%R as Es2 by (rewrite DM, plus_IZR, mult_IZR, <- INR_IZR_INZ; reflexivity). assert (0 <= IZR r)%R as R0 by (apply IZR_le; lia). assert (IZR r < INR (length x))%R as R1 by (rewrite INR_IZR_INZ; apply IZR_lt; lia).
  set (n := INR (length x)) in *. set (V := true_var x) in *. assert (n * IZR v + IZR r = V * n + n * (f * f))%R as K by lra. assert (f * f < 1)%R by nra. assert (0 <= f * f)%R by nra. apply Rabs_def1.
  - apply (Rmult_lt_reg_l n); [exact LR|]. nra.
  - apply (Rmult_lt_reg_l n); [exact LR|]. nra.
Qed.
Lemma c150_var_ex : small 7 [7; 1; 4] /\ ivar [7; 1; 4] = Ok 6 /\ ivar [7; 1; 5] = Ok 6.
Proof. split; [split; [intros v H; cbn in H; lia|cbn; lia]|]. split; reflexivity. Qed.
(** C150: the variance of a point of zeros and ones is always 0, so that it does not tell constant points. *)
Lemma c150_var_refuted : forall (x : list Z), x <> [] -> 4 * Z.of_nat (length x) <= 2 ^ 31 - 1 -> (forall v, In v x -> v = 0 \/ v = 1) -> ivar x = Ok 0 /\ istd x = Ok 0%R.
Proof.
  intros x N L H. assert (ivar x = Ok 0) as V; [|split; [exact V|unfold istd; rewrite V; cbn [obind]; rewrite sqrt_0; reflexivity]].
  assert (small 1 x) as S by (split; [intros v I; destruct (H v I); lia|lia]). assert (0 <= zs x <= Z.of_nat (length x) /\ (zs x = Z.of_nat (length x) -> forall v, In v x -> v = 1)) as (Z0 & Z1).
  { clear - H. induction x as [|v x IH]; [cbn; split; [lia|intros _ v []]|]. destruct (IH (fun w I => H w (or_intror I))) as (A & B). cbn [zs length]. destruct (H v (or_introl eq_refl)) as [Hv|Hv]; rewrite Hv; (split; [lia|]); intros E w [<-|I]; try lia; apply B; auto; lia. }
  pose proof (len_pos x N) as Ln. destruct (idev_ok 1 x S N ltac:(lia)) as [D _]. unfold ivar. rewrite D. cbn [obind]. destruct (Z.eq_dec (zs x) (Z.of_nat (length x))) as [E|E].
  - rewrite E, Z.div_same by lia. assert (map (fun v => v - 1) x = map (fun _ => 0) x) as -> by (apply map_ext_in; intros v I; rewrite (Z1 E v I); reflexivity). rewrite (map_icheck (fun v => v * v)) by (intros v I; apply in_map_iff in I as (? & <- & _); lia). cbn [obind]. rewrite map_map.
    rewrite (isum_ok 0) by (try lia; intros v I; apply in_map_iff in I as (? & <- & _); lia). cbn [obind]. assert (zs (map (fun _ => 0 * 0) x) = 0) as -> by (clear; induction x as [|a x IH]; [reflexivity|exact IH]). reflexivity.
  - rewrite Z.div_small by lia. rewrite (map_ext _ (fun v => v)) by (intro; lia). rewrite map_id. rewrite (map_icheck (fun v => v * v)) by (intros v I; destruct (H v I); subst; lia). cbn [obind]. assert (map (fun v => v * v) x = x) as ->.
    { rewrite <- (map_id x) at 2. apply map_ext_in. intros v I. destruct (H v I); subst; reflexivity. } rewrite (isum_ok 1) by (try lia; intros v I; destruct (H v I); subst; lia). cbn [obind]. rewrite Z.mod_small, Z.div_small by lia. reflexivity.
Qed.
Lemma c150_var_refuted_ex : forall v, In v [1; 0; 1] -> v = 0 \/ v = 1.
Proof. intros v H. cbn in H. lia. Qed.
(** C150: the covariance is too large, by less than n / (n - 1). *)
Lemma c150_covar : forall (B : Z) (x y : list Z), small B x -> small B y -> length x = length y -> (2 <= length x)%nat -> (0 <= true_mean x)%R -> (0 <= true_mean y)%R ->
  exists c, icovar x y = Ok (Some c) /\ (0 <= c - true_cov x y < INR (length x) / (INR (length x) - 1))%R.
Proof.
  intros B x y Sx Sy L N2 Px Py. assert (x <> []) as N by (intros ->; cbn in N2; lia). destruct (products B x y Sx Sy N L Px Py) as (d & e & q & s & f & g & D & E & Q & Ss & As & F & G & _ & Es).
  assert (2 <= INR (length x))%R as LR by (apply (le_INR 2) in N2; exact N2). exists (IZR s / (INR (length x) - 1))%R. split.
  - unfold icovar. rewrite L, Nat.eqb_refl, D. cbn [obind]. rewrite E. cbn [obind]. rewrite Q. cbn [obind]. rewrite Ss. cbn [obind]. destruct (Nat.eqb_spec (length y) 1); [lia|]. reflexivity.
  - assert (IZR s / (INR (length x) - 1) - true_cov x y = f * g * (INR (length x) / (INR (length x) - 1)))%R as ->. { rewrite Es. unfold true_cov. field. lra. }
    assert (0 < INR (length x) / (INR (length x) - 1))%R by (apply Rdiv_lt_0_compat; lra). assert (0 <= f * g)%R by nra. assert (f * g < 1)%R by nra. split; [apply Rmult_le_pos; lra|nra].
Qed.
Lemma c150_covar_ex : small 3 [0; 3; 1] /\ small 3 [2; 0; 3] /\ (2 <= length [0; 3; 1])%nat.
Proof. split; [split; [intros v H; cbn in H; lia|cbn; lia]|]. split; [split; [intros v H; cbn in H; lia|cbn; lia]|]. cbn. lia. Qed.
