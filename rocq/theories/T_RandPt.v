(** C133: randomly initialised points. *)
From Coq Require Import ZArith List Lia Reals Lra Bool.
From Verif Require Import Base M_Data M_Random M_RandPt.
Import ListNotations.
Local Open Scope R_scope.

Section L.
Context {G : Type} (seedg : Z -> G) (next : G -> G) (draw : R -> R -> G -> R * G).
Lemma floats_length lo hi : forall n s, length (fst (r_floats draw n lo hi s)) = n.
Proof using. induction n as [|n IH]; intro s; [reflexivity|]. cbn [r_floats]. destruct (r_float draw lo hi s) as [v s1]. specialize (IH s1). destruct (r_floats draw n lo hi s1) as [vs s2]. cbn in *. lia. Qed.
Lemma floats_app lo hi : forall n m s, r_floats draw (n + m) lo hi s =
  (fst (r_floats draw n lo hi s) ++ fst (r_floats draw m lo hi (snd (r_floats draw n lo hi s))), snd (r_floats draw m lo hi (snd (r_floats draw n lo hi s)))).
Proof using.
  induction n as [|n IH]; intros m s; cbn [Nat.add r_floats fst snd app]; [destruct (r_floats draw m lo hi s); reflexivity|].
  destruct (r_float draw lo hi s) as [v s1]. rewrite IH. destruct (r_floats draw n lo hi s1) as [vs s2]. reflexivity.
Qed.
Lemma floats_range lo hi : (forall g, lo <= fst (draw lo hi g) < hi) -> forall n s v, In v (fst (r_floats draw n lo hi s)) -> lo <= v < hi.
Proof using.
  intro H. induction n as [|n IH]; intros s v Hv; [destruct Hv|]. cbn [r_floats] in Hv. unfold r_float in Hv. pose proof (H (rs_gen s)) as H0. destruct (draw lo hi (rs_gen s)) as [u g]. specialize (IH (mkRs (rs_param s) (rs_seed s) g) v).
  destruct (r_floats draw n lo hi _) as [vs s2]. cbn in *. destruct Hv as [->|Hv]; auto.
Qed.
Lemma floats_param lo hi : forall n s, rs_param (snd (r_floats draw n lo hi s)) = rs_param s /\ rs_seed (snd (r_floats draw n lo hi s)) = rs_seed s.
Proof using.
  induction n as [|n IH]; intro s; [auto|]. cbn [r_floats]. unfold r_float. destruct (draw lo hi (rs_gen s)) as [u g]. specialize (IH (mkRs (rs_param s) (rs_seed s) g)).
  destruct (r_floats draw n lo hi _) as [vs s2]. cbn in *. exact IH.
Qed.
End L.

(** C133: the point has the size asked for, label 0, and values in [0, 1); its id and alpha are kept. *)
Lemma c133_values : forall (G : Type) (seedg : Z -> G) (next : G -> G) (draw : R -> R -> G -> R * G) (dev seed : Z) (n : nat) (p : point R) (s : rstate),
  (forall g, 0 <= fst (draw 0 1 g) < 1) -> let q := fst (rand_resize seedg next draw dev seed n p s) in
  length (p_x q) = n /\ p_y q = 0%Z /\ p_id q = p_id p /\ p_alpha q = p_alpha p /\ (forall v, In v (p_x q) -> 0 <= v < 1).
Proof.
  intros G seedg next draw dev seed n p s H. cbv zeta. unfold rand_resize. pose proof (floats_length draw 0 1 n (fst (r_init seedg next dev seed s))) as L. pose proof (floats_range draw 0 1 H n (fst (r_init seedg next dev seed s))) as B.
  destruct (r_floats draw n 0 1 _) as [xs s2]. cbn in *. auto.
Qed.
(** C133: random_init(p, seed) is the same with the size p has, and random_init(lo, hi, size, seed) makes a new point with values in [lo, hi). *)
Lemma c133_same_size : forall (G : Type) (seedg : Z -> G) (next : G -> G) (draw : R -> R -> G -> R * G) (dev seed : Z) (p : point R) (s : rstate),
  (forall g, 0 <= fst (draw 0 1 g) < 1) -> let q := fst (rand_point seedg next draw dev seed p s) in
  length (p_x q) = length (p_x p) /\ p_y q = 0%Z /\ p_id q = p_id p /\ p_alpha q = p_alpha p /\ (forall v, In v (p_x q) -> 0 <= v < 1) /\
  p_x q = p_x (fst (rand_resize seedg next draw dev seed (length (p_x p)) p s)).
Proof.
  intros G seedg next draw dev seed p s H. cbv zeta. pose proof (c133_values G seedg next draw dev seed (length (p_x p)) p s H) as (A & B & C & D & E). auto 10.
Qed.
Lemma c133_new : forall (G : Type) (seedg : Z -> G) (next : G -> G) (draw : R -> R -> G -> R * G) (dev seed : Z) (lo hi : R) (n : nat) (s : rstate),
  (forall g, lo <= fst (draw lo hi g) < hi) -> let q := fst (rand_new seedg next draw dev seed lo hi n s) in
  length (p_x q) = n /\ p_y q = 0%Z /\ p_id q = 0%Z /\ (forall v, In v (p_x q) -> lo <= v < hi).
Proof.
  intros G seedg next draw dev seed lo hi n s H. cbv zeta. unfold rand_new. pose proof (floats_length draw lo hi n (fst (r_init seedg next dev seed s))) as L. pose proof (floats_range draw lo hi H n (fst (r_init seedg next dev seed s))) as B.
  destruct (r_floats draw n lo hi _) as [xs s2]. cbn in *. auto.
Qed.
(** C133: with a seed other than 0 and other than the one in force, in whatever state, the values are those of the seed. *)
Lemma c133_reproducible : forall (G : Type) (seedg : Z -> G) (next : G -> G) (draw : R -> R -> G -> R * G) (dev dev' seed : Z) (n : nat) (p p' : point R) (s s' : rstate),
  seed <> 0%Z -> rs_param s <> seed -> rs_param s' <> seed ->
  p_x (fst (rand_resize seedg next draw dev seed n p s)) = p_x (fst (rand_resize seedg next draw dev' seed n p' s')) /\
  snd (rand_resize seedg next draw dev seed n p s) = snd (rand_resize seedg next draw dev' seed n p' s').
Proof.
  intros G seedg next draw dev dev' seed n p p' s s' N P P'. assert (forall d (t : rstate), rs_param t <> seed -> fst (r_init seedg next d seed t) = mkRs seed seed (seedg seed)) as I.
  { intros d t Q. unfold r_init. replace (Z.eqb seed (rs_param t)) with false by (symmetry; apply Z.eqb_neq; congruence). replace (Z.eqb seed 0) with false by (symmetry; apply Z.eqb_neq; exact N). reflexivity. }
  unfold rand_resize. rewrite !I by assumption. destruct (r_floats draw n 0 1 _) as [xs s2]. auto.
Qed.
(** C133: so the second of two calls repeats the first when a call with another seed came in between. *)
Lemma c133_between : forall (G : Type) (seedg : Z -> G) (next : G -> G) (draw : R -> R -> G -> R * G) (dev seed other : Z) (n m : nat) (p q : point R) (s : rstate),
  seed <> 0%Z -> other <> seed -> rs_param s <> seed ->
  let s1 := snd (rand_resize seedg next draw dev seed n p s) in let s2 := snd (rand_resize seedg next draw dev other m q s1) in
  p_x (fst (rand_resize seedg next draw dev seed n p s2)) = p_x (fst (rand_resize seedg next draw dev seed n p s)).
Proof.
  intros G seedg next draw dev seed other n m p q s N O P. cbv zeta. apply c133_reproducible; auto.
  unfold rand_resize at 1. pose proof (floats_param draw 0 1 m (fst (r_init seedg next dev other (snd (rand_resize seedg next draw dev seed n p s))))) as (F & _).
  destruct (r_floats draw m 0 1 _) as [xs s3]. cbn [snd] in *. rewrite F. unfold r_init. destruct (Z.eqb_spec other (rs_param (snd (rand_resize seedg next draw dev seed n p s)))) as [E|E]; cbn [fst rs_param]; congruence.
Qed.
(** C133: but two calls in a row with one seed do not: the second point continues the sequence, the two are the halves of one point of twice the size. *)
Lemma c133_again_refuted : forall (G : Type) (seedg : Z -> G) (next : G -> G) (draw : R -> R -> G -> R * G) (dev seed : Z) (n m : nat) (p q : point R) (s : rstate),
  let s1 := snd (rand_resize seedg next draw dev seed n p s) in
  p_x (fst (rand_resize seedg next draw dev seed (n + m) p s)) = p_x (fst (rand_resize seedg next draw dev seed n p s)) ++ p_x (fst (rand_resize seedg next draw dev seed m q s1)).
Proof.
  intros G seedg next draw dev seed n m p q s. cbv zeta. unfold rand_resize. set (t := fst (r_init seedg next dev seed s)). assert (rs_param t = seed) as P.
  { unfold t, r_init. destruct (Z.eqb_spec seed (rs_param s)); cbn; congruence. }
  rewrite floats_app. pose proof (floats_param draw 0 1 n t) as (F & _). destruct (r_floats draw n 0 1 t) as [xs s1]. cbn [fst snd p_x] in *.
  assert (fst (r_init seedg next dev seed s1) = s1) as ->. { unfold r_init. rewrite F, P, Z.eqb_refl. reflexivity. }
  destruct (r_floats draw m 0 1 s1) as [ys s2]. reflexivity.
Qed.

(** A toy generator: the state counts, the value is 1 / (state + 2). *)
Definition tdraw (lo hi : R) (g : nat) : R * nat := (lo + (hi - lo) / INR (g + 2), S g).
Lemma tdraw_range : forall g, 0 <= fst (tdraw 0 1 g) < 1.
Proof.
  intro g. cbn. assert (2 <= INR (g + 2)) as H. { rewrite plus_INR. pose proof (pos_INR g). cbn. lra. }
  assert (0 < / INR (g + 2)) as I by (apply Rinv_0_lt_compat; lra). assert (/ INR (g + 2) <= / 2) as J by (apply Rinv_le_contravar; lra). unfold Rdiv. rewrite !Rplus_0_l, Rminus_0_r, Rmult_1_l. split; [lra|]. lra.
Qed.
Lemma c133_values_ex : (forall g, 0 <= fst (tdraw 0 1 g) < 1) /\ p_y (fst (rand_resize Z.to_nat S tdraw 9 7 2 (mkPoint [] 3%Z 4%Z 0) (r_start Z.to_nat 5))) = 0%Z.
Proof. split; [exact tdraw_range|reflexivity]. Qed.
Lemma c133_same_size_ex : (forall g, 0 <= fst (tdraw 0 1 g) < 1) /\ length (p_x (mkPoint [1; 2] 3%Z 4%Z 0)) = 2%nat.
Proof. split; [exact tdraw_range|reflexivity]. Qed.
Lemma c133_new_ex : forall g, 0 <= fst (tdraw 0 1 g) < 1.
Proof. exact tdraw_range. Qed.
Lemma c133_reproducible_ex : 7%Z <> 0%Z /\ rs_param (r_start Z.to_nat 5) <> 7%Z /\ rs_param (mkRs 3 3 8%nat) <> 7%Z.
Proof. repeat split; discriminate. Qed.
Lemma c133_between_ex : 7%Z <> 0%Z /\ 8%Z <> 7%Z /\ rs_param (r_start Z.to_nat 5) <> 7%Z.
Proof. repeat split; discriminate. Qed.
Lemma c133_again_refuted_ex : p_x (fst (rand_resize Z.to_nat S tdraw 9 7 1 (mkPoint [] 3%Z 4%Z 0) (r_start Z.to_nat 5))) <>
  p_x (fst (rand_resize Z.to_nat S tdraw 9 7 1 (mkPoint [] 3%Z 4%Z 0) (snd (rand_resize Z.to_nat S tdraw 9 7 1 (mkPoint [] 3%Z 4%Z 0) (r_start Z.to_nat 5))))).
Proof. unfold rand_resize, r_init, r_start. cbn [rs_param Z.eqb Pos.eqb fst rs_gen r_floats r_float tdraw snd p_x]. intro E. injection E as E. change (Z.to_nat 7 + 2)%nat with 9%nat in E. change (S (Z.to_nat 7) + 2)%nat with 10%nat in E. cbn in E. lra. Qed.
