(** Lemmas about the perceptron model. *)
From Coq Require Import ZArith Bool List Lia Reals Lra Psatz.
From Verif Require Import Base ListLib M_Data M_Point L_Vec Loop M_Kernel S_Kernel L_Kernel M_Perc.
Import ListNotations.
Local Open Scope R_scope.

Lemma aget_nz l i : (i < length l)%nat -> aget l i = Ok (nz l i).
Proof. intro H. unfold aget, nz. rewrite (nth_error_nth' l 0) by auto. auto. Qed.
Lemma aupd_lt {A} i (f : A -> A) l : (i < length l)%nat -> exists r, aupd i f l = Ok r /\ upd i f l = Some r.
Proof. intro H. destruct (upd_lt i f l H) as [r E]. exists r. unfold aupd. rewrite E. auto. Qed.
Lemma nz_upd_same i f l r : upd i f l = Some r -> nz r i = f (nz l i).
Proof.
  intro U. pose proof (upd_Some_lt _ _ _ _ U) as L. pose proof (upd_nth_same _ _ _ _ U) as E. rewrite (nth_error_nth' l 0 L) in E. cbn in E.
  unfold nz. apply (nth_error_nth _ _ 0) in E. exact E.
Qed.
Lemma nz_upd_other i j f l r : upd i f l = Some r -> i <> j -> nz r j = nz l j.
Proof.
  intros U N. pose proof (upd_nth_other _ _ _ _ _ U N) as E. unfold nz. destruct (nth_error l j) as [a|] eqn:F.
  - rewrite (nth_error_nth _ _ 0 E), (nth_error_nth _ _ 0 F). auto.
  - apply nth_error_None in F, E. rewrite !nth_overflow by auto. auto.
Qed.

(** Decision value of a hyperplane. *)
Definition score (n : nat) (w x : vec) (b : R) : R := inner n w x + b.

Lemma fold_from_ok n (f : nat -> outcome R) g b : (forall i, (i < n)%nat -> f i = Ok (g i)) ->
  ofold (fun s i => let* v := f i in Ok (s + v)) (seq 0 n) b = Ok (b + sumn n g).
Proof.
  intro H. destruct (ofold_seq (fun s i => let* v := f i in Ok (s + v)) (fun i s => s = b + sumn i g) n b) as (t & E & ->); auto.
  - cbn. ring.
  - intros i t Hi ->. rewrite H by auto. cbn. eexists. split; [reflexivity|]. ring.
Qed.
Lemma decision_ok n w x b : (n <= length w)%nat -> (n <= length x)%nat -> decision n w x b = Ok (score n w x b).
Proof.
  intros Hw Hx. unfold decision, score, inner. rewrite Rplus_comm. rewrite <- (fold_from_ok n (fun j => let* a := aget w j in let* c := vget x j in Ok (a * c))).
  - apply ofold_ext. intros s j Hj. apply in_seq in Hj. rewrite aget_nz, vget_nz by lia. reflexivity.
  - intros j Hj. rewrite aget_nz, vget_nz by lia. reflexivity.
Qed.

Definition vadd (n : nat) (w : vec) (c : R) (x : vec) : vec := map (fun j => nz w j + c * nz x j) (seq 0 n).
Lemma vadd_length n w c x : length (vadd n w c x) = n.
Proof. unfold vadd. rewrite map_length, seq_length. auto. Qed.
Lemma nz_map_seq n (f : nat -> R) i : (i < n)%nat -> nz (map f (seq 0 n)) i = f i.
Proof. intro H. rewrite (nz_map f O) by (rewrite seq_length; auto). rewrite seq_nth by auto. auto. Qed.
Lemma nz_vadd n w c x i : (i < n)%nat -> nz (vadd n w c x) i = nz w i + c * nz x i.
Proof. apply (nz_map_seq n (fun j => nz w j + c * nz x j)). Qed.

Lemma bump_ok n c x w : length w = n -> length x = n -> bump n c x w = Ok (vadd n w c x, inner n (vadd n w c x) (vadd n w c x)).
Proof.
  intros Hw Hx. unfold bump.
  destruct (ofold_seq (fun s j => let* v := vget x j in let* w1 := aupd j (fun a => a + c * v) (fst s) in let* a := aget w1 j in Ok (w1, snd s + a * a))
    (fun i (s : vec * R) => length (fst s) = n /\ (forall j, (j < i)%nat -> nz (fst s) j = nz w j + c * nz x j) /\ (forall j, (i <= j)%nat -> nz (fst s) j = nz w j) /\
       snd s = sumn i (fun j => (nz w j + c * nz x j) * (nz w j + c * nz x j))) n (w, 0)) as ([w' q] & E & L & A & _ & Q).
  - cbn. repeat split; auto. intros; lia.
  - intros i [w1 q] Hi (L & A & B & Q). cbn [fst snd] in *. rewrite vget_nz by lia. cbn [obind].
    destruct (aupd_lt i (fun a => a + c * nz x i) w1 ltac:(lia)) as (w2 & -> & U). cbn [obind].
    pose proof (upd_length _ _ _ _ U) as L2. rewrite aget_nz by lia. cbn [obind]. eexists. split; [reflexivity|]. cbn [fst snd].
    rewrite (nz_upd_same _ _ _ _ U), (B i) by lia. split; [lia|]. split; [|split].
    + intros j Hj. destruct (Nat.eq_dec i j) as [<-|N]; [rewrite (nz_upd_same _ _ _ _ U), (B i) by lia; auto|]. rewrite (nz_upd_other _ _ _ _ _ U N). apply A. lia.
    + intros j Hj. rewrite (nz_upd_other _ _ _ _ _ U) by lia. apply B. lia.
    + cbn [sumn]. rewrite Q. auto.
  - etransitivity; [exact E|]. cbn [fst snd] in *. assert (w' = vadd n w c x) as ->.
    { apply nz_ext; [rewrite vadd_length; auto|]. intros j Hj. rewrite nz_vadd by lia. apply A. lia. }
    do 2 f_equal. rewrite Q. unfold inner. apply sumn_ext. intros j Hj. rewrite nz_vadd; auto.
Qed.

(** ** Passes over the data *)
(** Every position that is visited holds the number of a point. *)
Definition index_ok (d : data R) : Prop :=
  forall i, (i < size d)%nat -> exists m, nth_error (d_index d) i = Some (Z.of_nat m) /\ (m < size d)%nat.
(** The point visited at position [i]. *)
Definition vis (d : data R) (i : nat) : point R := pt d (Z.to_nat (nth i (d_index d) 0%Z)).

Lemma vis_get d i : index_ok d -> (i < size d)%nat ->
  exists z m, vget (d_index d) i = Ok z /\ zidx z = Ok m /\ vget (d_points d) m = Ok (vis d i) /\ (m < size d)%nat.
Proof.
  intros H Hi. destruct (H i Hi) as (m & E & Hm). exists (Z.of_nat m), m. unfold vget at 1. rewrite E. split; auto. split.
  - unfold zidx. destruct (Z.ltb_spec (Z.of_nat m) 0); [lia|]. rewrite Nat2Z.id. auto.
  - split; auto. unfold vis. rewrite (nth_error_nth _ _ 0%Z E), Nat2Z.id. apply vget_pt. auto.
Qed.
Lemma vis_In d i : index_ok d -> (i < size d)%nat -> In (vis d i) (d_points d).
Proof. intros H Hi. destruct (vis_get d i H Hi) as (z & m & _ & _ & E & _). apply vget_Ok in E. apply nth_error_In in E. auto. Qed.

Section Primal.
Variable pr : params.
Variable d : data R.
Hypothesis HR : rect d.
Hypothesis HI : index_ok d.
Local Notation n := (dim d).

Definition fscore (s : pstate) (p : point R) : R := IZR (p_y p) * score n (ps_w s) (p_x p) (ps_b s).
Definition pupdate (s : pstate) (p : point R) : pstate :=
  let w' := vadd n (ps_w s) (rate pr * IZR (p_y p)) (p_x p) in
  mkP w' (ps_b s + rate pr * IZR (p_y p)) (sqrt (inner n w' w')) (S (ps_ctot s)) (S (ps_e s)).

Lemma ppass_step steps i r s : (i < size d)%nat -> length (ps_w s) = n ->
  ppass pr d steps (i :: r) s =
    if Rle_dec (fscore s (vis d i)) 0 then ppass pr d steps r (pupdate s (vis d i))
    else if Nat.ltb 0 steps && Nat.ltb 1 (ps_e s) then Ok s else ppass pr d steps r s.
Proof.
  intros Hi Hw. cbn [ppass]. destruct (vis_get d i HI Hi) as (z & m & -> & E1 & E2 & Hm). cbn [obind]. rewrite E1. cbn [obind]. rewrite E2. cbn [obind].
  assert (length (p_x (vis d i)) = n) as Lx by (apply HR, vis_In; auto).
  rewrite decision_ok by lia. cbn [obind]. unfold fscore. destruct (Rle_dec _ 0); auto. rewrite bump_ok by auto. reflexivity.
Qed.

(** Invariant rule for a pass. *)
Lemma ppass_inv (P : pstate -> Prop) steps :
  (forall i s, (i < size d)%nat -> P s -> length (ps_w s) = n -> fscore s (vis d i) <= 0 -> P (pupdate s (vis d i))) ->
  forall is s, (forall i, In i is -> (i < size d)%nat) -> P s -> length (ps_w s) = n ->
  exists s', ppass pr d steps is s = Ok s' /\ P s' /\ length (ps_w s') = n.
Proof.
  intro H. induction is as [|i r IH]; intros s Hin HP Hw; [exists s; auto|].
  rewrite ppass_step by (auto; apply Hin; left; auto). assert (i < size d)%nat as Hi by (apply Hin; left; auto).
  assert (forall j, In j r -> (j < size d)%nat) as Hr by (intros; apply Hin; right; auto).
  destruct (Rle_dec _ 0) as [L|L].
  - apply IH; auto. unfold pupdate. cbn. apply vadd_length.
  - destruct (_ && _); [exists s; auto|]. apply IH; auto.
Qed.

(** A pass without mistakes changes nothing and has found every visited point on its side. *)
Lemma ppass_clean steps : forall is s s', (forall i, In i is -> (i < size d)%nat) -> length (ps_w s) = n -> ppass pr d steps is s = Ok s' ->
  (ps_e s <= ps_e s')%nat /\ (ps_ctot s <= ps_ctot s')%nat /\ (ps_ctot s' - ps_ctot s = ps_e s' - ps_e s)%nat /\
  (ps_e s' = ps_e s -> s' = s) /\ (ps_e s' = O -> forall i, In i is -> 0 < fscore s (vis d i)).
Proof.
  induction is as [|i r IH]; intros s s' Hin Hw E.
  - cbn in E. injection E as <-. repeat split; auto; try lia. intros _ i [].
  - assert (i < size d)%nat as Hi by (apply Hin; left; auto). assert (forall j, In j r -> (j < size d)%nat) as Hr by (intros; apply Hin; right; auto).
    rewrite ppass_step in E by auto. destruct (Rle_dec _ 0) as [L|L].
    + destruct (IH (pupdate s (vis d i)) s' Hr (vadd_length _ _ _ _) E) as (A & B & C & _). cbn in A, B, C. repeat split; try lia.
    + destruct (Nat.ltb 0 steps && Nat.ltb 1 (ps_e s)) eqn:BR.
      * injection E as <-. repeat split; auto; try lia. intros Z. apply andb_prop in BR. destruct BR as [_ BR]. apply Nat.ltb_lt in BR. lia.
      * destruct (IH s s' Hr Hw E) as (A & B & C & D & F). split; auto. split; auto. split; auto. split; auto.
        intros Z j [<-|Hj]; [lra|]. apply F; auto.
Qed.

Definition reset (s : pstate) : pstate := mkP (ps_w s) (ps_b s) (ps_norm s) (ps_ctot s) 0.
Lemma in_positions i : In i (seq 0 (size d)) -> (i < size d)%nat.
Proof. intro H. apply in_seq in H. lia. Qed.

(** Invariant and termination of the training loop. *)
Lemma ploop_inv (P : pstate -> Prop) clk :
  (forall i s, (i < size d)%nat -> P s -> length (ps_w s) = n -> fscore s (vis d i) <= 0 -> P (pupdate s (vis d i))) ->
  (forall s, P s -> P (reset s)) ->
  forall fuel k steps s, (max_it pr < steps + fuel)%nat -> (1 <= fuel)%nat -> P s -> length (ps_w s) = n ->
  exists s' st, ploop pr d clk fuel k steps s = Ok (Some (s', st)) /\ P s' /\ length (ps_w s') = n /\ (steps <= st)%nat.
Proof.
  intros H HRs. induction fuel as [|fuel IH]; intros k steps s HF F1 HP Hw; [lia|]. cbn [ploop].
  destruct (clk k); [|exists s, steps; auto].
  destruct (ppass_inv P steps H (seq 0 (size d)) (reset s) in_positions (HRs s HP) Hw) as (s1 & E & HP1 & Hw1). unfold reset in E. rewrite E. cbn [obind].
  destruct (Nat.eqb (ps_e s1) 0 || Nat.ltb (max_it pr) (S steps) || Nat.ltb (max_up pr) (ps_ctot s1)) eqn:ST.
  - exists s1, (S steps). auto.
  - apply orb_false_iff in ST. destruct ST as [ST _]. apply orb_false_iff in ST. destruct ST as [_ ST]. apply Nat.ltb_ge in ST.
    destruct (IH (S k) (S steps) s1 ltac:(lia) ltac:(lia) HP1 Hw1) as (s2 & st & E2 & HP2 & Hw2 & Hst). exists s2, st. split; auto. split; auto. split; auto. lia.
Qed.

(** Success after at least one pass. *)
Lemma ploop_success clk : forall fuel k steps s s' st, length (ps_w s) = n -> (clk k = true \/ ps_e s <> O) ->
  ploop pr d clk fuel k steps s = Ok (Some (s', st)) -> ps_e s' = O -> forall i, (i < size d)%nat -> 0 < fscore s' (vis d i).
Proof.
  induction fuel as [|fuel IH]; intros k steps s s' st Hw HC E Z i Hi; cbn [ploop] in E.
  - destruct (clk k); [discriminate|]. injection E as <- <-. destruct HC; congruence.
  - destruct (clk k) eqn:CK.
    + destruct (ppass pr d steps (seq 0 (size d)) _) as [s1| |] eqn:E1; try discriminate. cbn [obind] in E.
      destruct (ppass_clean steps _ (reset s) s1 in_positions Hw E1) as (A & B & C & D & F).
      destruct (ppass_inv (fun _ => True) steps ltac:(auto) (seq 0 (size d)) (reset s) in_positions I Hw) as (s1' & E1' & _ & Hw1). unfold reset in E1'. rewrite E1 in E1'. injection E1' as <-.
      destruct (Nat.eqb (ps_e s1) 0 || Nat.ltb (max_it pr) (S steps) || Nat.ltb (max_up pr) (ps_ctot s1)) eqn:ST.
      * injection E as <- <-. rewrite (D Z). apply F; auto. apply in_seq. lia.
      * apply (IH (S k) (S steps) s1 s' st); auto. right. apply orb_false_iff in ST. destruct ST as [ST _]. apply orb_false_iff in ST. destruct ST as [ST _]. apply Nat.eqb_neq in ST. auto.
    + injection E as <- <-. destruct HC; congruence.
Qed.

(** ** The mistake bound *)
Lemma inner_vadd w c x u : inner n (vadd n w c x) u = inner n w u + c * inner n x u.
Proof.
  unfold inner. rewrite <- sumn_scal, <- sumn_add. apply sumn_ext. intros i Hi. rewrite nz_vadd by auto. ring.
Qed.
Lemma inner_vadd_self w c x : inner n (vadd n w c x) (vadd n w c x) = inner n w w + 2 * c * inner n w x + c * c * inner n x x.
Proof. rewrite inner_vadd, (inner_sym n w (vadd n w c x)), (inner_sym n x (vadd n w c x)), !inner_vadd, (inner_sym n x w). ring. Qed.

Section Novikoff.
Variable u : vec.
Variables bu g r2 : R.
Variable c0 : nat.
Hypothesis Hrate : 0 < rate pr.
Hypothesis Hy : forall p, In p (d_points d) -> p_y p = 1%Z \/ p_y p = (-1)%Z.
Hypothesis Hg : forall p, In p (d_points d) -> g <= IZR (p_y p) * score n u (p_x p) bu.
Hypothesis Hr : forall p, In p (d_points d) -> inner n (p_x p) (p_x p) + 1 <= r2.

Definition nov (s : pstate) : Prop :=
  (c0 <= ps_ctot s)%nat /\
  rate pr * INR (ps_ctot s - c0) * g <= inner n (ps_w s) u + ps_b s * bu /\
  inner n (ps_w s) (ps_w s) + ps_b s * ps_b s <= rate pr * rate pr * INR (ps_ctot s - c0) * r2.

Lemma nov_update i s : (i < size d)%nat -> nov s -> length (ps_w s) = n -> fscore s (vis d i) <= 0 -> nov (pupdate s (vis d i)).
Proof.
  intros Hi (A & B & C) Hw L. pose proof (vis_In d i HI Hi) as Hin. set (p := vis d i) in *. unfold nov, pupdate. cbn [ps_ctot ps_w ps_b].
  specialize (Hy p Hin). specialize (Hg p Hin). specialize (Hr p Hin). unfold fscore, score in *.
  replace (S (ps_ctot s) - c0)%nat with (S (ps_ctot s - c0)) by lia. rewrite S_INR. rewrite inner_vadd_self, inner_vadd.
  assert (IZR (p_y p) * IZR (p_y p) = 1) as Y2 by (destruct Hy as [->| ->]; lra).
  set (y := IZR (p_y p)) in *. set (t := INR (ps_ctot s - c0)) in *. set (e := rate pr) in *. rewrite (inner_sym n (p_x p) u).
  set (wu := inner n (ps_w s) u) in *. set (ww := inner n (ps_w s) (ps_w s)) in *. set (wx := inner n (ps_w s) (p_x p)) in *. set (ux := inner n u (p_x p)) in *. set (xx := inner n (p_x p) (p_x p)) in *.
  set (b := ps_b s) in *. split; [lia|]. split.
  - assert (e * g <= e * (y * (ux + bu))) by (apply Rmult_le_compat_l; lra). lra.
  - assert (0 <= e * e) as EE by (apply Rle_0_sqr). assert (e * e * (xx + 1) <= e * e * r2) by (apply Rmult_le_compat_l; auto).
    assert (e * (y * (wx + b)) <= 0) by (assert (0 <= e * - (y * (wx + b))) by (apply Rmult_le_pos; lra); lra).
    replace (ww + 2 * (e * y) * wx + e * y * (e * y) * xx + (b + e * y) * (b + e * y)) with
      (ww + b * b + 2 * (e * (y * (wx + b))) + e * e * (y * y) * (xx + 1)) by ring. rewrite Y2. lra.
Qed.
Lemma cauchy_aug w b : (inner n w u + b * bu) ^ 2 <= (inner n w w + b * b) * (inner n u u + bu * bu).
Proof.
  pose proof (cauchy (S n) (fun i => if Nat.eqb i n then b else nz w i) (fun i => if Nat.eqb i n then bu else nz u i)) as C. cbn [sumn] in C. rewrite Nat.eqb_refl in C.
  unfold inner. rewrite !(sumn_ext n (fun i => (if Nat.eqb i n then _ else _) * _)) with (g := fun i => nz w i * nz u i) in C by (intros i Hi; destruct (Nat.eqb_spec i n); [lia|auto]).
  revert C. intro C. eapply Rle_trans; [exact C|]. right. f_equal; f_equal; apply sumn_ext; intros i Hi; destruct (Nat.eqb_spec i n); try lia; auto.
Qed.
Lemma nov_bound s : 0 < g -> 0 <= r2 -> nov s -> INR (ps_ctot s - c0) * (g * g) <= r2 * (inner n u u + bu * bu).
Proof.
  intros G0 R0 (_ & B & C). set (t := INR (ps_ctot s - c0)) in *. assert (0 <= t) as T0 by apply pos_INR.
  pose proof (cauchy_aug (ps_w s) (ps_b s)) as CS.
  set (e := rate pr) in *. set (wu := inner n (ps_w s) u) in *. set (ww := inner n (ps_w s) (ps_w s)) in *. set (b := ps_b s) in *.
  assert (0 <= inner n u u + bu * bu) as UU.
  { apply Rplus_le_le_0_compat; [apply sumn_nonneg; intros|]; apply Rle_0_sqr. }
  set (uu := inner n u u + bu * bu) in *.
  destruct (Req_dec t 0) as [->|Tn]; [rewrite Rmult_0_l; apply Rmult_le_pos; auto|].
  assert (0 < e * t) as ET by (apply Rmult_lt_0_compat; lra).
  assert (0 <= e * t * g) as ETG by (apply Rmult_le_pos; lra).
  assert ((e * t * g) ^ 2 <= (wu + b * bu) ^ 2) as S1 by (apply pow_incr; lra).
  assert ((ww + b * b) * uu <= e * e * t * r2 * uu) as S2 by (apply Rmult_le_compat_r; auto).
  apply (Rmult_le_reg_l (e * (e * t))); [apply Rmult_lt_0_compat; auto|].
  replace (e * (e * t) * (t * (g * g))) with ((e * t * g) ^ 2) by ring. replace (e * (e * t) * (r2 * uu)) with (e * e * t * r2 * uu) by ring. lra.
Qed.
End Novikoff.

(** The state after a pass with mistakes has more updates. *)
Lemma ploop_reaches clk B c0 (P : pstate -> Prop) :
  (forall k, clk k = true) ->
  (forall i s, (i < size d)%nat -> P s -> length (ps_w s) = n -> fscore s (vis d i) <= 0 -> P (pupdate s (vis d i))) ->
  (forall s, P s -> P (reset s)) -> (forall s, P s -> (ps_ctot s <= c0 + B)%nat) ->
  (c0 + B <= max_up pr)%nat ->
  forall fuel k steps s, (max_it pr < steps + fuel)%nat -> (steps + (c0 + B - ps_ctot s) <= max_it pr)%nat -> P s -> length (ps_w s) = n ->
  exists s' st, ploop pr d clk fuel k steps s = Ok (Some (s', st)) /\ ps_e s' = O.
Proof.
  intros HC H HRs HB HU. induction fuel as [|fuel IH]; intros k steps s HF HM HP Hw; [lia|]. cbn [ploop]. rewrite HC.
  destruct (ppass_inv P steps H (seq 0 (size d)) (reset s) in_positions (HRs s HP) Hw) as (s1 & E & HP1 & Hw1).
  destruct (ppass_clean steps _ (reset s) s1 in_positions Hw E) as (A & Bb & C & _ & _). unfold reset in E, A, Bb, C. cbn [ps_e ps_ctot] in A, Bb, C. rewrite E. cbn [obind].
  destruct (Nat.eqb_spec (ps_e s1) 0) as [Z|NZ]; [exists s1, (S steps); auto|]. pose proof (HB s1 HP1) as L1.
  cbn [orb]. destruct (Nat.ltb_spec (max_it pr) (S steps)); [lia|]. destruct (Nat.ltb_spec (max_up pr) (ps_ctot s1)); [lia|]. cbn [orb].
  apply IH; auto; lia.
Qed.
End Primal.

Lemma ploop_S pr d clk fuel k steps s : clk k = true ->
  ploop pr d clk (S fuel) k steps s =
    (let* s1 := ppass pr d steps (seq 0 (size d)) (mkP (ps_w s) (ps_b s) (ps_norm s) (ps_ctot s) 0) in
     if Nat.eqb (ps_e s1) 0 || Nat.ltb (max_it pr) (S steps) || Nat.ltb (max_up pr) (ps_ctot s1) then Ok (Some (s1, S steps))
     else ploop pr d clk fuel (S k) (S steps) s1).
Proof. intro C. cbn [ploop]. rewrite C. reflexivity. Qed.
