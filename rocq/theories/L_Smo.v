(** Lemmas about the SMO model. *)
From Coq Require Import ZArith Bool List Permutation Arith Lia Reals Lra Psatz.
From Verif Require Import Base ListLib M_Data M_Point L_Vec Loop M_Kernel S_Kernel L_Kernel M_Perc L_Perc M_Dll S_Dll L_Dll M_Smo.
Import ListNotations.
Local Open Scope R_scope.

Lemma sumn_change m f g i : (i < m)%nat -> (forall k, (k < m)%nat -> k <> i -> g k = f k) -> sumn m g = sumn m f + (g i - f i).
Proof.
  induction m as [|m IH]; intros Hi H; [lia|]. cbn [sumn]. destruct (Nat.eq_dec m i) as [->|N].
  - rewrite (sumn_ext i g f) by (intros; apply H; lia). ring.
  - rewrite IH by (try lia; intros; apply H; lia). rewrite (H m) by lia. ring.
Qed.
(** A sum along a list of distinct positions outside which the summand is 0. *)
Lemma sumn_list m f l : NoDup l -> (forall i, In i l -> (i < m)%nat) -> (forall i, (i < m)%nat -> ~ In i l -> f i = 0) ->
  sumn m f = fold_right (fun i s => f i + s) 0 l.
Proof.
  revert f. induction l as [|a r IH]; intros f ND HL HZ; cbn [fold_right].
  - apply sumn_zero. intros. apply HZ; auto.
  - inversion ND as [|? ? Na NDr]; subst. rewrite (sumn_change m (fun i => if Nat.eqb i a then 0 else f i) f a).
    + rewrite Nat.eqb_refl. rewrite (IH (fun i => if Nat.eqb i a then 0 else f i)); auto.
      * replace (fold_right (fun i s => (if Nat.eqb i a then 0 else f i) + s) 0 r) with (fold_right (fun i s => f i + s) 0 r); [ring|].
        clear - Na. induction r as [|b t IH]; cbn; auto. destruct (Nat.eqb_spec b a) as [->|]; [exfalso; apply Na; left; auto|]. rewrite IH; auto. intro; apply Na; right; auto.
      * intros i Hi. apply HL. right. auto.
      * intros i Hi Ni. destruct (Nat.eqb_spec i a); auto. apply HZ; auto. intros [->|]; auto.
    + apply HL. left. auto.
    + intros k Hk Nk. destruct (Nat.eqb_spec k a); [contradiction|auto].
Qed.
Lemma ofold_sum_list {A} (f : A -> outcome R) (g : A -> R) l : (forall x, In x l -> f x = Ok (g x)) -> forall s,
  ofold (fun s x => let* v := f x in Ok (s + v)) l s = Ok (s + fold_right (fun x t => g x + t) 0 l).
Proof.
  induction l as [|x r IH]; intros H s; cbn [ofold fold_right]; [f_equal; symmetry; apply Rplus_0_r|]. rewrite H by (left; auto). cbn [obind]. rewrite IH by (intros; apply H; right; auto). f_equal. apply Rplus_assoc.
Qed.
Lemma map_outcome_ok {A B} (f : A -> outcome B) (g : A -> B) l : (forall x, In x l -> f x = Ok (g x)) -> map_outcome f l = Ok (map g l).
Proof.
  induction l as [|x r IH]; intro H; cbn; auto. rewrite H by (left; auto). cbn [obind]. rewrite IH by (intros; apply H; right; auto). reflexivity.
Qed.
Lemma zidx_of_nat i : zidx (Z.of_nat i) = Ok i.
Proof. unfold zidx. destruct (Z.ltb_spec (Z.of_nat i) 0); [lia|]. rewrite Nat2Z.id. auto. Qed.

Definition ldn (l : list ldata) (j : nat) : ldata := nth j l ld_fresh.
Lemma ldn_upd_same i f l r : upd i f l = Some r -> ldn r i = f (ldn l i).
Proof.
  intro U. pose proof (upd_Some_lt _ _ _ _ U) as L. pose proof (upd_nth_same _ _ _ _ U) as E. rewrite (nth_error_nth' l ld_fresh L) in E. cbn in E.
  unfold ldn. apply (nth_error_nth _ _ ld_fresh) in E. exact E.
Qed.
Lemma ldn_upd_other i j f l r : upd i f l = Some r -> i <> j -> ldn r j = ldn l j.
Proof.
  intros U N. pose proof (upd_nth_other _ _ _ _ _ U N) as E. unfold ldn. destruct (nth_error l j) as [a|] eqn:F.
  - rewrite (nth_error_nth _ _ ld_fresh E), (nth_error_nth _ _ ld_fresh F). auto.
  - apply nth_error_None in F, E. rewrite !nth_overflow by auto. auto.
Qed.
Lemma vget_ldn l i : (i < length l)%nat -> vget l i = Ok (ldn l i).
Proof. apply vget_nth. Qed.

(** Addresses with positions, as they are labelled in the heap. *)
Definition tag (l : list (addr * nat)) : list (addr * Z) := map (fun x => (fst x, Z.of_nat (snd x))) l.
Lemma tag_fst l : map fst (tag l) = map fst l.
Proof. unfold tag. rewrite map_map. reflexivity. Qed.

Section Smo.
Variables C TOL EPS : R.
Variable rnd : nat.
Variable d : data R.
Variable K : list (list R).
Variable kf : nat -> nat -> R.
Variable h0 : heap.
Local Notation m := (size d).
Hypothesis HC : 0 < C.
Hypothesis HE : 0 < EPS.
Hypothesis HK : forall i j, (i < m)%nat -> (j < m)%nat -> mget K i j = Ok (kf i j).
Hypothesis Ksym : forall i j, (i < m)%nat -> (j < m)%nat -> kf i j = kf j i.
Hypothesis H0 : heap_ok h0.
Hypothesis HY : forall p, In p (d_points d) -> p_y p = 1%Z \/ p_y p = (-1)%Z.

Definition Y (i : nat) : R := IZR (p_y (pt d i)).
(** The decision value. *)
Definition F (al : vec) (b : R) (i : nat) : R := sumn m (fun r => nz al r * Y r * kf r i) + b.

Lemma label_ok i : (i < m)%nat -> label d i = Ok (Y i).
Proof. intro H. unfold label. rewrite vget_pt by auto. reflexivity. Qed.
Lemma Ysq i : (i < m)%nat -> Y i * Y i = 1.
Proof. intro H. unfold Y. destruct (HY (pt d i) (nth_In _ _ H)) as [->| ->]; lra. Qed.

(** The support-vector list [l] in the heap. *)
Record struct (s : smo) (l : list (addr * nat)) : Prop := {
  st_al : length (sm_alpha s) = m;
  st_ld : length (sm_ld s) = m;
  st_heap : heap_ok (sm_heap s);
  st_dll : dll (sm_heap s) ((sm_head s, (-1)%Z) :: tag l);
  st_nodup : NoDup (map snd l);
  st_sv : forall a i, In (a, i) l <-> (i < m)%nat /\ ld_sv (ldn (sm_ld s) i) = Some a;
  st_fresh : forall a, a = sm_head s \/ In a (map fst l) -> mem h0 a = None;
  st_brk : (brk h0 <= brk (sm_heap s))%nat;
  st_frame : forall a, a <> sm_head s -> ~ In a (map fst l) -> mem (sm_heap s) a = mem h0 a }.
Definition supp (s : smo) (l : list (addr * nat)) : Prop := forall i, (i < m)%nat -> (In i (map snd l) <-> 0 < nz (sm_alpha s) i).

Lemma struct_lt s l i : struct s l -> In i (map snd l) -> (i < m)%nat.
Proof. intros S H. apply in_map_iff in H. destruct H as ([a j] & <- & H). apply (st_sv s l S) in H. apply H. Qed.
Lemma struct_len s l : struct s l -> (length l <= m)%nat.
Proof.
  intro S. rewrite <- (map_length snd). rewrite <- (seq_length m 0). apply NoDup_incl_length; [apply S|].
  intros i Hi. apply in_seq. pose proof (struct_lt s l i S Hi). lia.
Qed.
Lemma nodes_ok s l : struct s l -> nodes d s = Ok (map snd l).
Proof.
  intro S. unfold nodes. destruct (st_dll s l S) as [_ [E L]]. rewrite (load_ok _ _ _ E). cbn [obind n_next].
  rewrite (walk_ok _ _ _ _ L) by (unfold tag; rewrite map_length; pose proof (struct_len s l S); lia). cbn [obind].
  unfold tag. rewrite (map_outcome_ok _ (fun x => Z.to_nat (snd x))).
  - f_equal. rewrite map_map. apply map_ext. intros [a i]. cbn. apply Nat2Z.id.
  - intros x Hx. apply in_map_iff in Hx. destruct Hx as ([a i] & <- & _). cbn [snd fst]. rewrite zidx_of_nat, Nat2Z.id. auto.
Qed.
Lemma function_ok s l i : struct s l -> supp s l -> (forall r, (r < m)%nat -> 0 <= nz (sm_alpha s) r) -> (i < m)%nat -> smo_function d K s i = Ok (F (sm_alpha s) (sm_bias s) i).
Proof.
  intros S SU NN Hi. unfold smo_function. rewrite (nodes_ok s l S). cbn [obind].
  rewrite (ofold_ext _ (fun sum r => let* v := Ok (nz (sm_alpha s) r * Y r * kf r i) in Ok (sum + v))).
  - rewrite (ofold_sum_list _ (fun r => nz (sm_alpha s) r * Y r * kf r i)) by auto. cbn [obind]. unfold F. rewrite Rplus_0_l. do 2 f_equal.
    symmetry. apply sumn_list.
    + apply S.
    + intros r Hr. apply (struct_lt s l r S Hr).
    + intros r Hr Nr. assert (nz (sm_alpha s) r = 0) as ->; [|ring]. assert (~ 0 < nz (sm_alpha s) r) by (intro Q; apply Nr, SU; auto). specialize (NN r Hr). lra.
  - intros sum r Hr. pose proof (struct_lt s l r S Hr) as Lr. rewrite vget_nz by (rewrite (st_al s l S); auto). cbn [obind].
    destruct (Rlt_dec 0 _) as [P|P]; [|exfalso; apply P, SU; auto]. rewrite label_ok by auto. cbn [obind]. rewrite HK by auto. reflexivity.
Qed.

(** The dual variables are feasible. *)
Definition feasible (al : vec) : Prop := (forall i, (i < m)%nat -> 0 <= nz al i <= C) /\ sumn m (fun i => nz al i * Y i) = 0.
(** The cached errors of the non-bound examples are right. *)
Definition cached (s : smo) : Prop :=
  forall i, (i < m)%nat -> 0 < nz (sm_alpha s) i -> nz (sm_alpha s) i < C -> ld_err (ldn (sm_ld s) i) = F (sm_alpha s) (sm_bias s) i - Y i.
Definition inv (s : smo) : Prop := exists l, struct s l /\ supp s l /\ feasible (sm_alpha s) /\ cached s.

Lemma error_ok s l i : struct s l -> supp s l -> feasible (sm_alpha s) -> cached s -> (i < m)%nat -> smo_error C d K s i = Ok (F (sm_alpha s) (sm_bias s) i - Y i).
Proof.
  intros S SU FE CA Hi. unfold smo_error. rewrite vget_nz by (rewrite (st_al s l S); auto). cbn [obind]. rewrite vget_ldn by (rewrite (st_ld s l S); auto). cbn [obind].
  rewrite label_ok by auto. cbn [obind]. rewrite (function_ok s l i S SU) by (auto; intros r Hr; apply FE; auto). cbn [obind].
  destruct (Rlt_dec 0 _); auto. destruct (Rlt_dec _ C); auto. rewrite CA; auto.
Qed.

(** Changing done flags and errors leaves the list alone. *)
Lemma struct_ld s l ld : struct s l -> length ld = m -> (forall i, (i < m)%nat -> ld_sv (ldn ld i) = ld_sv (ldn (sm_ld s) i)) -> struct (with_ld s ld) l.
Proof.
  intros S L H. destruct S as [A B Cc D E G I]. split; auto. intros a i. rewrite G. cbn [with_ld sm_ld]. split; intros [P Q]; split; auto; rewrite H in * by auto; auto.
Qed.

Lemma sv_update_ok s l i a : struct s l -> (i < m)%nat -> 0 <= a ->
  exists s' l', sv_update s i a = Ok s' /\ struct s' l' /\ sm_alpha s' = sm_alpha s /\ sm_bias s' = sm_bias s /\ sm_head s' = sm_head s /\
    (forall j, ld_err (ldn (sm_ld s') j) = ld_err (ldn (sm_ld s) j)) /\
    (forall j, j <> i -> (In j (map snd l') <-> In j (map snd l))) /\ (In i (map snd l') <-> 0 < a).
Proof.
  intros S Hi Ha. unfold sv_update. rewrite vget_ldn by (rewrite (st_ld s l S); auto). cbn [obind]. destruct (ld_sv (ldn (sm_ld s) i)) as [q|] eqn:SV.
  - assert (In (q, i) l) as Iq by (apply (st_sv s l S); auto). destruct (Req_EM_T a 0) as [->|NZ].
    + apply in_split in Iq. destruct Iq as (l1 & l2 & ->).
      pose proof (st_dll s _ S) as D. unfold tag in D. rewrite map_app in D. cbn [map fst snd] in D. fold (tag l1) in D. fold (tag l2) in D.
      change ((sm_head s, (-1)%Z) :: tag l1 ++ (q, Z.of_nat i) :: tag l2) with (((sm_head s, (-1)%Z) :: tag l1) ++ (q, Z.of_nat i) :: tag l2) in D.
      destruct (remove_ok _ _ _ _ _ (st_heap _ _ S) D) as (h' & -> & B & HO & N & D' & O). cbn [obind fst].
      destruct (vupd_lt i (set_sv None) (sm_ld s)) as (ld & U & ->); [rewrite (st_ld _ _ S); auto|]. cbn [obind].
      pose proof (st_nodup _ _ S) as ND. rewrite map_app in ND. cbn [map snd] in ND.
      assert (forall b, In b (map fst (l1 ++ l2)) -> In b (map fst (l1 ++ (q, i) :: l2))) as Sub.
      { intros b. rewrite !map_app. cbn [map fst]. rewrite !in_app_iff. cbn. tauto. }
      exists (with_ld (with_heap s h') ld), (l1 ++ l2). split; auto. split; [|split; [auto|split; [auto|split; [auto|split; [|split]]]]].
      * constructor; cbn [with_ld with_heap sm_alpha sm_ld sm_heap sm_head].
        -- apply S.
        -- rewrite (upd_length _ _ _ _ U). apply S.
        -- auto.
        -- unfold tag. rewrite map_app. exact D'.
        -- rewrite map_app. apply NoDup_remove_1 in ND. auto.
        -- intros b j. split.
           ++ intro I. assert (In (b, j) (l1 ++ (q, i) :: l2)) as I' by (apply in_app_iff in I; apply in_app_iff; cbn; tauto).
              apply (st_sv _ _ S) in I'. destruct I' as [Hj Ej]. split; auto. rewrite (ldn_upd_other _ _ _ _ _ U); auto.
              intros <-. apply NoDup_remove_2 in ND. apply ND. rewrite <- map_app. apply in_map_iff. exists (b, i). auto.
           ++ intros [Hj Ej]. destruct (Nat.eq_dec i j) as [<-|Nj]; [rewrite (ldn_upd_same _ _ _ _ U) in Ej; discriminate|].
              rewrite (ldn_upd_other _ _ _ _ _ U Nj) in Ej. assert (In (b, j) (l1 ++ (q, i) :: l2)) as I' by (apply (st_sv _ _ S); auto).
              apply in_app_iff in I'. apply in_app_iff. destruct I' as [|[Q|]]; auto. injection Q as _ <-. contradiction.
        -- intros b [Hb|Hb]; apply (st_fresh _ _ S); auto.
        -- rewrite B. apply S.
        -- intros b Nh Nb. destruct (Nat.eq_dec b q) as [->|Nq].
           ++ rewrite N. symmetry. apply (st_fresh _ _ S). right. rewrite map_app. cbn [map fst]. rewrite in_app_iff. cbn. auto.
           ++ rewrite map_app, in_app_iff in Nb. rewrite O. { apply (st_frame _ _ S); auto. rewrite map_app. cbn [map fst]. rewrite in_app_iff. cbn. intuition congruence. }
              rewrite map_app. cbn [map fst]. rewrite !tag_fst, in_app_iff. cbn. intuition congruence.
      * intro j. cbn [with_ld sm_ld]. destruct (Nat.eq_dec i j) as [<-|Nj]; [rewrite (ldn_upd_same _ _ _ _ U); reflexivity|rewrite (ldn_upd_other _ _ _ _ _ U Nj); auto].
      * intros j Nj. rewrite !map_app. cbn [map snd]. rewrite !in_app_iff. cbn. intuition congruence.
      * split; [|lra]. intro I. apply NoDup_remove_2 in ND. rewrite map_app in I. contradiction.
    + exists s, l. split; auto. split; auto. do 5 (split; [auto; tauto|]). split; [lra|]. intros _. apply in_map_iff. exists (q, i). auto.
  - assert (~ In i (map snd l)) as Ni.
    { intro I. apply in_map_iff in I. destruct I as ([b j] & <- & I). apply (st_sv _ _ S) in I. destruct I as [_ I]. cbn in SV. congruence. }
    destruct (Rlt_dec 0 a) as [P|P].
    + pose proof (st_dll s _ S) as D. change ((sm_head s, (-1)%Z) :: tag l) with ([] ++ (sm_head s, (-1)%Z) :: tag l) in D.
      destruct (append_ok _ _ _ _ _ (st_heap _ _ S) D) as (h1 & -> & B1 & HO1 & D1 & O1). cbn [obind fst snd].
      set (q := brk (sm_heap s)) in *. change ([] ++ (sm_head s, (-1)%Z) :: (q, (-1)%Z) :: tag l) with ([(sm_head s, (-1)%Z)] ++ (q, (-1)%Z) :: tag l) in D1.
      destruct (set_index_ok _ _ _ _ _ (Z.of_nat i) HO1 D1) as (h2 & -> & B2 & HO2 & D2 & O2). cbn [obind].
      destruct (vupd_lt i (set_sv (Some q)) (sm_ld s)) as (ld & U & ->); [rewrite (st_ld _ _ S); auto|]. cbn [obind].
      exists (with_ld (with_heap s h2) ld), ((q, i) :: l). split; auto. split; [|split; [auto|split; [auto|split; [auto|split; [|split]]]]].
      * constructor; cbn [with_ld with_heap sm_alpha sm_ld sm_heap sm_head].
        -- apply S.
        -- rewrite (upd_length _ _ _ _ U). apply S.
        -- auto.
        -- exact D2.
        -- cbn [map snd]. constructor; auto. apply S.
        -- intros b j. split.
           ++ intros [E|I]; [injection E as <- <-; split; auto; rewrite (ldn_upd_same _ _ _ _ U); reflexivity|].
              pose proof I as I'. apply (st_sv _ _ S) in I'. destruct I' as [Hj Ej]. split; auto. rewrite (ldn_upd_other _ _ _ _ _ U); auto. intros <-. congruence.
           ++ intros [Hj Ej]. destruct (Nat.eq_dec i j) as [<-|Nj]; [rewrite (ldn_upd_same _ _ _ _ U) in Ej; injection Ej as <-; left; auto|].
              rewrite (ldn_upd_other _ _ _ _ _ U Nj) in Ej. right. apply (st_sv _ _ S). auto.
        -- intros b [Hb|[Hb|Hb]]; [apply (st_fresh _ _ S); auto| |apply (st_fresh _ _ S); auto]. cbn in Hb. subst b. apply H0. apply S.
        -- rewrite B2, B1. pose proof (st_brk _ _ S). fold q in H. lia.
        -- intros b Nh Nb. cbn [map fst] in Nb. assert (b <> q) by (intro; subst; apply Nb; left; auto). assert (~ In b (map fst l)) by (intro; apply Nb; right; auto).
           rewrite O2, O1 by (auto; cbn [app map fst]; rewrite tag_fst; intros [|]; auto; congruence). apply (st_frame _ _ S); auto.
      * intro j. cbn [with_ld sm_ld]. destruct (Nat.eq_dec i j) as [<-|Nj]; [rewrite (ldn_upd_same _ _ _ _ U); reflexivity|rewrite (ldn_upd_other _ _ _ _ _ U Nj); auto].
      * intros j Nj. cbn [map snd]. split; [intros [|]; auto; congruence|right; auto].
      * split; auto. intros _. left. auto.
    + exists s, l. split; auto. split; auto. do 5 (split; [auto; tauto|]). tauto.
Qed.

Lemma bounds_ok (s12 : Z) a1 a2 lo hi : (s12 = 1%Z \/ s12 = (-1)%Z) -> 0 <= a1 <= C -> 0 <= a2 <= C -> smo_bounds C s12 a1 a2 = (lo, hi) ->
  lo <= a2 <= hi /\ 0 <= lo /\ hi <= C /\ (forall n, lo <= n <= hi -> 0 <= a1 - IZR s12 * (n - a2) <= C) /\
  (0 < lo -> a1 - IZR s12 * (lo - a2) = 0 \/ a1 - IZR s12 * (lo - a2) = C) /\ (hi < C -> a1 - IZR s12 * (hi - a2) = 0 \/ a1 - IZR s12 * (hi - a2) = C).
Proof.
  intros [-> | ->] A1 A2 E; unfold smo_bounds in E; cbn [Z.eqb Pos.eqb] in E; injection E as <- <-; unfold Rmax, Rmin;
    repeat (destruct (Rle_dec _ _)); cbn [IZR IPR IPR_2]; repeat split; intros; try lra.
Qed.
Lemma alpha2_ok eta y2 e1 e2 a2 lo hi : lo <= a2 <= hi -> lo <= smo_alpha2 EPS eta y2 e1 e2 a2 lo hi <= hi /\
  (smo_alpha2 EPS eta y2 e1 e2 a2 lo hi = lo \/ smo_alpha2 EPS eta y2 e1 e2 a2 lo hi = hi \/ smo_alpha2 EPS eta y2 e1 e2 a2 lo hi = a2 \/
   (eta < 0 /\ smo_alpha2 EPS eta y2 e1 e2 a2 lo hi = a2 + y2 * (e2 - e1) / eta)).
Proof.
  intros H. unfold smo_alpha2. destruct (Rlt_dec eta 0); repeat (destruct (Rlt_dec _ _)); split; try lra; auto.
Qed.

Lemma alpha2_flat y2 e1 e2 a2 lo hi : smo_alpha2 EPS 0 y2 e1 e2 a2 lo hi = a2.
Proof.
  unfold smo_alpha2. destruct (Rlt_dec 0 0); [lra|]. replace (0 / 2) with 0 by field. replace (0 * lo * lo) with 0 by ring. replace (0 * hi * hi) with 0 by ring.
  destruct (Rlt_dec _ _); [lra|]. destruct (Rlt_dec _ _); [lra|auto].
Qed.

(** The value after two of the dual variables changed. *)
Lemma F_change al al1 al2 b b' i1 i2 n1 n2 i : length al = m -> i1 <> i2 -> (i1 < m)%nat -> (i2 < m)%nat -> (i < m)%nat ->
  upd i1 (fun _ => n1) al = Some al1 -> upd i2 (fun _ => n2) al1 = Some al2 ->
  F al2 b' i = F al b i + (n1 - nz al i1) * Y i1 * kf i1 i + (n2 - nz al i2) * Y i2 * kf i2 i + (b' - b).
Proof.
  intros L N H1 H2 Hi U1 U2. unfold F.
  rewrite (sumn_change m (fun r => nz al1 r * Y r * kf r i) (fun r => nz al2 r * Y r * kf r i) i2 H2).
  - rewrite (sumn_change m (fun r => nz al r * Y r * kf r i) (fun r => nz al1 r * Y r * kf r i) i1 H1).
    + rewrite (nz_upd_same _ _ _ _ U1), (nz_upd_same _ _ _ _ U2), (nz_upd_other _ _ _ _ _ U1 N). ring.
    + intros k _ Nk. rewrite (nz_upd_other _ _ _ _ _ U1); auto.
  - intros k _ Nk. rewrite (nz_upd_other _ _ _ _ _ U2); auto.
Qed.
Lemma feasible_change al al1 al2 i1 i2 n1 n2 : length al = m -> i1 <> i2 -> (i1 < m)%nat -> (i2 < m)%nat -> feasible al ->
  upd i1 (fun _ => n1) al = Some al1 -> upd i2 (fun _ => n2) al1 = Some al2 ->
  0 <= n1 <= C -> 0 <= n2 <= C -> (n1 - nz al i1) * Y i1 + (n2 - nz al i2) * Y i2 = 0 -> feasible al2.
Proof.
  intros L N H1 H2 [B S] U1 U2 N1 N2 E. split.
  - intros i Hi. destruct (Nat.eq_dec i2 i) as [<-|]; [rewrite (nz_upd_same _ _ _ _ U2); auto|]. rewrite (nz_upd_other _ _ _ _ _ U2) by auto.
    destruct (Nat.eq_dec i1 i) as [<-|]; [rewrite (nz_upd_same _ _ _ _ U1); auto|]. rewrite (nz_upd_other _ _ _ _ _ U1) by auto. auto.
  - rewrite (sumn_change m (fun r => nz al1 r * Y r) (fun r => nz al2 r * Y r) i2 H2).
    + rewrite (sumn_change m (fun r => nz al r * Y r) (fun r => nz al1 r * Y r) i1 H1).
      * rewrite (nz_upd_same _ _ _ _ U1), (nz_upd_same _ _ _ _ U2), (nz_upd_other _ _ _ _ _ U1 N). lra.
      * intros k _ Nk. rewrite (nz_upd_other _ _ _ _ _ U1); auto.
    + intros k _ Nk. rewrite (nz_upd_other _ _ _ _ _ U2); auto.
Qed.

(** The errors along the list. *)
Lemma refresh_ok s l i1 i2 : struct s l -> supp s l -> feasible (sm_alpha s) ->
  exists s', smo_refresh C d K s i1 i2 = Ok s' /\ struct s' l /\ sm_alpha s' = sm_alpha s /\ sm_bias s' = sm_bias s /\ sm_head s' = sm_head s /\
    (forall i, (i < m)%nat -> i <> i1 -> i <> i2 -> 0 < nz (sm_alpha s) i -> nz (sm_alpha s) i < C -> ld_err (ldn (sm_ld s') i) = F (sm_alpha s) (sm_bias s) i - Y i).
Proof.
  intros S SU FE. unfold smo_refresh. rewrite (nodes_ok s l S). cbn [obind].
  set (P := fun (done : list nat) (t : smo) => struct t l /\ sm_alpha t = sm_alpha s /\ sm_bias t = sm_bias s /\ sm_head t = sm_head s /\
     forall i, In i done -> (i < m)%nat -> i <> i1 -> i <> i2 -> 0 < nz (sm_alpha s) i -> nz (sm_alpha s) i < C -> ld_err (ldn (sm_ld t) i) = F (sm_alpha s) (sm_bias s) i - Y i).
  assert (forall todo done t, (forall i, In i todo -> (i < m)%nat) -> P done t -> exists t', ofold (fun s i =>
    let* a := vget (sm_alpha s) i in
    if negb (Nat.eqb i i1) && negb (Nat.eqb i i2) then
      if Rlt_dec a C then
        let* f := smo_function d K s i in let* y := label d i in
        let* ld := vupd i (set_err (f - y)) (sm_ld s) in Ok (with_ld s ld)
      else Ok s
    else Ok s) todo t = Ok t' /\ P (rev todo ++ done) t') as G.
  { induction todo as [|i r IH]; intros done t HL PT; [exists t; auto|]. cbn [ofold]. pose proof (HL i (or_introl eq_refl)) as Hi. destruct PT as (S1 & A1 & B1 & D1 & E1).
    rewrite vget_nz by (rewrite (st_al _ _ S1); auto). cbn [obind rev]. rewrite <- app_assoc. cbn [app].
    assert (forall t', P (i :: done) t' -> exists t'', ofold (fun s i =>
    let* a := vget (sm_alpha s) i in
    if negb (Nat.eqb i i1) && negb (Nat.eqb i i2) then
      if Rlt_dec a C then
        let* f := smo_function d K s i in let* y := label d i in
        let* ld := vupd i (set_err (f - y)) (sm_ld s) in Ok (with_ld s ld)
      else Ok s
    else Ok s) r t' = Ok t'' /\ P (rev r ++ i :: done) t'') as IH' by (intros; apply IH; auto; intros; apply HL; right; auto).
    assert (i = i1 \/ i = i2 \/ ~ nz (sm_alpha t) i < C -> P (i :: done) t) as Skip.
    { intro Q. unfold P. split; [auto|split; [auto|split; [auto|split; [auto|]]]]. intros j [Ej|Ij] Hj M1 M2 P1 P2; [subst j; rewrite A1 in Q; tauto|auto]. }
    destruct (Nat.eqb_spec i i1) as [E|N1]; cbn [negb andb obind]; [apply IH', Skip; auto|].
    destruct (Nat.eqb_spec i i2) as [E|N2]; cbn [negb andb obind]; [apply IH', Skip; auto|].
    destruct (Rlt_dec _ C) as [LC|LC]; cbn [obind]; [|apply IH', Skip; auto].
    rewrite (function_ok t l i S1); [|intros j Hj; rewrite A1; apply SU; auto|intros j Hj; rewrite A1; apply FE; auto|auto]. cbn [obind]. rewrite label_ok by auto. cbn [obind].
    destruct (vupd_lt i (set_err (F (sm_alpha t) (sm_bias t) i - Y i)) (sm_ld t)) as (ld & U & ->); [rewrite (st_ld _ _ S1); auto|]. cbn [obind]. apply IH'.
    split; [|split; [auto|split; [auto|split; [auto|]]]].
    - apply struct_ld; auto; [rewrite (upd_length _ _ _ _ U); apply S1|]. intros j Hj. destruct (Nat.eq_dec i j) as [<-|Nj]; [rewrite (ldn_upd_same _ _ _ _ U); reflexivity|rewrite (ldn_upd_other _ _ _ _ _ U Nj); auto].
    - intros j Ij Hj M1 M2 P1 P2. cbn [with_ld sm_ld]. destruct (Nat.eq_dec i j) as [<-|Nj]; [rewrite (ldn_upd_same _ _ _ _ U), A1, B1; reflexivity|]. rewrite (ldn_upd_other _ _ _ _ _ U Nj).
      destruct Ij as [|Ij]; [contradiction|auto]. }
  destruct (G (map snd l) [] s) as (s' & E & S' & A & B & D & X).
  - intros i Hi. apply (struct_lt s l i S Hi).
  - split; [auto|split; [auto|split; [auto|split; [auto|]]]]. intros i [].
  - exists s'. rewrite E. split; auto. split; auto. split; auto. split; auto. split; auto. intros i Hi N1 N2 P1 P2. apply X; auto. rewrite app_nil_r, <- in_rev. apply SU; auto.
Qed.
(** The dual objective. *)
Definition G (al : vec) (i : nat) : R := sumn m (fun r => nz al r * Y r * kf r i).
Definition W (al : vec) : R := sumn m (fun i => nz al i) - / 2 * sumn m (fun i => nz al i * Y i * G al i).

Lemma G_change al al1 al2 i1 i2 n1 n2 i : length al = m -> i1 <> i2 -> (i1 < m)%nat -> (i2 < m)%nat -> (i < m)%nat ->
  upd i1 (fun _ => n1) al = Some al1 -> upd i2 (fun _ => n2) al1 = Some al2 ->
  G al2 i = G al i + (n1 - nz al i1) * Y i1 * kf i1 i + (n2 - nz al i2) * Y i2 * kf i2 i.
Proof.
  intros L N H1 H2 Hi U1 U2. pose proof (F_change al al1 al2 0 0 i1 i2 n1 n2 i L N H1 H2 Hi U1 U2) as E. unfold F in E. unfold G. lra.
Qed.
Lemma two_sum al al1 al2 i1 i2 n1 n2 f : i1 <> i2 -> (i1 < m)%nat -> (i2 < m)%nat ->
  upd i1 (fun _ => n1) al = Some al1 -> upd i2 (fun _ => n2) al1 = Some al2 ->
  sumn m (fun i => nz al2 i * f i) = sumn m (fun i => nz al i * f i) + (n1 - nz al i1) * f i1 + (n2 - nz al i2) * f i2.
Proof.
  intros N H1 H2 U1 U2.
  rewrite (sumn_change m (fun r => nz al1 r * f r) (fun r => nz al2 r * f r) i2 H2).
  - rewrite (sumn_change m (fun r => nz al r * f r) (fun r => nz al1 r * f r) i1 H1).
    + rewrite (nz_upd_same _ _ _ _ U1), (nz_upd_same _ _ _ _ U2), (nz_upd_other _ _ _ _ _ U1 N). ring.
    + intros k _ Nk. rewrite (nz_upd_other _ _ _ _ _ U1); auto.
  - intros k _ Nk. rewrite (nz_upd_other _ _ _ _ _ U2); auto.
Qed.
Lemma W_change al al1 al2 i1 i2 n1 n2 : length al = m -> i1 <> i2 -> (i1 < m)%nat -> (i2 < m)%nat ->
  upd i1 (fun _ => n1) al = Some al1 -> upd i2 (fun _ => n2) al1 = Some al2 ->
  let c1 := (n1 - nz al i1) * Y i1 in let c2 := (n2 - nz al i2) * Y i2 in
  W al2 = W al + (n1 - nz al i1) + (n2 - nz al i2) - c1 * G al i1 - c2 * G al i2 - / 2 * (c1 * c1 * kf i1 i1 + 2 * c1 * c2 * kf i1 i2 + c2 * c2 * kf i2 i2).
Proof.
  intros L N H1 H2 U1 U2 c1 c2. unfold W.
  pose proof (two_sum al al1 al2 i1 i2 n1 n2 (fun _ => 1) N H1 H2 U1 U2) as E1. cbv beta in E1.
  rewrite (sumn_ext m (fun i => nz al2 i * 1) (fun i => nz al2 i)) in E1 by (intros; ring). rewrite (sumn_ext m (fun i => nz al i * 1) (fun i => nz al i)) in E1 by (intros; ring). rewrite E1.
  rewrite (sumn_ext m (fun i => nz al2 i * Y i * G al2 i) (fun i => nz al2 i * (Y i * G al2 i))) by (intros; ring).
  rewrite (two_sum al al1 al2 i1 i2 n1 n2 (fun i => Y i * G al2 i) N H1 H2 U1 U2). cbv beta.
  rewrite (sumn_ext m (fun i => nz al i * (Y i * G al2 i)) (fun i => nz al i * Y i * G al i + (c1 * (nz al i * Y i * kf i i1) + c2 * (nz al i * Y i * kf i i2)))).
  - rewrite !sumn_add, !sumn_scal. fold (G al i1). fold (G al i2).
    rewrite (G_change al al1 al2 i1 i2 n1 n2 i1 L N H1 H2 H1 U1 U2), (G_change al al1 al2 i1 i2 n1 n2 i2 L N H1 H2 H2 U1 U2). rewrite (Ksym i2 i1) by auto. unfold c1, c2. field.
  - intros i Hi. rewrite (G_change al al1 al2 i1 i2 n1 n2 i L N H1 H2 Hi U1 U2). rewrite (Ksym i1 i), (Ksym i2 i) by auto. fold c1 c2. ring.
Qed.

(** No direction between two examples along which the kernel is concave upwards: eta <= 0. *)
Definition eta_neg : Prop := forall i j, (i < m)%nat -> (j < m)%nat -> 2 * kf i j - kf i i - kf j j <= 0.

Lemma alpha2_gain eta y2 e1 e2 a2 lo hi : y2 * y2 = 1 -> eta <= 0 -> lo <= a2 <= hi ->
  let n := smo_alpha2 EPS eta y2 e1 e2 a2 lo hi in 0 <= - (y2 * (n - a2)) * (e2 - e1) + / 2 * (n - a2) * (n - a2) * eta.
Proof.
  intros Yq En H n. unfold n, smo_alpha2. destruct (Rlt_dec eta 0) as [L|L].
  - set (q := y2 * (e2 - e1) / eta). assert (q * eta = y2 * (e2 - e1)) as Q by (unfold q; field; lra).
    assert (forall x, - (y2 * x) * (e2 - e1) + / 2 * x * x * eta = - eta * (x * (q - x / 2))) as A by (intro x; transitivity (- x * (y2 * (e2 - e1)) + / 2 * x * x * eta); [ring|rewrite <- Q; field]).
    rewrite A. apply Rmult_le_pos; [lra|]. destruct (Rlt_dec _ lo); [|destruct (Rlt_dec hi _)].
    + replace ((lo - a2) * (q - (lo - a2) / 2)) with ((a2 - lo) * ((lo - a2) / 2 - q)) by ring. apply Rmult_le_pos; lra.
    + apply Rmult_le_pos; lra.
    + replace ((a2 + q - a2) * (q - (a2 + q - a2) / 2)) with (q * q / 2) by field. pose proof (Rle_0_sqr q). unfold Rsqr in *. lra.
  - assert (eta = 0) as -> by lra. replace (0 / 2) with 0 by field. replace (0 * lo * lo) with 0 by ring. replace (0 * hi * hi) with 0 by ring.
    destruct (Rlt_dec _ _); [lra|]. destruct (Rlt_dec _ _); [lra|]. replace (a2 - a2) with 0 by ring. lra.
Qed.

Definition mono (s s' : smo) : Prop := forall j, ld_done (ldn (sm_ld s) j) = true -> ld_done (ldn (sm_ld s') j) = true.
(** The pair (i1, i2) cannot make progress. *)
Definition stuck (al : vec) (b : R) (i1 i2 : nat) : Prop :=
  let e1 := F al b i1 - Y i1 in let e2 := F al b i2 - Y i2 in
  let a1 := nz al i1 in let a2 := nz al i2 in
  let (lo, hi) := smo_bounds C (p_y (pt d i1) * p_y (pt d i2)) a1 a2 in
  let n2 := smo_alpha2 EPS (2 * kf i1 i2 - kf i1 i1 - kf i2 i2) (Y i2) e1 e2 a2 lo hi in
  lo = hi \/ Rabs (n2 - a2) < EPS * (n2 + a2 + EPS).
Definition tried (i1 : nat) (s s' : smo) : Prop :=
  forall j, ld_done (ldn (sm_ld s') j) = true -> ld_done (ldn (sm_ld s) j) = true \/ stuck (sm_alpha s) (sm_bias s) i1 j.
(** All examples coincide in feature space. *)
Definition flat : Prop := forall i j, (i < m)%nat -> (j < m)%nat -> 2 * kf i j - kf i i - kf j j = 0.
Definition step_ok (i1 : nat) (s : smo) (r : outcome (smo * bool)) : Prop :=
  exists s' b, r = Ok (s', b) /\ inv s' /\ sm_head s' = sm_head s /\ (eta_neg -> W (sm_alpha s) <= W (sm_alpha s')) /\
    (b = false -> sm_alpha s' = sm_alpha s /\ sm_bias s' = sm_bias s /\ sm_heap s' = sm_heap s /\ mono s s' /\ tried i1 s s') /\ (flat -> b = false).

Lemma done_inv s l ld : struct s l -> supp s l -> feasible (sm_alpha s) -> cached s -> length ld = m ->
  (forall i, (i < m)%nat -> ld_sv (ldn ld i) = ld_sv (ldn (sm_ld s) i)) -> (forall i, (i < m)%nat -> ld_err (ldn ld i) = ld_err (ldn (sm_ld s) i)) ->
  struct (with_ld s ld) l /\ supp (with_ld s ld) l /\ feasible (sm_alpha (with_ld s ld)) /\ cached (with_ld s ld).
Proof.
  intros S SU FE CA L E1 E2. split; [apply struct_ld; auto|]. split; auto. split; auto. intros i Hi P1 P2. cbn [with_ld sm_ld sm_alpha sm_bias] in *. rewrite E2 by auto. apply CA; auto.
Qed.
Lemma set_err_upd s l i e : struct s l -> (i < m)%nat -> exists ld, vupd i (set_err e) (sm_ld s) = Ok ld /\ struct (with_ld s ld) l /\
  ld_err (ldn ld i) = e /\ (forall j, j <> i -> ld_err (ldn ld j) = ld_err (ldn (sm_ld s) j)).
Proof.
  intros S Hi. destruct (vupd_lt i (set_err e) (sm_ld s)) as (ld & U & ->); [rewrite (st_ld _ _ S); auto|]. exists ld. split; auto. split; [|split].
  - apply struct_ld; auto; [rewrite (upd_length _ _ _ _ U); apply S|]. intros j Hj. destruct (Nat.eq_dec i j) as [<-|Nj]; [rewrite (ldn_upd_same _ _ _ _ U); reflexivity|rewrite (ldn_upd_other _ _ _ _ _ U Nj); auto].
  - rewrite (ldn_upd_same _ _ _ _ U). reflexivity.
  - intros j Nj. rewrite (ldn_upd_other _ _ _ _ _ U); auto.
Qed.

Lemma take_step_ok s i1 i2 : inv s -> (i1 < m)%nat -> (i2 < m)%nat -> i1 <> i2 -> step_ok i1 s (take_step C EPS d K s i1 i2) /\
  forall s', take_step C EPS d K s i1 i2 = Ok (s', false) -> ld_done (ldn (sm_ld s') i2) = true.
Proof.
  intros (l & S & SU & FE & CA) H1 H2 N. unfold take_step.
  destruct (vupd_lt i2 (set_done true) (sm_ld s)) as (ld & U & ->); [rewrite (st_ld _ _ S); auto|]. cbn [obind].
  destruct (done_inv s l ld S SU FE CA) as (S0 & SU0 & FE0 & CA0).
  { rewrite (upd_length _ _ _ _ U). apply S. }
  { intros j Hj. destruct (Nat.eq_dec i2 j) as [<-|Nj]; [rewrite (ldn_upd_same _ _ _ _ U); reflexivity|rewrite (ldn_upd_other _ _ _ _ _ U Nj); auto]. }
  { intros j Hj. destruct (Nat.eq_dec i2 j) as [<-|Nj]; [rewrite (ldn_upd_same _ _ _ _ U); reflexivity|rewrite (ldn_upd_other _ _ _ _ _ U Nj); auto]. }
  match goal with |- step_ok i1 s ?r /\ _ => enough (step_ok i1 s r /\ forall s', r = Ok (s', false) -> s' = with_ld s ld) as [E1 E2] end.
  { split; auto. intros s' E. apply E2 in E. subst s'. cbn [with_ld sm_ld]. rewrite (ldn_upd_same _ _ _ _ U). reflexivity. }
  assert (stuck (sm_alpha s) (sm_bias s) i1 i2 -> step_ok i1 s (Ok (with_ld s ld, false)) /\ forall s', Ok (with_ld s ld, false) = Ok (s', false) -> s' = with_ld s ld) as Fail.
  { intro ST. split; [|intros s' E; injection E as <-; auto].
    exists (with_ld s ld), false. split; auto. split; [exists l; auto|]. split; auto. split; [intros _; right; auto|]. split; [|auto]. intros _. split; auto. split; auto. split; auto. split.
    - intros j Dj. cbn [with_ld sm_ld]. destruct (Nat.eq_dec i2 j) as [<-|Nj]; [rewrite (ldn_upd_same _ _ _ _ U); reflexivity|rewrite (ldn_upd_other _ _ _ _ _ U Nj); auto].
    - intros j Dj. cbn [with_ld sm_ld] in Dj. destruct (Nat.eq_dec i2 j) as [<-|Nj]; [right; auto|rewrite (ldn_upd_other _ _ _ _ _ U Nj) in Dj; auto]. }
  unfold stuck in Fail. fold (Y i1) (Y i2) in Fail. change (sm_alpha s) with (sm_alpha (with_ld s ld)) in Fail. change (sm_bias s) with (sm_bias (with_ld s ld)) in Fail.
  set (s0 := with_ld s ld) in *. rewrite !vget_pt by auto. cbn [obind]. rewrite !vget_nz by (rewrite (st_al _ _ S0); auto). cbn [obind].
  rewrite !(error_ok s0 l) by auto. cbn [obind]. fold (Y i1) (Y i2). set (a1 := nz (sm_alpha s0) i1). set (a2 := nz (sm_alpha s0) i2).
  set (e1 := F (sm_alpha s0) (sm_bias s0) i1 - Y i1). set (e2 := F (sm_alpha s0) (sm_bias s0) i2 - Y i2).
  set (s12 := (p_y (pt d i1) * p_y (pt d i2))%Z).
  assert (IZR s12 = Y i1 * Y i2) as ES by (unfold s12; rewrite mult_IZR; reflexivity).
  assert (s12 = 1%Z \/ s12 = (-1)%Z) as HS.
  { unfold s12. destruct (HY (pt d i1) (nth_In _ _ H1)) as [-> | ->], (HY (pt d i2) (nth_In _ _ H2)) as [-> | ->]; auto. }
  cbv zeta in Fail. fold a1 a2 s12 e1 e2 in Fail. destruct (smo_bounds C s12 a1 a2) as [lo hi] eqn:BD.
  destruct (bounds_ok s12 a1 a2 lo hi HS (proj1 FE0 _ H1) (proj1 FE0 _ H2) BD) as (Ba & Bl & Bh & B1 & Bx & By).
  destruct (Req_EM_T lo hi) as [|NE]; [apply Fail; auto|]. rewrite !HK by auto. cbn [obind].
  set (eta := 2 * kf i1 i2 - kf i1 i1 - kf i2 i2). set (n2 := smo_alpha2 EPS eta (Y i2) e1 e2 a2 lo hi).
  destruct (alpha2_ok eta (Y i2) e1 e2 a2 lo hi Ba) as [R2 O2]. fold n2 in R2, O2.
  destruct (Rlt_dec (Rabs (n2 - a2)) (EPS * (n2 + a2 + EPS))) as [|NS]; [apply Fail; auto|].
  assert (n2 <> a2) as NQ.
  { intro Q. apply NS. rewrite Q. replace (a2 - a2) with 0 by ring. rewrite Rabs_R0. apply Rmult_lt_0_compat; auto. lra. }
  pose proof (B1 n2 R2) as R1. set (n1 := a1 - IZR s12 * (n2 - a2)) in *.
  assert (smo_alpha1 C s12 a1 a2 n2 = (n1, n2)) as ->.
  { unfold smo_alpha1. fold n1. destruct (Rlt_dec n1 0); [lra|]. destruct (Rlt_dec C n1); [lra|]. auto. }
  destruct (vupd_lt i1 (fun _ => n1) (sm_alpha s0)) as (al1 & U1 & ->); [rewrite (st_al _ _ S0); auto|]. cbn [obind].
  destruct (vupd_lt i2 (fun _ => n2) al1) as (al2 & U2 & ->); [rewrite (upd_length _ _ _ _ U1), (st_al _ _ S0); auto|]. cbn [obind].
  pose proof (Ysq i1 H1) as Y1. pose proof (Ysq i2 H2) as Y2.
  assert ((n1 - a1) * Y i1 = - ((n2 - a2) * Y i2)) as T12.
  { unfold n1. rewrite ES. transitivity (- (Y i1 * Y i1) * (Y i2 * (n2 - a2))); [ring|]. rewrite Y1. ring. }
  assert (feasible al2) as FE2.
  { apply (feasible_change (sm_alpha s0) al1 al2 i1 i2 n1 n2); auto; [apply S0|lra|]. fold a1 a2. lra. }
  assert (struct (with_alpha s0 al2) l) as Sa.
  { destruct S0; constructor; auto. cbn. rewrite (upd_length _ _ _ _ U2), (upd_length _ _ _ _ U1). auto. }
  destruct (sv_update_ok (with_alpha s0 al2) l i1 n1 Sa H1 (proj1 R1)) as (s1 & l1 & -> & S1 & A1 & Bi1 & Hd1 & Er1 & In1 & Is1). cbn [obind].
  destruct (sv_update_ok s1 l1 i2 n2 S1 H2) as (s2 & l2 & -> & S2 & A2 & Bi2 & Hd2 & Er2 & In2 & Is2); [lra|]. cbn [obind].
  set (b' := smo_bias C (sm_bias s0) (Y i1) (Y i2) e1 e2 a1 a2 n1 n2 (kf i1 i1) (kf i1 i2) (kf i2 i2)).
  assert (struct (with_bias s2 b') l2) as S3 by (destruct S2; constructor; auto).
  assert (sm_alpha s2 = al2) as EA by (rewrite A2, A1; reflexivity).
  assert (nz al2 i2 = n2) as V2 by (rewrite (nz_upd_same _ _ _ _ U2); auto).
  assert (nz al2 i1 = n1) as V1 by (rewrite (nz_upd_other _ _ _ _ _ U2) by auto; rewrite (nz_upd_same _ _ _ _ U1); auto).
  assert (forall j, j <> i1 -> j <> i2 -> nz al2 j = nz (sm_alpha s0) j) as V3.
  { intros j J1 J2. rewrite (nz_upd_other _ _ _ _ _ U2) by auto. rewrite (nz_upd_other _ _ _ _ _ U1) by auto. auto. }
  assert (supp (with_bias s2 b') l2) as SU3.
  { intros j Hj. cbn [with_bias sm_alpha]. rewrite EA. destruct (Nat.eq_dec j i2) as [->|J2]; [rewrite V2; auto|]. rewrite (In2 j J2).
    destruct (Nat.eq_dec j i1) as [->|J1]; [rewrite V1; auto|]. rewrite (In1 j J1), V3 by auto. apply SU0. auto. }
  assert (feasible (sm_alpha (with_bias s2 b'))) as FE3 by (cbn [with_bias sm_alpha]; rewrite EA; auto).
  destruct (refresh_ok (with_bias s2 b') l2 i1 i2 S3 SU3 FE3) as (s4 & -> & S4 & A4 & B4 & Hd4 & X4). cbn [obind]. cbn [with_bias sm_alpha sm_bias sm_head] in A4, B4, Hd4, X4. rewrite EA in A4, X4.
  destruct (set_err_upd s4 l2 i1 0 S4 H1) as (l3 & -> & S5 & E5 & O5). cbn [obind].
  destruct (set_err_upd (with_ld s4 l3) l2 i2 0 S5 H2) as (l4 & EL & S6 & E6 & O6). cbn [with_ld sm_ld] in EL, O6. rewrite EL. cbn [obind].
  assert (with_ld (with_ld s4 l3) l4 = with_ld s4 l4) as EW by reflexivity. rewrite EW in S6.
  split; [|intros s' E; discriminate]. exists (with_ld s4 l4), true. split; auto. split; [|split; [|split; [|split; [discriminate|]]]].
  - exists l2. split; auto. split; [|split].
    + intros j Hj. cbn [with_ld sm_alpha]. rewrite A4. rewrite <- EA. apply SU3. auto.
    + cbn [with_ld sm_alpha]. rewrite A4. auto.
    + intros j Hj P1 P2. cbn [with_ld sm_alpha sm_ld sm_bias] in *. rewrite A4 in *. rewrite B4.
      assert (F al2 b' i1 = F (sm_alpha s0) (sm_bias s0) i1 + (n1 - a1) * Y i1 * kf i1 i1 + (n2 - a2) * Y i2 * kf i1 i2 + (b' - sm_bias s0)) as F1.
      { rewrite (F_change (sm_alpha s0) al1 al2 (sm_bias s0) b' i1 i2 n1 n2 i1); auto; [|apply S0]. fold a1 a2. rewrite (Ksym i2 i1) by auto. ring. }
      assert (F al2 b' i2 = F (sm_alpha s0) (sm_bias s0) i2 + (n1 - a1) * Y i1 * kf i1 i2 + (n2 - a2) * Y i2 * kf i2 i2 + (b' - sm_bias s0)) as F2.
      { exact (F_change (sm_alpha s0) al1 al2 (sm_bias s0) b' i1 i2 n1 n2 i2 (st_al _ _ S0) N H1 H2 H2 U1 U2). }
      destruct (Nat.eq_dec j i2) as [->|J2]; [|destruct (Nat.eq_dec j i1) as [->|J1]].
      * rewrite E6. rewrite V2 in P1, P2. rewrite F2. unfold b', smo_bias. fold (Y i1). destruct (Rlt_dec 0 n1) as [Q1|Q1]; [destruct (Rlt_dec n1 C) as [Q2|Q2]|].
        -- (* both interior: the step was not clipped *)
           destruct O2 as [O2|[O2|[O2|[En O2]]]].
           ++ exfalso. rewrite <- O2 in Bx. destruct (Bx P1) as [Z|Z]; unfold n1 in Q1, Q2; lra.
           ++ exfalso. rewrite <- O2 in By. destruct (By P2) as [Z|Z]; unfold n1 in Q1, Q2; lra.
           ++ contradiction.
           ++ assert ((n2 - a2) * Y i2 * eta = e2 - e1) as D.
              { rewrite O2. transitivity (Y i2 * Y i2 * (e2 - e1)); [field; lra|rewrite Y2; ring]. }
              rewrite (Rmult_comm (Y i1) (n1 - a1)), (Rmult_comm (Y i2) (n2 - a2)), T12. unfold eta, e2 in D. unfold e1. unfold e1 in D. set (t := (n2 - a2) * Y i2) in *. clearbody t. lra.
        -- destruct (Rlt_dec 0 n2); [|contradiction]. destruct (Rlt_dec n2 C); [|contradiction]. unfold e2. ring.
        -- destruct (Rlt_dec 0 n2); [|contradiction]. destruct (Rlt_dec n2 C); [|contradiction]. unfold e2. ring.
      * rewrite O6 by auto. rewrite E5. rewrite V1 in P1, P2. rewrite F1. unfold b', smo_bias. destruct (Rlt_dec 0 n1); [|contradiction]. destruct (Rlt_dec n1 C); [|contradiction]. unfold e1. ring.
      * rewrite O6, O5 by auto. apply X4; auto.
  - cbn [with_ld sm_head]. rewrite Hd4, Hd2, Hd1. reflexivity.
  - intro EN. cbn [with_ld sm_alpha]. rewrite A4. change (sm_alpha s) with (sm_alpha s0).
    pose proof (W_change (sm_alpha s0) al1 al2 i1 i2 n1 n2 (st_al _ _ S0) N H1 H2 U1 U2) as D. cbv zeta in D. fold a1 a2 in D. rewrite D. rewrite T12.
    pose proof (alpha2_gain eta (Y i2) e1 e2 a2 lo hi Y2 (EN _ _ H1 H2) Ba) as GN. cbv zeta in GN. fold n2 in GN. unfold F in *.
    unfold e1, e2, F in GN. fold (G (sm_alpha s0) i1) in GN. fold (G (sm_alpha s0) i2) in GN.
    set (g1 := G (sm_alpha s0) i1) in *. set (g2 := G (sm_alpha s0) i2) in *. set (x := n2 - a2) in *.
    assert (n1 - a1 = - (x * Y i2 * Y i1)) as Q by (unfold n1, x; rewrite ES; ring). rewrite Q.
    assert (x * Y i2 * (x * Y i2) = x * x) as XX by (transitivity (x * x * (Y i2 * Y i2)); [ring|rewrite Y2; ring]).
    replace (- (x * Y i2) * - (x * Y i2) * kf i1 i1 + 2 * - (x * Y i2) * (x * Y i2) * kf i1 i2 + x * Y i2 * (x * Y i2) * kf i2 i2) with (- (x * Y i2 * (x * Y i2)) * eta) by (unfold eta; ring).
    rewrite XX. assert (x = x * Y i2 * Y i2) as XY by (transitivity (x * (Y i2 * Y i2)); [rewrite Y2; ring|ring]).
    assert (- (Y i2 * x) * (g2 + sm_bias s0 - Y i2 - (g1 + sm_bias s0 - Y i1)) = - (x * Y i2 * (g2 - g1)) + x * Y i2 * Y i2 - x * Y i2 * Y i1) as EX by ring. rewrite EX in GN. rewrite <- XY in GN. lra.
  - intro FL. exfalso. apply NQ. unfold n2, eta. rewrite (FL i1 i2 H1 H2). apply alpha2_flat.
Qed.
Lemma step_trans i1 s s' r : sm_alpha s' = sm_alpha s -> sm_bias s' = sm_bias s -> sm_heap s' = sm_heap s -> sm_head s' = sm_head s -> mono s s' -> tried i1 s s' ->
  step_ok i1 s' r -> step_ok i1 s r.
Proof.
  intros A B H D M T (s2 & b & E & I & Hd & Wm & Fl & Ft). exists s2, b. split; auto. split; auto. split; [congruence|]. split; [rewrite A in Wm; auto|]. split; [|auto].
  intro Eb. destruct (Fl Eb) as (A2 & B2 & H2 & M2 & T2). split; [congruence|]. split; [congruence|]. split; [congruence|]. split; [intros j Dj; apply M2, M; auto|].
  intros j Dj. destruct (T2 j Dj) as [Q|Q]; auto. right. rewrite A, B in Q. auto.
Qed.
Lemma step_refl i1 s : inv s -> step_ok i1 s (Ok (s, false)).
Proof. intro I. exists s, false. split; auto. split; auto. split; auto. split; [intros _; right; auto|]. split; [|auto]. intros _. repeat split; auto; intros j; auto. Qed.

Lemma inv_struct s : inv s -> exists l, struct s l.
Proof. intros (l & S & _). eauto. Qed.

Lemma max_errors_ok s i1 e1 : inv s -> (i1 < m)%nat -> ld_done (ldn (sm_ld s) i1) = true -> step_ok i1 s (max_errors C EPS d K s i1 e1).
Proof.
  intros I H1 D1. destruct (inv_struct s I) as (l & S). unfold max_errors. rewrite (nodes_ok s l S). cbn [obind].
  match goal with |- context [ofold ?f (map snd l) ?s0] =>
    assert (exists acc, ofold f (map snd l) s0 = Ok acc /\ (forall k, snd acc = Some k -> (k < m)%nat /\ ld_done (ldn (sm_ld s) k) = false)) as (acc & -> & HA) end.
  { apply (ofold_list _ (fun _ (acc : R * option nat) => forall k, snd acc = Some k -> (k < m)%nat /\ ld_done (ldn (sm_ld s) k) = false)); [intros k; discriminate|].
    intros dn k rs acc El HA. assert (In k (map snd l)) as Hk by (rewrite El, in_app_iff; right; left; auto). pose proof (struct_lt s l k S Hk) as Lk. rewrite vget_ldn by (rewrite (st_ld _ _ S); auto). cbn [obind]. rewrite vget_nz by (rewrite (st_al _ _ S); auto). cbn [obind].
    destruct (ld_done (ldn (sm_ld s) k)) eqn:Dk; cbn [negb]; [eauto|]. destruct (Rlt_dec _ C); [|eauto]. destruct (Rlt_dec _ _); [|eauto]. eexists. split; [reflexivity|]. cbn. intros k' E. injection E as <-. auto. }
  cbn [obind]. destruct (snd acc) as [k|]; [|apply step_refl; auto]. destruct (HA k eq_refl) as [Lk Dk]. apply take_step_ok; auto. intros ->. congruence.
Qed.
Lemma try_all_ok nb i1 : forall l s, inv s -> (i1 < m)%nat -> ld_done (ldn (sm_ld s) i1) = true -> (forall k, In k l -> (k < m)%nat) ->
  step_ok i1 s (try_all C EPS d K nb i1 l s) /\
  (nb = false -> forall s', try_all C EPS d K nb i1 l s = Ok (s', false) -> forall k, In k l -> ld_done (ldn (sm_ld s') k) = true).
Proof.
  induction l as [|k r IH]; intros s I H1 D1 HL; cbn [try_all]; [split; [apply step_refl; auto|intros _ s' _ k []]|].
  destruct (inv_struct s I) as (l & S). pose proof (HL k (or_introl eq_refl)) as Lk. rewrite vget_ldn by (rewrite (st_ld _ _ S); auto). cbn [obind]. rewrite vget_nz by (rewrite (st_al _ _ S); auto). cbn [obind].
  assert (forall j, In j r -> (j < m)%nat) as HL' by (intros; apply HL; right; auto).
  assert (forall t s', inv t -> ld_done (ldn (sm_ld t) i1) = true -> ld_done (ldn (sm_ld t) k) = true -> try_all C EPS d K nb i1 r t = Ok (s', false) -> ld_done (ldn (sm_ld s') k) = true) as Keep.
  { intros t s' It Dt Dk E. destruct (proj1 (IH t It H1 Dt HL')) as (s2 & b & E2 & _ & _ & _ & Fl & _). rewrite E in E2. injection E2 as <- <-. destruct (Fl eq_refl) as (_ & _ & _ & M & _). apply M. auto. }
  destruct (ld_done (ldn (sm_ld s) k)) eqn:Dk; cbn [negb andb].
  - destruct (IH s I H1 D1 HL') as [A B]. split; auto. intros Nb s' E j [<-|Hj]; [|apply (B Nb s' E j Hj)]. apply (Keep s s'); auto.
  - destruct (negb nb || (if Rlt_dec (nz (sm_alpha s) k) C then true else false)) eqn:Q.
    + destruct (take_step_ok s i1 k I H1 Lk) as [TS TD]; [intros ->; congruence|]. pose proof TS as (s1 & b & E & I1 & Hd & Wm & Fl & Ft). rewrite E in *. cbn [obind fst snd]. destruct b.
      * split; auto. intros _ s' Es. discriminate.
      * destruct (Fl eq_refl) as (A & B & Hp & M & T). destruct (IH s1 I1 H1 (M _ D1) HL') as [X1 X2]. split; [apply (step_trans i1 s s1); auto|].
        intros Nb s' Es j [<-|Hj]; [|apply (X2 Nb s' Es j Hj)]. apply (Keep s1 s'); auto.
    + destruct (IH s I H1 D1 HL') as [A B]. split; auto. intros -> s' E j Hj. discriminate.
Qed.
(** Every position is visited by the scan from a random start. *)
Lemma scan_all start k : (k < m)%nat -> In k (map (fun k => Nat.modulo k m) (seq (Nat.modulo start m) m)).
Proof.
  intro Hk. pose proof (Nat.mod_upper_bound start m) as U. set (q := Nat.modulo start m) in *. apply in_map_iff.
  destruct (Nat.lt_ge_cases k q).
  - exists (k + m)%nat. split; [|apply in_seq; lia]. replace (k + m)%nat with (k + 1 * m)%nat by lia. rewrite Nat.mod_add by lia. apply Nat.mod_small. auto.
  - exists k. split; [apply Nat.mod_small; auto|apply in_seq; lia].
Qed.

(** Example [i] meets the optimality conditions within the tolerance. *)
Definition kkt (al : vec) (b : R) (i : nat) : Prop :=
  let r := Y i * (F al b i - Y i) in ~ (r < - TOL /\ nz al i < C) /\ ~ (TOL < r /\ 0 < nz al i).
Definition quiet (al : vec) (b : R) (i : nat) : Prop := kkt al b i \/ forall j, (j < m)%nat -> j <> i -> stuck al b i j.

Lemma examine_ok s i1 : inv s -> (i1 < m)%nat -> exists s' b, examine_example C TOL EPS rnd d K s i1 = Ok (s', b) /\ inv s' /\ sm_head s' = sm_head s /\
  (eta_neg -> W (sm_alpha s) <= W (sm_alpha s')) /\ (b = false -> sm_alpha s' = sm_alpha s /\ sm_bias s' = sm_bias s /\ quiet (sm_alpha s) (sm_bias s) i1) /\ (flat -> b = false) /\ (kkt (sm_alpha s) (sm_bias s) i1 -> b = false).
Proof.
  intros (l & S & SU & FE & CA) H1. unfold examine_example.
  assert (forall j, ldn (map (set_done false) (sm_ld s)) j = set_done false (ldn (sm_ld s) j)) as EM by (intro j; unfold ldn; exact (map_nth (set_done false) (sm_ld s) ld_fresh j)).
  destruct (vupd_lt i1 (set_done true) (map (set_done false) (sm_ld s))) as (ld & U & ->); [rewrite map_length, (st_ld _ _ S); auto|]. cbn [obind].
  destruct (done_inv s l ld S SU FE CA) as (S0 & SU0 & FE0 & CA0).
  { rewrite (upd_length _ _ _ _ U), map_length. apply S. }
  { intros j Hj. destruct (Nat.eq_dec i1 j) as [<-|Nj]; [rewrite (ldn_upd_same _ _ _ _ U), EM; reflexivity|rewrite (ldn_upd_other _ _ _ _ _ U Nj), EM; auto]. }
  { intros j Hj. destruct (Nat.eq_dec i1 j) as [<-|Nj]; [rewrite (ldn_upd_same _ _ _ _ U), EM; reflexivity|rewrite (ldn_upd_other _ _ _ _ _ U Nj), EM; auto]. }
  assert (ld_done (ldn (sm_ld (with_ld s ld)) i1) = true) as D1 by (cbn [with_ld sm_ld]; rewrite (ldn_upd_same _ _ _ _ U); reflexivity).
  assert (forall j, j <> i1 -> ld_done (ldn (sm_ld (with_ld s ld)) j) = false) as D2.
  { intros j Nj. cbn [with_ld sm_ld]. rewrite (ldn_upd_other _ _ _ _ _ U), EM by auto. reflexivity. }
  change (sm_alpha s) with (sm_alpha (with_ld s ld)). change (sm_bias s) with (sm_bias (with_ld s ld)). change (sm_head s) with (sm_head (with_ld s ld)).
  set (s0 := with_ld s ld) in *. assert (inv s0) as I0 by (exists l; auto). clearbody s0. clear U CA FE SU S EM.
  rewrite label_ok by auto. cbn [obind]. rewrite vget_nz by (rewrite (st_al _ _ S0); auto). cbn [obind]. rewrite (error_ok s0 l) by auto. cbn [obind].
  set (e1 := F (sm_alpha s0) (sm_bias s0) i1 - Y i1). set (a1 := nz (sm_alpha s0) i1).
  match goal with |- context [if ?g then _ else Ok (s0, false)] => destruct g eqn:GO end.
  - assert (forall r, step_ok i1 s0 r -> (forall s', r = Ok (s', false) -> forall k, (k < m)%nat -> ld_done (ldn (sm_ld s') k) = true) ->
      exists s' b, r = Ok (s', b) /\ inv s' /\ sm_head s' = sm_head s0 /\
      (eta_neg -> W (sm_alpha s0) <= W (sm_alpha s')) /\ (b = false -> sm_alpha s' = sm_alpha s0 /\ sm_bias s' = sm_bias s0 /\ quiet (sm_alpha s0) (sm_bias s0) i1) /\ (flat -> b = false) /\ (kkt (sm_alpha s0) (sm_bias s0) i1 -> b = false)) as Done.
    { intros r (s' & b & E & I & Hd & Wm & Fl & Ft) AllD. exists s', b. split; auto. split; auto. split; auto. split; auto. split; [|split; [auto|]].
      2:{ intros [K1 K2]. exfalso. fold e1 a1 in K1, K2. apply orb_true_iff in GO. destruct GO as [GO|GO].
          - destruct (Rlt_dec (Y i1 * e1) (- TOL)); [|discriminate]. destruct (Rlt_dec a1 C); [|discriminate]. apply K1. auto.
          - destruct (Rlt_dec TOL (Y i1 * e1)); [|discriminate]. destruct (Rlt_dec 0 a1); [|discriminate]. apply K2. auto. }
      intro Eb. destruct (Fl Eb) as (A & B & _ & _ & T). split; auto. split; auto.
      right. intros j Hj Nj. subst b. specialize (AllD s' E j Hj). destruct (T j AllD) as [Q|Q]; auto. rewrite D2 in Q by auto. discriminate. }
    pose proof (max_errors_ok s0 i1 e1 I0 H1 D1) as ME. apply Done; clear Done.
    + pose proof ME as (s1 & b1 & E1 & I1 & Hd1 & Wm1 & Fl1 & Ft1). rewrite E1 in *. cbn [obind fst snd]. destruct b1; [exact ME|]. destruct (Fl1 eq_refl) as (A1 & B1 & Hp1 & M1 & T1).
      apply (step_trans i1 s0 s1); auto. destruct (inv_struct s1 I1) as (l1 & S1). unfold iterate_non_bound. rewrite (nodes_ok s1 l1 S1). cbn [obind].
      destruct (try_all_ok true i1 (map snd l1) s1 I1 H1 (M1 _ D1)) as [TR _]; [intros k Hk; exact (struct_lt s1 l1 k S1 Hk)|].
      pose proof TR as (s2 & b2 & E2 & I2 & Hd2 & Wm2 & Fl2 & Ft2). rewrite E2 in *. cbn [obind fst snd]. destruct b2; [exact TR|]. destruct (Fl2 eq_refl) as (A2 & B2 & Hp2 & M2 & T2).
      apply (step_trans i1 s1 s2); auto. unfold iterate_all_set. destruct (Nat.eqb_spec m 0); [lia|].
      apply try_all_ok; auto. intros k Hk. apply in_map_iff in Hk. destruct Hk as (j & <- & _). apply Nat.mod_upper_bound. auto.
    + pose proof ME as (s1 & b1 & E1 & I1 & Hd1 & Wm1 & Fl1 & Ft1). rewrite E1 in *. cbn [obind fst snd]. destruct b1; [intros s' Q; discriminate|]. destruct (Fl1 eq_refl) as (A1 & B1 & Hp1 & M1 & T1).
      destruct (inv_struct s1 I1) as (l1 & S1). unfold iterate_non_bound. rewrite (nodes_ok s1 l1 S1). cbn [obind].
      destruct (try_all_ok true i1 (map snd l1) s1 I1 H1 (M1 _ D1)) as [TR _]; [intros k Hk; exact (struct_lt s1 l1 k S1 Hk)|].
      pose proof TR as (s2 & b2 & E2 & I2 & Hd2 & Wm2 & Fl2 & Ft2). rewrite E2 in *. cbn [obind fst snd]. destruct b2; [intros s' Q; discriminate|]. destruct (Fl2 eq_refl) as (A2 & B2 & Hp2 & M2 & T2).
      unfold iterate_all_set. destruct (Nat.eqb_spec m 0); [lia|]. intros s' E k Hk.
      destruct (try_all_ok false i1 (map (fun k => Nat.modulo k m) (seq (Nat.modulo rnd m) m)) s2 I2 H1 (M2 _ (M1 _ D1))) as [_ X].
      * intros j Hj. apply in_map_iff in Hj. destruct Hj as (q & <- & _). apply Nat.mod_upper_bound. auto.
      * apply (X eq_refl s' E). apply scan_all. auto.
  - exists s0, false. split; auto. split; auto. split; auto. split; [intros _; right; auto|]. split; [|auto]. intros _. split; auto. split; auto. left. unfold kkt. fold e1 a1. apply orb_false_iff in GO. destruct GO as [G1 G2].
    split; intros [Q1 Q2].
    + destruct (Rlt_dec (Y i1 * e1) (- TOL)); [|contradiction]. destruct (Rlt_dec a1 C); [discriminate|contradiction].
    + destruct (Rlt_dec TOL (Y i1 * e1)); [|contradiction]. destruct (Rlt_dec 0 a1); [discriminate|contradiction].
Qed.

Lemma epoch_ok all s : inv s -> exists s' n, smo_epoch C TOL EPS rnd d K all s = Ok (s', n) /\ inv s' /\ sm_head s' = sm_head s /\ (eta_neg -> W (sm_alpha s) <= W (sm_alpha s')) /\
  (all = true -> n = O -> forall i, (i < m)%nat -> quiet (sm_alpha s') (sm_bias s') i) /\ ((flat \/ forall i, (i < m)%nat -> kkt (sm_alpha s) (sm_bias s) i) -> n = O /\ sm_alpha s' = sm_alpha s /\ sm_bias s' = sm_bias s).
Proof.
  intro I. unfold smo_epoch.
  set (P := fun (k : nat) (st : smo * nat) => inv (fst st) /\ sm_head (fst st) = sm_head s /\ (eta_neg -> W (sm_alpha s) <= W (sm_alpha (fst st))) /\
    (all = true -> snd st = O -> sm_alpha (fst st) = sm_alpha s /\ sm_bias (fst st) = sm_bias s /\ forall i, (i < k)%nat -> quiet (sm_alpha s) (sm_bias s) i) /\
    ((flat \/ forall i, (i < m)%nat -> kkt (sm_alpha s) (sm_bias s) i) -> snd st = O /\ sm_alpha (fst st) = sm_alpha s /\ sm_bias (fst st) = sm_bias s)).
  match goal with |- context [ofold ?f (seq 0 m) ?s0] => destruct (ofold_seq f P m s0) as ([s' n] & -> & I' & H' & W' & Q' & Z') end.
  - split; auto. split; auto. split; [intros _; right; auto|]. split; [|auto]. intros _ _. split; auto. split; auto. intros i Hi. lia.
  - intros k [t n] Hk (It & Ht & Wt & Qt & Zt). cbn [fst snd] in *. destruct (inv_struct t It) as (l & S). rewrite vget_nz by (rewrite (st_al _ _ S); auto). cbn [obind].
    match goal with |- context [if ?g then _ else Ok (t, n)] => destruct g eqn:GO end.
    + destruct (examine_ok t k It Hk) as (t' & b & -> & I' & Hd & Wm & Fl & Ft & Fk). cbn [obind fst snd]. eexists. split; [reflexivity|]. cbn [fst snd]. split; auto. split; [cbn [fst]; congruence|]. split; [cbn [fst]; intro E; specialize (Wm E); specialize (Wt E); lra|]. split.
      2:{ cbn [fst snd]. intro FL. destruct (Zt FL) as (-> & A2 & B2). assert (b = false) as -> by (destruct FL as [FL|FK]; [auto|apply Fk; rewrite A2, B2; auto]). destruct (Fl eq_refl) as (A & B & _). split; auto. split; congruence. }
      cbn [fst snd]. intros Ea En. destruct b; [lia|]. assert (n = O) as -> by lia. destruct (Fl eq_refl) as (A & B & Q). destruct (Qt Ea eq_refl) as (A2 & B2 & Q2). rewrite A, B. split; auto. split; auto.
      intros i Hi. destruct (Nat.eq_dec i k) as [->|]; [rewrite <- A2, <- B2; auto|apply Q2; lia].
    + eexists. split; [reflexivity|]. split; auto. split; auto. split; auto. split; auto. cbn [fst snd]. intros ->. cbn [orb] in GO. discriminate.
  - cbn [fst snd] in *. exists s', n. split; auto. split; auto. split; auto. split; auto. split; auto. intros Ea En. destruct (Q' Ea En) as (A & B & Q). rewrite A, B. auto.
Qed.
Lemma loop_ok max_epoch : forall fuel epoch changed all s, inv s -> (max_epoch < epoch + fuel)%nat -> (changed = O -> all = false -> forall i, (i < m)%nat -> quiet (sm_alpha s) (sm_bias s) i) ->
  exists s' b, smo_loop C TOL EPS rnd d K max_epoch fuel epoch changed all s = Ok (Some (s', b)) /\ inv s' /\ sm_head s' = sm_head s /\ (eta_neg -> W (sm_alpha s) <= W (sm_alpha s')) /\
    (b = true -> forall i, (i < m)%nat -> quiet (sm_alpha s') (sm_bias s') i) /\
    ((flat \/ forall i, (i < m)%nat -> kkt (sm_alpha s) (sm_bias s) i) -> sm_alpha s' = sm_alpha s /\ sm_bias s' = sm_bias s /\ ((S epoch <= max_epoch)%nat -> b = true)).
Proof.
  induction fuel as [|f IH]; intros epoch changed all s I Hf Q; cbn [smo_loop].
  - destruct (Nat.ltb 0 changed || all) eqn:E.
    + destruct (Nat.ltb_spec max_epoch epoch); [|lia]. exists s, false. split; auto. split; auto. split; auto. split; [intros _; right; auto|]. split; [discriminate|]. intros _. split; auto. split; auto. intros; lia.
    + apply orb_false_iff in E. destruct E as [E ->]. exists s, true. split; auto. split; auto. split; auto. split; [intros _; right; auto|]. split; [|auto]. intros _. apply Q; auto. destruct (Nat.ltb_spec 0 changed); [discriminate|lia].
  - destruct (Nat.ltb 0 changed || all) eqn:E.
    + destruct (Nat.ltb_spec max_epoch epoch); [exists s, false; split; auto; split; auto; split; auto; split; [intros _; right; auto|split; [discriminate|]]; intros _; split; auto; split; auto; intros; lia|].
      destruct (epoch_ok all s I) as (s1 & n & -> & I1 & H1 & W1 & Q1 & Z1). cbn [obind fst snd].
      destruct (IH (S epoch) n (if all then false else Nat.eqb n 0) s1 I1) as (s2 & b & E2 & I2 & H2 & W2 & Q2 & Z2).
      * lia.
      * intros -> Ea. destruct all; [apply Q1; auto|discriminate].
      * exists s2, b. split; auto. split; auto. split; [congruence|]. split; [intro En; specialize (W1 En); specialize (W2 En); lra|]. split; auto.
        intro FL. destruct (Z1 FL) as (-> & A1 & B1). assert (flat \/ forall i, (i < m)%nat -> kkt (sm_alpha s1) (sm_bias s1) i) as FL1 by (rewrite A1, B1; auto). destruct (Z2 FL1) as (A2 & B2 & _). split; [congruence|]. split; [congruence|]. intro Le.
        destruct all; [destruct f; cbn [smo_loop Nat.ltb Nat.leb orb] in E2; congruence|].
        cbn [Nat.eqb] in E2. destruct f as [|f]; [lia|]. cbn [smo_loop Nat.ltb Nat.leb orb] in E2. destruct (Nat.leb_spec (S epoch) max_epoch); [|lia].
        destruct max_epoch as [|me]; [lia|]. destruct (Nat.leb_spec (S me) epoch); [lia|].
        destruct (epoch_ok true s1 I1) as (s3 & n3 & E3 & _ & _ & _ & _ & Z3). rewrite E3 in E2. cbn [obind fst snd] in E2. destruct (Z3 FL1) as (-> & _ & _). destruct f; cbn [smo_loop Nat.ltb Nat.leb orb] in E2; congruence.
    + apply orb_false_iff in E. destruct E as [E ->]. exists s, true. split; auto. split; auto. split; auto. split; [intros _; right; auto|]. split; [|auto]. intros _. apply Q; auto. destruct (Nat.ltb_spec 0 changed); [discriminate|lia].
Qed.
End Smo.
