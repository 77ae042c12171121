(** Property lemmas for the statistics: C65, C88. *)
From Coq Require Import ZArith Bool List Reals Lra Lia Psatz.
From Verif Require Import Base ListLib L_Vec M_Data M_Point S_Point L_Point Loop L_Smo M_Stat S_Stat.
Import ListNotations.
Local Open Scope R_scope.

Lemma len_pos {A} (v : list A) : v <> [] -> 0 < INR (length v).
Proof. intro N. apply lt_0_INR. destruct v; [congruence|cbn; lia]. Qed.
Lemma len_eqb {A} (v : list A) : v <> [] -> Nat.eqb (length v) 0 = false.
Proof. destruct v; [congruence|reflexivity]. Qed.
Lemma mean_ok v : v <> [] -> mean_p v = Ok (Some (avg (length v) (nz v))).
Proof. intro N. unfold mean_p. rewrite len_eqb by auto. rewrite (psum_ok (length v) (V v) (nz v)) by (cbn; auto). reflexivity. Qed.
Lemma minus_ok v : v <> [] -> minus_mean v = Ok (Some (B Sub (V v) (Sc (avg (length v) (nz v))))).
Proof. intro N. unfold minus_mean. rewrite mean_ok by auto. reflexivity. Qed.
Lemma scatter_nonneg n f : 0 <= scatter n f f.
Proof. apply sumn_nonneg. intros. apply Rle_0_sqr. Qed.
Lemma variance_nonneg n f : (0 < n)%nat -> 0 <= variance n f.
Proof. intro H. unfold variance. apply Rmult_le_pos; [apply scatter_nonneg|]. left. apply Rinv_0_lt_compat, lt_0_INR. auto. Qed.
Lemma avg_const n f c : (0 < n)%nat -> (forall i, (i < n)%nat -> f i = c) -> avg n f = c.
Proof. intros H E. unfold avg. rewrite (sumn_ext n f (fun _ => c) E), sumn_const. field. apply not_0_INR. lia. Qed.
Lemma scatter_zero n f : (0 < n)%nat -> (scatter n f f = 0 <-> forall i j, (i < n)%nat -> (j < n)%nat -> f i = f j).
Proof.
  intro H. split.
  - intros Z. assert (forall i, (i < n)%nat -> f i = avg n f) as Q; [|intros i j Hi Hj; rewrite (Q i), (Q j) by auto; reflexivity].
    intros i Hi. assert ((f i - avg n f) * (f i - avg n f) = 0) as X by (apply (sumn_zero_inv n (fun i => (f i - avg n f) * (f i - avg n f))); [intros; apply Rle_0_sqr|exact Z|auto]). apply Rmult_integral in X. lra.
  - intros E. apply sumn_zero. intros i Hi. assert (avg n f = f i) as -> by (apply avg_const; [auto|]; intros; now apply E). ring.
Qed.
(** C65: mean, variance and standard deviation of a vector. *)
Lemma c65_vector : forall v, v <> [] ->
  let var := variance (length v) (nz v) in
  mean_p v = Ok (Some (avg (length v) (nz v))) /\ var_p v = Ok (Some var) /\ std_p v = Ok (Some (sqrt var)) /\ 0 <= var /\ (var = 0 <-> forall x y, In x v -> In y v -> x = y).
Proof.
  intros v N var. assert (0 < length v)%nat as L by (destruct v; [congruence|cbn; lia]). split; [now apply mean_ok|].
  assert (psum (U Pow2 (B Sub (V v) (Sc (avg (length v) (nz v))))) = Ok (Some (scatter (length v) (nz v) (nz v)))) as P by (apply psum_ok; cbn; auto).
  split; [|split; [|split]].
  - unfold var_p. rewrite len_eqb, minus_ok by auto. cbn [obind]. rewrite P. reflexivity.
  - unfold std_p. rewrite len_eqb, minus_ok by auto. cbn [obind]. rewrite P. cbn [obind lift1 uop_el]. destruct (Rle_dec _ _) as [_|Q]; [reflexivity|]. elim Q. now apply variance_nonneg.
  - now apply variance_nonneg.
  - unfold var, variance. assert (0 < INR (length v)) as P0 by now apply lt_0_INR. split.
    + intros Z x y Hx Hy. apply In_nth with (d := 0) in Hx as (i & Hi & <-). apply In_nth with (d := 0) in Hy as (j & Hj & <-). revert i j Hi Hj. apply (scatter_zero (length v) (nz v) L).
      unfold Rdiv in Z. apply Rmult_integral in Z as [Z|Z]; [auto|]. apply Rinv_neq_0_compat in Z; [destruct Z|lra].
    + intro E. assert (scatter (length v) (nz v) (nz v) = 0) as ->; [|unfold Rdiv; ring]. apply scatter_zero; [auto|]. intros i j Hi Hj. apply E; apply nth_In; auto.
Qed.
Lemma c65_vector_ex : [1; 2; 4] <> [] /\ variance (length [1; 2; 4]) (nz [1; 2; 4]) = 14 / 9.
Proof. split; [discriminate|]. unfold variance, scatter, avg, nz. cbn. field. Qed.
(** C65: an empty vector fails an assertion. *)
Lemma c65_empty : mean_p [] = Abort /\ var_p [] = Abort /\ std_p [] = Abort /\ covar [] [] = Abort.
Proof. repeat split. Qed.

(** *** covariance *)
Lemma covar_ok p q : length p = length q -> (2 <= length p)%nat -> covar p q = Ok (Some (scatter (length p) (nz p) (nz q) / (INR (length p) - 1))).
Proof.
  intros L H. unfold covar. rewrite L, Nat.eqb_refl. cbn [negb]. assert (p <> [] /\ q <> []) as [Np Nq] by (split; intros ->; cbn in *; lia). rewrite !minus_ok by auto. cbn [obind].
  rewrite (psum_ok (length q) _ (fun i => (nz p i - avg (length p) (nz p)) * (nz q i - avg (length q) (nz q)))) by (cbn; auto). cbn [obind lift1 bop_el].
  destruct (Req_EM_T _ _) as [Z|_]; [|do 2 f_equal; unfold scatter; rewrite <- L; reflexivity]. assert (INR 2 <= INR (length q)) as X by (apply le_INR; lia). cbn in X. lra.
Qed.
(** C65: covariance, with the divisor of a sample: symmetric, bounded by Cauchy-Schwarz, and on the diagonal n/(n-1) times the variance.
    The two divisors differ, so covariance(x,x) is not the variance unless x is constant (c65_diagonal_refuted). *)
Lemma c65_covar : forall p q, length p = length q -> (2 <= length p)%nat ->
  exists c cp cq, covar p q = Ok (Some c) /\ covar q p = Ok (Some c) /\ covar p p = Ok (Some cp) /\ covar q q = Ok (Some cq) /\
    c * (INR (length p) - 1) = scatter (length p) (nz p) (nz q) /\ cp * (INR (length p) - 1) = variance (length p) (nz p) * INR (length p) /\ 0 <= cp /\ c * c <= cp * cq.
Proof.
  intros p q L H. assert (1 <= INR (length p) - 1) as X by (assert (INR 2 <= INR (length p)) as Y by (apply le_INR; lia); cbn in Y; lra).
  set (n := length p) in *. exists (scatter n (nz p) (nz q) / (INR n - 1)), (scatter n (nz p) (nz p) / (INR n - 1)), (scatter n (nz q) (nz q) / (INR n - 1)).
  split; [now apply covar_ok|]. split.
  { rewrite covar_ok by lia. rewrite <- L. do 3 f_equal. apply sumn_ext. intros. ring. }
  split; [now apply covar_ok|]. split; [rewrite covar_ok by lia; now rewrite <- L|].
  split; [field; lra|]. split; [unfold variance; field; lra|]. assert (0 <= / (INR n - 1)) as I by (left; apply Rinv_0_lt_compat; lra). split.
  - apply Rmult_le_pos; [apply scatter_nonneg|exact I].
  - unfold Rdiv. replace (scatter n (nz p) (nz q) * / (INR n - 1) * (scatter n (nz p) (nz q) * / (INR n - 1))) with (scatter n (nz p) (nz q) ^ 2 * (/ (INR n - 1) * / (INR n - 1))) by ring.
    replace (scatter n (nz p) (nz p) * / (INR n - 1) * (scatter n (nz q) (nz q) * / (INR n - 1))) with (scatter n (nz p) (nz p) * scatter n (nz q) (nz q) * (/ (INR n - 1) * / (INR n - 1))) by ring.
    apply Rmult_le_compat_r; [now apply Rmult_le_pos|]. apply cauchy.
Qed.
Lemma c65_covar_ex : length [1; 2; 4] = length [0; 1; -1] /\ (2 <= length [1; 2; 4])%nat.
Proof. cbn. lia. Qed.
Lemma c65_diagonal_refuted : forall p c v, (2 <= length p)%nat -> covar p p = Ok (Some c) -> var_p p = Ok (Some v) -> (c = v <-> forall x y, In x p -> In y p -> x = y).
Proof.
  intros p c v H Ec Ev. assert (p <> []) as N by (intros ->; cbn in H; lia). destruct (c65_vector p N) as (_ & V & _ & P & Z). rewrite Ev in V. injection V as ->.
  destruct (c65_covar p p eq_refl H) as (c' & cp & cq & C & _ & _ & _ & S & _ & _). rewrite Ec in C. injection C as <-. rewrite <- Z.
  assert (2 <= INR (length p)) as X by (assert (INR 2 <= INR (length p)) as Y by (apply le_INR; lia); cbn in Y; lra).
  assert (c * (INR (length p) - 1) = variance (length p) (nz p) * INR (length p)) as D' by (rewrite S; unfold variance; field; lra).
  split; intro E; [|rewrite E in *; nra]. rewrite E in D'. nra.
Qed.
Lemma c65_diagonal_refuted_ex : exists c v, covar [1; 3] [1; 3] = Ok (Some c) /\ var_p [1; 3] = Ok (Some v) /\ c <> v.
Proof.
  destruct (c65_vector [1; 3] ltac:(discriminate)) as (_ & V & _). rewrite V, (covar_ok [1; 3] [1; 3] eq_refl ltac:(cbn; lia)). do 2 eexists. split; [reflexivity|]. split; [reflexivity|].
  unfold variance, scatter, avg, nz. cbn. lra.
Qed.
(** C65: the covariance of vectors of one number is 0/0. *)
Lemma c65_single_refuted : forall a b, covar [a] [b] = Ok None.
Proof.
  intros a b. unfold covar. cbn [length Nat.eqb negb]. rewrite !minus_ok by discriminate. cbn [obind]. rewrite (psum_ok 1 _ (fun i => (nz [a] i - avg 1 (nz [a])) * (nz [b] i - avg 1 (nz [b])))) by (cbn; auto).
  cbn [obind lift1 bop_el INR]. destruct (Req_EM_T (1 - 1) 0) as [_|Q]; [reflexivity|lra].
Qed.

(** *** datasets *)
Lemma xcoord_ok d n m i j : rectangular d n m -> (i < n)%nat -> (j < m)%nat -> xcoord d i j = Ok (at_ d i j).
Proof.
  intros (L & D & _) Hi Hj. unfold xcoord, at_. destruct (nth_error (d_points d) i) as [p|] eqn:E; [|apply nth_error_None in E; lia]. unfold vget at 1. rewrite E. cbn [obind].
  rewrite vget_nz by (rewrite D; [auto|eapply nth_error_In; eauto]). do 2 f_equal. symmetry. apply nth_error_nth. now apply map_nth_error.
Qed.
Lemma pcoord_ok d n m i j : rectangular d n m -> (i < n)%nat -> (j < m)%nat -> (let* p := vget (d_points d) i in pcoord p j) = Ok (at_ d i j).
Proof.
  intros S Hi Hj. pose proof (xcoord_ok d n m i j S Hi Hj) as E. unfold xcoord in E. destruct (vget (d_points d) i) as [p| |]; cbn [obind] in *; try discriminate. unfold pcoord. unfold vget in E. destruct (nth_error (p_x p) j); [auto|discriminate].
Qed.
Lemma rect_dim d n m : rectangular d n m -> (0 < n)%nat -> dim d = m.
Proof. intros (L & D & _) H. unfold dim. destruct (d_points d) as [|p r]; [cbn in L; lia|]. apply D. now left. Qed.
Lemma rect_size d n m : rectangular d n m -> size d = n.
Proof. intros (L & _). exact L. Qed.
Definition column (d : data R) (j : nat) : nat -> R := fun i => at_ d i j.
(** C65: the mean of a feature. *)
Lemma c65_mean_data : forall d n m j, rectangular d n m -> (0 < n)%nat -> (j < m)%nat -> mean_d d j = Ok (avg n (fun i => at_ d i j)).
Proof.
  intros d n m j S Hn Hj. unfold mean_d. rewrite (rect_dim d n m S Hn), (rect_size d n m S). apply Nat.ltb_lt in Hj as Lj. rewrite Lj. rewrite (osum_ok n _ (fun i => at_ d i j)) by (intros; eapply pcoord_ok; eauto).
  cbn [obind]. apply Nat.ltb_lt in Hn as ->. reflexivity.
Qed.
Definition sx : data R := mkData [mkPoint [1; 0] 1%Z 1%Z 0; mkPoint [3; 0] 1%Z 2%Z 0; mkPoint [2; 6] (-1)%Z 3%Z 0] [1; 2]%Z [0; 1; 2]%Z [] [1; -1]%Z [2; 1]%Z 3 2 false false false true.
Lemma sx_rect : rectangular sx 3 2.
Proof. split; [reflexivity|]. split; [|reflexivity]. intros p [<-|[<-|[<-|[]]]]; reflexivity. Qed.
Lemma c65_mean_data_ex : rectangular sx 3 2 /\ avg 3 (fun i => at_ sx i 1) = 2.
Proof. split; [apply sx_rect|]. unfold avg, at_, nz. cbn. field. Qed.
(** C65: the standard deviation of a feature, with the divisor of a sample (std_p divides by the size). *)
Lemma c65_std_data : forall d n m j, rectangular d n m -> (2 <= n)%nat -> (j < m)%nat -> exists s, std_d d j = Ok s /\ 0 <= s /\ s * s * (INR n - 1) = scatter n (fun i => at_ d i j) (fun i => at_ d i j).
Proof.
  intros d n m j S Hn Hj. unfold std_d. rewrite (rect_size d n m S). destruct (Nat.eqb_spec n 1); [lia|]. rewrite (c65_mean_data d n m j S) by lia. cbn [obind].
  rewrite (osum_ok n _ (fun i => (at_ d i j - avg n (fun i => at_ d i j)) * (at_ d i j - avg n (fun i => at_ d i j)))) by (intros i Hi; rewrite (xcoord_ok d n m i j S Hi Hj); reflexivity). cbn [obind].
  assert (1 <= INR n - 1) as X by (assert (INR 2 <= INR n) as Y by (apply le_INR; lia); cbn in Y; lra).
  eexists. split; [reflexivity|]. split; [apply sqrt_pos|]. rewrite sqrt_sqrt; [unfold scatter; field; lra|]. apply Rmult_le_pos; [apply (scatter_nonneg n)|]. left. apply Rinv_0_lt_compat. lra.
Qed.
Lemma c65_std_data_ex : rectangular sx 3 2 /\ scatter 3 (fun i => at_ sx i 1) (fun i => at_ sx i 1) = 24.
Proof. split; [apply sx_rect|]. unfold scatter, avg, at_, nz. cbn. field. Qed.
(** The deviation of a single point is 0, not 0/0. *)
Lemma c65_std_single : forall d m j, rectangular d 1 m -> std_d d j = Ok 0.
Proof. intros d m j S. unfold std_d. rewrite (rect_size d 1 m S). reflexivity. Qed.
Lemma c65_std_single_ex : exists d : data R, rectangular d 1 2.
Proof. exists (mkData [mkPoint [3; 4] 1%Z 1%Z 0] [1; 2]%Z [0]%Z [] [1]%Z [1]%Z 1 2 false false false true). split; [reflexivity|]. split; [|reflexivity]. intros p [<-|[]]; reflexivity.
Qed.
(** C65: the two standard deviations of the same numbers differ unless they are constant. *)
Lemma c65_std_refuted : forall d n m j v s t, rectangular d n m -> (2 <= n)%nat -> (j < m)%nat -> v = map (fun i => at_ d i j) (seq 0 n) -> std_d d j = Ok s -> std_p v = Ok (Some t) -> (s = t <-> s = 0).
Proof.
  intros d n m j v s t S Hn Hj -> Es Et. destruct (c65_std_data d n m j S Hn Hj) as (s' & E & P & Q). rewrite Es in E. injection E as <-. set (v := map _ _) in *.
  assert (length v = n) as L by (unfold v; now rewrite map_length, seq_length). assert (v <> []) as N by (intro Z; rewrite Z in L; cbn in L; lia). destruct (c65_vector v N) as (_ & _ & T & Pv & _). rewrite Et in T. injection T as ->.
  assert (forall i, (i < n)%nat -> nz v i = at_ d i j) as Nv. { intros i Hi. unfold v. rewrite (nz_map _ 0%nat) by (rewrite seq_length; auto). now rewrite seq_nth. }
  assert (scatter (length v) (nz v) (nz v) = scatter n (fun i => at_ d i j) (fun i => at_ d i j)) as Sc. { rewrite L. unfold scatter. assert (avg n (nz v) = avg n (fun i => at_ d i j)) as -> by (unfold avg; f_equal; now apply sumn_ext). apply sumn_ext. intros. now rewrite Nv. }
  set (t := sqrt _). assert (t * t * INR n = s * s * (INR n - 1)) as X. { unfold t. rewrite sqrt_sqrt by auto. unfold variance. rewrite Sc, <- Q, L. field. apply not_0_INR. lia. }
  assert (0 <= t) by apply sqrt_pos. assert (0 < INR n) by (apply lt_0_INR; lia). split; intro E.
  - rewrite <- E in X. apply Rsqr_0_uniq. unfold Rsqr. lra.
  - rewrite E in *. symmetry. apply Rsqr_0_uniq. unfold Rsqr. apply (Rmult_eq_reg_r (INR n)); lra.
Qed.
Lemma c65_std_refuted_ex : exists s t, std_d sx 1 = Ok s /\ std_p (map (fun i => at_ sx i 1) (seq 0 3)) = Ok (Some t) /\ s <> t.
Proof.
  destruct (c65_std_data sx 3 2 1 sx_rect ltac:(lia) ltac:(lia)) as (s & E & P & Q). destruct (c65_vector (map (fun i => at_ sx i 1) (seq 0 3)) ltac:(discriminate)) as (_ & _ & T & _). exists s. eexists. split; [exact E|]. split; [exact T|].
  rewrite (c65_std_refuted sx 3 2 1 _ s _ sx_rect ltac:(lia) ltac:(lia) eq_refl E T). destruct c65_std_data_ex as [_ Z]. rewrite Z in Q. cbn in Q. nra.
Qed.

(** *** centroid *)
Lemma centroid_ok d n m keep ch : rectangular d n m -> (0 < n)%nat -> (forall j, (j < m)%nat -> keep j = Ok (ch j)) ->
  centroid keep d = Ok (map (fun j => Some (if ch j then avg n (fun i => at_ d i j) else 0)) (seq 0 m)).
Proof.
  intros S Hn K. unfold centroid. rewrite (rect_dim d n m S Hn). apply map_outcome_ok. intros j Hj. apply in_seq in Hj. rewrite K by lia. cbn [obind]. destruct (ch j); [|reflexivity]. rewrite (rect_size d n m S).
  rewrite (osum_ok n _ (fun i => at_ d i j)) by (intros i Hi; apply (xcoord_ok d n m); auto; lia). cbn [obind bop_el]. destruct (Req_EM_T (INR n) 0) as [Z|_]; [|reflexivity]. apply not_0_INR in Z; [destruct Z|lia].
Qed.
Lemma spread_ok d n m keep ch i : rectangular d n m -> (0 < n)%nat -> (forall j, (j < m)%nat -> keep j = Ok (ch j)) -> (i < n)%nat ->
  spread keep d (map (fun j => Some (if ch j then avg n (fun i => at_ d i j) else 0)) (seq 0 m)) i = Ok (Some (from_centre d n m ch i)).
Proof.
  intros S Hn K Hi. unfold spread. rewrite (rect_dim d n m S Hn). set (g := fun j => if ch j then (at_ d i j - avg n (fun i => at_ d i j)) * (at_ d i j - avg n (fun i => at_ d i j)) else 0).
  destruct (ofold_seq (fun acc j => let* k := keep j in if k then let* a := vget (map (fun j => Some (if ch j then avg n (fun i => at_ d i j) else 0)) (seq 0 m)) j in let* x := xcoord d i j in Ok (lift2 (fun s m => Some (s + (m - x) * (m - x))) acc a) else Ok acc)
    (fun j acc => acc = Some (sumn j g)) m (Some 0)) as (r & E & Q).
  - reflexivity.
  - intros j acc Hj ->. rewrite K by auto. cbn [obind]. destruct (ch j) eqn:C.
    + rewrite vget_map_seq by auto. cbn [obind]. cbv beta. rewrite C, (xcoord_ok d n m i j S Hi Hj). cbn [obind lift2]. eexists. split; [reflexivity|]. cbn [sumn]. f_equal. assert (g j = (at_ d i j - avg n (fun i => at_ d i j)) * (at_ d i j - avg n (fun i => at_ d i j))) as -> by (unfold g; now rewrite C). ring.
    + eexists. split; [reflexivity|]. cbn [sumn]. f_equal. assert (g j = 0) as -> by (unfold g; now rewrite C). ring.
  - rewrite E, Q. reflexivity.
Qed.
Lemma sum_over_swap n m ch f : sumn n (fun i => sum_over m ch (f i)) = sum_over m ch (fun j => sumn n (fun i => f i j)).
Proof.
  unfold sum_over. rewrite sumn_swap. apply sumn_ext. intros j _. destruct (ch j); [reflexivity|]. apply sumn_zero. auto.
Qed.
Lemma sum_over_scal m ch f c : sum_over m ch (fun j => c * f j) = c * sum_over m ch f.
Proof. unfold sum_over. rewrite <- sumn_scal. apply sumn_ext. intros j _. destruct (ch j); ring. Qed.
(** C65: the "variance of a feature" of a dataset is the sum of the variances of the features that do not have the name given. *)
Lemma c65_var_data : forall d n m feat, rectangular d n m -> (0 < n)%nat -> (forall f, In f (d_fnames d) -> (0 <= f < 2 ^ 64)%Z) ->
  var_d d feat = Ok (Some (sum_over m (fun j => negb (Z.eqb (nth j (d_fnames d) 0%Z) feat)) (fun j => variance n (fun i => at_ d i j)))).
Proof.
  intros d n m feat S Hn B. unfold var_d. set (ch := fun j => negb (Z.eqb (nth j (d_fnames d) 0%Z) feat)).
  assert (forall j, (j < m)%nat -> keep_size d feat j = Ok (ch j)) as K.
  { intros j Hj. destruct S as (_ & _ & F). unfold keep_size. rewrite (vget_nth _ j 0%Z) by lia. cbn [obind]. unfold ch. rewrite Z.mod_small; [reflexivity|]. apply B, nth_In. lia. }
  rewrite (centroid_ok d n m _ ch S Hn K). cbn [obind]. rewrite (rect_size d n m S).
  match goal with |- context [ofold ?f (seq 0 n) (Some 0)] => destruct (ofold_seq f (fun i acc => acc = Some (sumn i (from_centre d n m ch))) n (Some 0)) as (r & E & Q) end.
  - reflexivity.
  - intros i acc Hi ->. rewrite (spread_ok d n m _ ch i S Hn K Hi). cbn [obind lift2]. eexists. split; reflexivity.
  - rewrite E, Q. cbn [obind lift1 bop_el]. destruct (Req_EM_T (INR n) 0) as [Z|_]; [apply not_0_INR in Z; [destruct Z|lia]|]. do 2 f_equal. unfold from_centre.
    rewrite sum_over_swap. unfold Rdiv. rewrite Rmult_comm, <- sum_over_scal. unfold variance, scatter, sum_over. apply sumn_ext. intros j _. destruct (ch j); [unfold Rdiv; ring|reflexivity].
Qed.
Lemma c65_var_data_ex : rectangular sx 3 2 /\ forall f, In f (d_fnames sx) -> (0 <= f < 2 ^ 64)%Z.
Proof. split; [apply sx_rect|]. intros f [<-|[<-|[]]]; lia. Qed.
(** C65: so it is not the variance of that feature: here feature 1 (values 1, 3, 2) has variance 2/3 and feature 2 has variance 8. *)
Lemma c65_var_data_refuted : exists v, var_d sx 1 = Ok (Some v) /\ v = 8 /\ variance 3 (fun i => at_ sx i 0) = 2 / 3.
Proof.
  destruct c65_var_data_ex as [A B]. rewrite (c65_var_data sx 3 2 1 A ltac:(lia) B). eexists. split; [reflexivity|]. unfold sum_over, variance, scatter, avg, at_, nz. cbn. split; field.
Qed.
Lemma keep_ok d n m feat j : rectangular d n m -> (j < m)%nat -> keep_int d feat j = Ok (other d feat j).
Proof.
  intros (_ & _ & F) Hj. unfold keep_int, other. destruct (Z.ltb feat 0); [reflexivity|]. rewrite (vget_nth _ j 0%Z) by lia. reflexivity.
Qed.
Lemma from_nonneg d n m ch i : 0 <= from_centre d n m ch i.
Proof. apply sumn_nonneg. intros j _. destruct (ch j); [apply Rle_0_sqr|lra]. Qed.
(** C65: with q = 2 the radius is the largest distance of a point to the centroid, over the features not excluded. *)
Lemma c65_radius : forall d n m feat, rectangular d n m -> (0 < n)%nat -> exists r, radius d feat 2 = Ok r /\
  (forall i, (i < n)%nat -> sqrt (from_centre d n m (other d feat) i) <= r) /\ exists i, (i < n)%nat /\ r = sqrt (from_centre d n m (other d feat) i).
Proof.
  intros d n m feat S Hn. unfold radius. destruct (Req_EM_T 2 2) as [_|Q]; [|congruence]. assert (forall j, (j < m)%nat -> keep_int d feat j = Ok (other d feat j)) as K by (intros; eapply keep_ok; eauto).
  rewrite (centroid_ok d n m _ _ S Hn K). cbn [obind]. rewrite (rect_size d n m S).
  match goal with |- context [ofold ?f (seq 0 n) 0] => destruct (ofold_seq f (fun i r => (forall k, (k < i)%nat -> sqrt (from_centre d n m (other d feat) k) <= r) /\ (i = 0%nat /\ r = 0 \/ exists k, (k < i)%nat /\ r = sqrt (from_centre d n m (other d feat) k))) n 0) as (r & E & A & B) end.
  - split; [intros; lia|left; auto].
  - intros i r Hi [A B]. rewrite (spread_ok d n m _ _ i S Hn K Hi). cbn [obind lift1 uop_el]. pose proof (from_nonneg d n m (other d feat) i) as P. destruct (Rle_dec 0 _) as [_|]; [|tauto]. eexists. split; [reflexivity|].
    pose proof (sqrt_pos (from_centre d n m (other d feat) i)) as P'. destruct (Rlt_dec r _) as [Q|Q].
    + split; [|right; exists i; split; [lia|reflexivity]]. intros k Hk. destruct (Nat.eq_dec k i) as [->|]; [lra|]. specialize (A k ltac:(lia)). lra.
    + split.
      * intros k Hk. destruct (Nat.eq_dec k i) as [->|]; [lra|]. apply A. lia.
      * right. destruct B as [[-> ->]|(k & Hk & ->)]; [exists 0%nat; split; [lia|lra]|exists k; split; [lia|reflexivity]].
  - exists r. split; [exact E|]. split; [exact A|]. destruct B as [[-> _]|B]; [lia|exact B].
Qed.
Lemma c65_radius_ex : rectangular sx 3 2 /\ from_centre sx 3 2 (other sx (-1)) 2 = 16.
Proof. split; [apply sx_rect|]. unfold from_centre, sum_over, avg, at_, nz. cbn. field. Qed.
(** C65: with q = 1 it is the largest absolute coordinate, whatever the centroid. *)
Lemma c65_radius_one : forall d n m feat, rectangular d n m -> (0 < n)%nat -> exists r, radius d feat 1 = Ok r /\ 0 <= r /\
  (forall i j, (i < n)%nat -> (j < m)%nat -> other d feat j = true -> Rabs (at_ d i j) <= r) /\ (r = 0 \/ exists i j, (i < n)%nat /\ (j < m)%nat /\ other d feat j = true /\ r = Rabs (at_ d i j)).
Proof.
  intros d n m feat S Hn. unfold radius. destruct (Req_EM_T 1 2) as [Q|_]; [lra|]. destruct (Req_EM_T 1 1) as [_|Q]; [|congruence]. rewrite (rect_size d n m S), (rect_dim d n m S Hn).
  set (best := fun (done : nat -> nat -> Prop) r => 0 <= r /\ (forall i j, done i j -> other d feat j = true -> Rabs (at_ d i j) <= r) /\ (r = 0 \/ exists i j, (i < n)%nat /\ (j < m)%nat /\ other d feat j = true /\ r = Rabs (at_ d i j))).
  match goal with |- context [ofold ?f (seq 0 n) 0] => destruct (ofold_seq f (fun i => best (fun a b => (a < i)%nat /\ (b < m)%nat)) n 0) as (r & E & A & B & C) end.
  - split; [lra|]. split; [intros; lia|left; auto].
  - intros i r Hi A.
    match goal with |- context [ofold ?f (seq 0 m) r] => destruct (ofold_seq f (fun j => best (fun a b => (a < i)%nat /\ (b < m)%nat \/ a = i /\ (b < j)%nat)) m r) as (r' & E & A' & B' & C') end.
    + destruct A as (A & B & C). split; [auto|]. split; [|auto]. intros a b [H|[_ H]]; [now apply B|lia].
    + intros j s Hj (A' & B' & C'). rewrite (keep_ok d n m feat j S Hj). cbn [obind]. destruct (other d feat j) eqn:O.
      * rewrite (xcoord_ok d n m i j S Hi Hj). cbn [obind]. eexists. split; [reflexivity|]. destruct (Rlt_dec s (Rabs (at_ d i j))) as [Q|Q].
        -- split; [lra|]. split; [|right; exists i, j; auto]. intros a b [H|[-> H]] Ob; [specialize (B' a b (or_introl H) Ob); lra|]. destruct (Nat.eq_dec b j) as [->|]; [lra|]. assert (Rabs (at_ d i b) <= s) by (apply B'; [right; split; [auto|lia]|auto]). lra.
        -- split; [lra|]. split; [|auto]. intros a b [H|[-> H]] Ob; [apply B'; auto|]. destruct (Nat.eq_dec b j) as [->|]; [lra|]. apply B'; [right; split; [auto|lia]|auto].
      * eexists. split; [reflexivity|]. split; [auto|]. split; [|auto]. intros a b [H|[-> H]] Ob; [apply B'; auto|]. destruct (Nat.eq_dec b j) as [->|]; [congruence|]. apply B'; [right; split; [auto|lia]|auto].
    + exists r'. split; [exact E|]. split; [auto|]. split; [|auto]. intros a b [H1 H2]. apply B'. destruct (Nat.eq_dec a i) as [->|]; [right; auto|left; lia].
  - exists r. split; [exact E|]. split; [auto|]. split; [|auto]. intros i j Hi Hj. apply B. auto.
Qed.
Definition sx1 : data R := mkData [mkPoint [-3] 1%Z 1%Z 0; mkPoint [3] 1%Z 2%Z 0; mkPoint [3] (-1)%Z 3%Z 0] [1]%Z [0; 1; 2]%Z [] [1; -1]%Z [2; 1]%Z 3 1 false false false true.
Lemma sx1_rect : rectangular sx1 3 1.
Proof. split; [reflexivity|]. split; [|reflexivity]. intros p [<-|[<-|[<-|[]]]]; reflexivity. Qed.
(** C65: for that norm the result does not bound the distance to the centroid: -3, 3, 3 have mean 1, and -3 is at distance 4. *)
Lemma c65_radius_one_refuted : exists r i, radius sx1 (-1) 1 = Ok r /\ (i < 3)%nat /\ r < Rabs (at_ sx1 i 0 - avg 3 (fun i => at_ sx1 i 0)).
Proof.
  destruct (c65_radius_one sx1 3 1 (-1) sx1_rect ltac:(lia)) as (r & E & P & B & C). exists r, 0%nat. split; [exact E|]. split; [lia|].
  replace (at_ sx1 0 0 - avg 3 (fun i => at_ sx1 i 0)) with (-4) by (unfold avg, at_, nz; cbn; field). rewrite (Rabs_left (-4)) by lra.
  destruct C as [->|(i & j & Hi & Hj & _ & ->)]; [lra|]. assert (j = 0%nat) as -> by lia. unfold at_, nz. destruct i as [|[|[|i]]]; cbn; [rewrite Rabs_left|rewrite Rabs_right|rewrite Rabs_right|lia]; lra.
Qed.
(** C65: for any other norm the radius is 1. *)
Lemma c65_radius_other_refuted : forall d feat q, q <> 1 -> q <> 2 -> radius d feat q = Ok 1.
Proof. intros d feat q A B. unfold radius. destruct (Req_EM_T q 2); [contradiction|]. destruct (Req_EM_T q 1); [contradiction|]. reflexivity. Qed.
Lemma c65_radius_other_refuted_ex : -1 <> 1 /\ -1 <> 2.
Proof. lra. Qed.

(** *** distance of the class centres *)
Lemma ofold_vget {S A} (f : S -> A -> outcome S) (l : list A) : forall s, ofold (fun s i => let* p := vget l i in f s p) (seq 0 (length l)) s = ofold f l s.
Proof.
  assert (forall post pre s, l = pre ++ post -> ofold (fun s i => let* p := vget l i in f s p) (seq (length pre) (length post)) s = ofold f post s) as G.
  { induction post as [|x post IH]; intros pre s E; [reflexivity|]. cbn [length seq ofold]. assert (vget l (length pre) = Ok x) as ->. { unfold vget. rewrite E, nth_error_app2, Nat.sub_diag by auto. reflexivity. }
    cbn [obind]. destruct (f s x) as [s'| |]; cbn [obind]; try reflexivity. replace (Datatypes.S (length pre)) with (length (pre ++ [x])) by (rewrite app_length; cbn; lia). apply IH. rewrite <- app_assoc. exact E. }
  intro s. exact (G l [] s eq_refl).
Qed.
Lemma members_count d lab s : ofold (fun n p => Ok (if lab (p_y p) : bool then Datatypes.S n else n)) (d_points d) s = Ok (s + length (members d lab))%nat.
Proof.
  unfold members. revert s. induction (d_points d) as [|p l IH]; intro s; cbn [ofold filter obind length]; [f_equal; lia|]. rewrite IH. destruct (lab (p_y p)); cbn [length]; f_equal; lia.
Qed.
Lemma members_sum d n m lab j : rectangular d n m -> (j < m)%nat -> forall s,
  ofold (fun s p => let* v := (if lab (p_y p) : bool then vget (p_x p) j else Ok 0) in Ok (s + v)) (d_points d) s = Ok (s + sumn (length (members d lab)) (fun i => nz (nth i (map p_x (members d lab)) []) j)).
Proof.
  intros (_ & D & _) Hj. unfold members. induction (d_points d) as [|p l IH]; intro s; cbn [ofold filter length sumn]; [f_equal; lra|]. specialize (IH ltac:(intros q Hq; apply D; now right)). destruct (lab (p_y p)).
  - rewrite vget_nz by (rewrite D by (now left); exact Hj). cbn [obind]. rewrite IH. cbn [length]. rewrite sumn_S. cbn [map nth]. f_equal. lra.
  - cbn [obind]. rewrite IH. f_equal. lra.
Qed.
Lemma class_mean_ok d n m lab pos j : rectangular d n m -> (j < m)%nat -> (forall y, Bool.eqb (Z.eqb y 1) pos = lab y) -> members d lab <> [] -> class_mean d pos j = Ok (Some (label_mean d lab j)).
Proof.
  intros S Hj L N. unfold class_mean. rewrite (rect_size d n m S). destruct S as (Ln & D & F). rewrite <- Ln. rewrite (ofold_vget (fun n p => Ok (if Bool.eqb (Z.eqb (p_y p) 1) pos then Datatypes.S n else n))).
  assert (forall s, ofold (fun n p => Ok (if Bool.eqb (Z.eqb (p_y p) 1) pos then Datatypes.S n else n)) (d_points d) s = ofold (fun n p => Ok (if lab (p_y p) then Datatypes.S n else n)) (d_points d) s) as ->.
  { clear - L. induction (d_points d) as [|p l IH]; intro s; cbn [ofold]; [reflexivity|]. rewrite L. cbn [obind]. apply IH. }
  rewrite members_count. cbn [obind Nat.add]. unfold osum.
  assert (forall s, ofold (fun s i => let* v := (let* p := vget (d_points d) i in if Bool.eqb (Z.eqb (p_y p) 1) pos then vget (p_x p) j else Ok 0) in Ok (s + v)) (seq 0 (length (d_points d))) s =
    ofold (fun s i => let* p := vget (d_points d) i in let* v := (if lab (p_y p) then vget (p_x p) j else Ok 0) in Ok (s + v)) (seq 0 (length (d_points d))) s) as ->.
  { generalize (seq 0 (length (d_points d))) as l. induction l as [|i l IH]; intro s; cbn [ofold]; [reflexivity|]. destruct (vget (d_points d) i) as [p| |]; cbn [obind]; try reflexivity. rewrite L. destruct (if lab (p_y p) then _ else _); cbn [obind]; try reflexivity. apply IH. }
  rewrite (ofold_vget (fun s p => let* v := (if lab (p_y p) then vget (p_x p) j else Ok 0) in Ok (s + v))), (members_sum d n m lab j) by (repeat split; auto). cbn [obind bop_el].
  destruct (Req_EM_T _ 0) as [Z|_]; [|rewrite Rplus_0_l; reflexivity]. apply len_pos in N. lra.
Qed.
Definition both_labels (d : data R) : Prop := (exists p, In p (d_points d) /\ p_y p = 1%Z) /\ (exists p, In p (d_points d) /\ p_y p <> 1%Z).
Lemma gap2_ok d n m j : rectangular d n m -> (j < m)%nat -> both_labels d -> gap2 d j = Ok (Some (centre_gap d j)).
Proof.
  intros S Hj [(p & Hp & Ep) (q & Hq & Eq)]. unfold gap2. rewrite (class_mean_ok d n m (Z.eqb 1) true j S Hj).
  - cbn [obind]. rewrite (class_mean_ok d n m (fun y => negb (Z.eqb 1 y)) false j S Hj).
    + reflexivity.
    + intro y. rewrite Z.eqb_sym. destruct (Z.eqb 1 y); reflexivity.
    + intro Z. assert (In q (members d (fun y => negb (1 =? y)%Z))) as I. { apply filter_In. split; [auto|]. destruct (Z.eqb_spec 1 (p_y q)); [congruence|reflexivity]. } rewrite Z in I. destruct I.
  - intro y. rewrite Z.eqb_sym. destruct (Z.eqb 1 y); reflexivity.
  - intro Z. assert (In p (members d (Z.eqb 1))) as I. { apply filter_In. split; [auto|]. rewrite Ep. reflexivity. } rewrite Z in I. destruct I.
Qed.
Lemma gap_nonneg d j : 0 <= centre_gap d j.
Proof. apply Rle_0_sqr. Qed.
(** C88: the distance between the centres of the points labelled 1 and of the others, without the feature named, when both kinds of points occur. *)
Lemma c88_distance : forall d n m feat, rectangular d n m -> both_labels d -> distCenters d feat = Ok (Some (sqrt (sum_over m (other d feat) (centre_gap d)))).
Proof.
  intros d n m feat S B. assert (0 < n)%nat as Hn. { destruct S as (L & _). destruct B as [(p & Hp & _) _]. destruct (d_points d); [destruct Hp|cbn in L; lia]. }
  unfold distCenters. rewrite (rect_dim d n m S Hn).
  match goal with |- context [ofold ?f (seq 0 m) (Some 0)] => destruct (ofold_seq f (fun j acc => acc = Some (sum_over j (other d feat) (centre_gap d))) m (Some 0)) as (r & E & Q) end.
  - reflexivity.
  - intros j acc Hj ->. rewrite (gap2_ok d n m j S Hj B), (keep_ok d n m feat j S Hj). cbn [obind]. eexists. split; [reflexivity|]. unfold sum_over. cbn [sumn]. destruct (other d feat j); cbn [lift2]; f_equal; lra.
  - rewrite E, Q. cbn [obind lift1 uop_el]. destruct (Rle_dec 0 _) as [_|X]; [reflexivity|]. elim X. apply sumn_nonneg. intros j _. destruct (other d feat j); [apply gap_nonneg|lra].
Qed.
Lemma c88_distance_ex : rectangular sx 3 2 /\ both_labels sx /\ sum_over 2 (other sx (-1)) (centre_gap sx) = 36.
Proof.
  split; [apply sx_rect|]. split; [split; eexists; (split; [|]); [left; reflexivity|reflexivity|right; right; left; reflexivity|discriminate]|]. unfold sum_over, centre_gap, label_mean, nz. cbn. field.
Qed.
(** C88: with one kind of points only, the distance is not a number. *)
Lemma c88_one_class_refuted : forall d n m feat, rectangular d n m -> (0 < n)%nat -> (forall p, In p (d_points d) -> p_y p = 1%Z) -> (exists j, (j < m)%nat /\ other d feat j = true) -> distCenters d feat = Ok None.
Proof.
  intros d n m feat S Hn H (j0 & Hj0 & O0). unfold distCenters. rewrite (rect_dim d n m S Hn).
  assert (forall j, (j < m)%nat -> gap2 d j = Ok None) as G.
  { intros j Hj. unfold gap2. rewrite (class_mean_ok d n m (Z.eqb 1) true j S Hj).
    - cbn [obind]. unfold class_mean. rewrite (rect_size d n m S). destruct S as (Ln & D & F). rewrite <- Ln. rewrite (ofold_vget (fun n p => Ok (if Bool.eqb (Z.eqb (p_y p) 1) false then Datatypes.S n else n))).
      assert (forall l : list (point R), (forall p, In p l -> p_y p = 1%Z) -> ofold (fun n p => Ok (if Bool.eqb (Z.eqb (p_y p) 1) false then Datatypes.S n else n)) l 0%nat = Ok 0%nat) as X.
      { clear. induction l as [|p l IH]; intros H; cbn [ofold]; [reflexivity|]. rewrite (H p) by now left. cbn [Z.eqb Bool.eqb obind]. apply IH. intros; apply H; now right. }
      rewrite X by auto. cbn [obind]. rewrite (osum_ok _ _ (fun _ => 0)).
      + cbn [obind bop_el INR]. destruct (Req_EM_T 0 0); [reflexivity|congruence].
      + intros i Hi. destruct (nth_error (d_points d) i) as [p|] eqn:E; [|apply nth_error_None in E; lia]. unfold vget. rewrite E. cbn [obind]. rewrite (H p) by (eapply nth_error_In; eauto). reflexivity.
    - intro y. rewrite Z.eqb_sym. destruct (Z.eqb 1 y); reflexivity.
    - destruct S as (L & _). destruct (d_points d) as [|p l] eqn:E; [cbn in L; lia|]. unfold members. rewrite E. cbn [filter]. rewrite (H p) by now left. discriminate. }
  match goal with |- context [ofold ?f (seq 0 m) (Some 0)] => destruct (ofold_seq f (fun j acc => (j0 < j)%nat -> acc = None) m (Some 0)) as (r & E & Q) end.
  - lia.
  - intros j acc Hj A. rewrite (G j Hj), (keep_ok d n m feat j S Hj). cbn [obind]. eexists. split; [reflexivity|]. intro L. destruct (Nat.eq_dec j j0) as [->|]; [rewrite O0; destruct acc; reflexivity|]. rewrite A by lia. destruct (other d feat j); reflexivity.
  - rewrite E. cbn [obind]. rewrite Q by auto. reflexivity.
Qed.
Lemma c88_one_class_refuted_ex : exists d, rectangular d 1 1 /\ (forall p, In p (d_points d) -> p_y p = 1%Z) /\ exists j, (j < 1)%nat /\ other d (-1) j = true.
Proof.
  exists (mkData [mkPoint [1] 1%Z 1%Z 0] [1]%Z [0]%Z [] [1]%Z [1]%Z 1 1 false false false true). split; [split; [reflexivity|split; [|reflexivity]]; intros p [<-|[]]; reflexivity|]. split; [intros p [<-|[]]; reflexivity|]. exists 0%nat. split; [lia|reflexivity].
Qed.
(** C88: distCentersWithoutFeats, given different names, measures the features it should leave out: only those count. *)
Lemma c88_without_refuted : forall d n m feats index, rectangular d n m -> both_labels d -> NoDup feats ->
  distCentersWithoutFeats d feats index = Ok (Some (sqrt (sum_over m (fun j => existsb (Z.eqb (nth j (d_fnames d) 0%Z)) feats) (centre_gap d)))).
Proof.
  intros d n m feats index S B ND. assert (0 < n)%nat as Hn. { destruct S as (L & _). destruct B as [(p & Hp & _) _]. destruct (d_points d); [destruct Hp|cbn in L; lia]. }
  unfold distCentersWithoutFeats. rewrite (rect_dim d n m S Hn). set (ch := fun j => existsb (Z.eqb (nth j (d_fnames d) 0%Z)) feats).
  match goal with |- context [ofold ?f (seq 0 m) (Some 0)] => destruct (ofold_seq f (fun j acc => acc = Some (- sum_over j ch (centre_gap d))) m (Some 0)) as (r & E & Q) end.
  - cbn. f_equal. unfold sum_over. cbn. lra.
  - intros j acc Hj ->. rewrite (gap2_ok d n m j S Hj B). cbn [obind]. destruct S as (_ & _ & F). rewrite (vget_nth (d_fnames d) j 0%Z) by lia.
    assert (forall acc, ofold (fun acc f => let* n0 := Ok (nth j (d_fnames d) 0%Z) in Ok (if Z.eqb n0 f then lift2 (fun s x => Some (s - x)) acc (Some (centre_gap d j)) else acc)) feats (Some acc) = Ok (Some (acc - (if ch j then centre_gap d j else 0)))) as X.
    { unfold ch. clear - ND. induction ND as [|f fs Nf ND IH]; intro acc; cbn [ofold existsb]; [do 2 f_equal; lra|]. cbn [obind]. destruct (Z.eqb_spec (nth j (d_fnames d) 0%Z) f) as [Q|Q]; cbn [orb lift2].
      - rewrite IH. assert (existsb (Z.eqb (nth j (d_fnames d) 0%Z)) fs = false) as ->; [|do 2 f_equal; lra]. apply not_true_is_false. intro K. apply existsb_exists in K as (x & Hx & Ex). apply Z.eqb_eq in Ex. congruence.
      - rewrite IH. reflexivity. }
    rewrite X. eexists. split; [reflexivity|]. unfold sum_over. cbn [sumn]. f_equal. fold (sum_over j ch (centre_gap d)). lra.
  - rewrite E, Q. cbn [obind lift1 uop_el]. rewrite Rabs_Ropp. assert (0 <= sum_over m ch (centre_gap d)) as P by (apply sumn_nonneg; intros j _; destruct (ch j); [apply gap_nonneg|lra]).
    rewrite (Rabs_right (sum_over m ch (centre_gap d))) by lra. destruct (Rle_dec 0 _); [reflexivity|contradiction].
Qed.
Lemma c88_without_refuted_ex : rectangular sx 3 2 /\ both_labels sx /\ NoDup [1]%Z /\ sum_over 2 (fun j => existsb (Z.eqb (nth j (d_fnames sx) 0%Z)) [1]%Z) (centre_gap sx) = 0.
Proof.
  destruct c88_distance_ex as (A & B & _). split; [auto|]. split; [auto|]. split; [repeat constructor; intros []|]. unfold sum_over, centre_gap, label_mean, nz. cbn. field.
Qed.
