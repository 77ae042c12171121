(** C140: learning rates and support vectors of the incremental margin algorithm. *)
From Coq Require Import ZArith Bool List Lia Reals Lra Psatz Permutation.
From Verif Require Import Base ListLib M_Data M_Point L_Vec Loop M_Kernel S_Kernel L_Kernel M_Perc S_Perc L_Perc T_Perc L_Knn L_Smo M_Fixed S_Fixed L_Fixed T_Fixed M_Ima S_Ima L_Ima T_Ima S_ImaRate.
Import ListNotations.
Local Open Scope R_scope.

Lemma body_rate flex aprox big d st s func steps st' : ima_body flex aprox big d st s func steps = Ok st' ->
  im_it st' = S (im_it st) /\ f_ctot (im_f st') = f_ctot s /\ length (im_printed st') = S (length (im_printed st)) /\ im_t1 st' = (if Nat.eqb (im_it st) 2 then f_ctot s else im_t1 st) /\
  im_rate st' = (if Nat.ltb 1 (im_it st) then sqrt (INR (im_t1 st')) / sqrt (INR (f_ctot s)) else im_rate st) /\ f_w (im_f st') = f_w s /\ f_al (im_f st') = f_al s /\ f_index (im_f st') = f_index s.
Proof.
  unfold ima_body. intro E. destruct (ima_scan _ _ _ _ _ _) as [[mn mx]| |]; cbn [obind] in E; try discriminate E. destruct (map_outcome _ _) as [w| |]; cbn [obind] in E; try discriminate E.
  injection E as <-. cbn [im_it im_f f_ctot im_printed im_t1 im_rate f_w f_al f_index]. rewrite app_length. cbn [length]. repeat split. lia.
Qed.
Lemma rate_snoc cs c t1 rt : (match cs with _ :: _ :: x :: _ => t1 = x | _ => t1 = 1%nat end) -> rt = rate_after cs ->
  (if Nat.ltb 1 (length cs) then sqrt (INR (if Nat.eqb (length cs) 2 then c else t1)) / sqrt (INR c) else rt) = rate_after (cs ++ [c]) /\
  (match cs ++ [c] with _ :: _ :: x :: _ => (if Nat.eqb (length cs) 2 then c else t1) = x | _ => (if Nat.eqb (length cs) 2 then c else t1) = 1%nat end).
Proof.
  destruct cs as [|a [|b [|x cs]]]; intros H ->; cbn [length app Nat.ltb Nat.leb Nat.eqb]; auto.
  subst t1. split; [|reflexivity]. unfold rate_after. change (a :: b :: x :: cs ++ [c]) with ((a :: b :: x :: cs) ++ [c]). rewrite last_last. reflexivity.
Qed.
Lemma rising_snoc cs c : rising cs -> (forall x, In x cs -> (x <= c)%nat) -> rising (cs ++ [c]).
Proof.
  intros H K i j Hij. rewrite app_length in Hij. cbn [length] in Hij. destruct (Nat.lt_ge_cases j (length cs)) as [L|L].
  - rewrite !app_nth1 by lia. apply H. lia.
  - rewrite (app_nth2 _ _ _ L). replace (j - length cs)%nat with O by lia. cbn [nth]. destruct (Nat.lt_ge_cases i (length cs)) as [L2|L2]; [rewrite app_nth1 by exact L2; apply K, nth_In, L2|].
    rewrite app_nth2 by exact L2. replace (i - length cs)%nat with O by lia. cbn. lia.
Qed.

Section Rates.
Variables (pw : R -> R -> R) (kind : qnorm) (pr : params) (flex eps aprox big : R) (d : data R) (clk : nat -> nat -> bool) (stop : nat -> bool).
Hypotheses (HR : rect d) (HQ : kind = L1 -> (0 < dim d)%nat) (HS : (0 < size d)%nat).
(** The solution is that of the start as long as no update has been made. *)
Definition blank (s : fstate) : Prop := f_ctot s = O -> (f_w s = [] \/ f_w s = repeat 0 (dim d)) /\ f_b s = 0 /\ f_norm s = 0 /\ f_al s = repeat 0 (size d).
Definition rated (st : ima) (cs : list nat) : Prop :=
  length cs = im_it st /\ length (im_printed st) = im_it st /\ rising cs /\ (forall c, In c cs -> (1 <= c <= f_ctot (im_f st))%nat) /\ im_rate st = rate_after cs /\
  (match cs with _ :: _ :: x :: _ => im_t1 st = x | _ => im_t1 st = 1%nat end) /\ (cs = [] -> blank (im_f st)).
Lemma rates_loop : forall fuel st st' cs, rated st cs -> f_w (im_f st) = [] \/ length (f_w (im_f st)) = dim d -> length (f_al (im_f st)) = size d -> Permutation (f_index (im_f st)) (map Z.of_nat (seq 0 (size d))) ->
  ima_loop pw kind pr flex eps aprox big d clk stop fuel st = Ok (Some st') -> exists cs', rated st' cs'.
Proof.
  induction fuel as [|fuel IH]; intros st st' cs (A1 & A2 & A3 & A4 & A5 & A6 & A7) Hw Ha Hp E; cbn [ima_loop] in E.
  all: destruct (itrain_inv pw kind (mkParams (im_rate st) (max_it pr) (max_up pr)) (im_gamma st) flex eps d HR HQ (fun s => (f_ctot (im_f st) <= f_ctot s)%nat /\ (cs = [] -> blank s)) (clk (im_it st)) None (im_steps st) (im_f st))
    as (s & func & steps & Et & Lw & La & P & Lf & (Q1 & Q2) & Se);
    [ intros idx s s' _ _ _ (H1 & H2) (_ & _ & _ & _ & _ & _ & Ec); split; [lia|intros _ Z; lia] | intros s H; exact H | exact Hw | exact Ha | exact Hp |
      cbn [f_ctot]; split; [lia|]; intros Zc Z; cbn [f_ctot f_w f_b f_norm f_al] in *; destruct (A7 Zc Z) as (B1 & B2 & B3 & B4); split; [right; destruct B1 as [-> | ->]; [reflexivity|destruct (repeat 0 (dim d)) eqn:ER; [rewrite <- ER|]; reflexivity]|auto] |].
  all: rewrite Et in E; cbn [obind] in E; destruct (Nat.eqb_spec (f_e s) 0) as [Z|Z].
  2, 4: injection E as <-; exists cs; split; [exact A1|]; split; [exact A2|]; split; [exact A3|]; split; [intros c Hc; specialize (A4 c Hc); cbn [im_f]; lia|]; auto.
  all: destruct (ima_body flex aprox big d st s func steps) as [st1| |] eqn:EB; cbn [obind] in E; try discriminate E.
  all: destruct (body_rate _ _ _ _ _ _ _ _ _ EB) as (B1 & B2 & B3 & B4 & B5 & B6 & B7 & B8).
  all: assert (1 <= f_ctot s)%nat as C1 by (destruct (f_ctot s) eqn:EC; [exfalso|lia]; destruct cs as [|c0 cs0];
         [ destruct (Q2 eq_refl EC) as (W0 & b0 & n0 & a0); destruct (Se Z O HS) as (G & _); rewrite b0, n0, a0 in G; unfold yf in G; rewrite nz_repeat in G;
           assert (inner (dim d) (f_w s) (p_x (pt d 0)) = 0) as I0 by (destruct W0 as [-> | ->]; [unfold inner; apply sumn_zero; intros; unfold nz; destruct i; cbn; ring|apply inner_zeros]); rewrite I0 in G; lra
         | specialize (A4 c0 (or_introl eq_refl)); lia ]).
  all: assert (rated st1 (cs ++ [f_ctot s])) as R1 by
    ( rewrite <- A1 in B4, B5; destruct (rate_snoc cs (f_ctot s) (im_t1 st) (im_rate st) A6 A5) as (S1 & S2); rewrite <- B4 in S1, S2; split; [rewrite app_length, B1, A1; cbn; lia|]; split; [lia|];
      split; [apply rising_snoc; [exact A3|intros x Hx; specialize (A4 x Hx); lia]|]; split; [intros c Hc; apply in_app_or in Hc; rewrite B2; destruct Hc as [Hc|[<-|[]]]; [specialize (A4 c Hc)|]; lia|];
      split; [rewrite B5; exact S1|]; split; [exact S2|]; intro F; destruct cs; discriminate F ).
  - destruct (_ || _) in E; [injection E as <-; eauto|discriminate E].
  - destruct (_ || _) in E; [injection E as <-; eauto|]. apply (IH st1 st' _ R1); [right; rewrite B6; exact Lw|rewrite B7; exact La|rewrite B8; exact P|exact E].
Qed.
End Rates.

(** C140: the support vectors are the points whose alpha exceeds eps times the learning rate after the last successful call; that rate is 1 up to the second such call, then the square root of t / c, with t and c the numbers of updates
    after the third and after the last one. The counts start at 1 or more, do not decrease, and there are as many as reported margins. *)
Lemma c140_rates : forall (pw : R -> R -> R) (kind : qnorm) (pr : params) (flex eps aprox big : R) (d : data R) (clk : nat -> nat -> bool) (stop : nat -> bool) (margin : R) r,
  rect d -> d_index d = [] \/ index_perm d -> (kind = L1 -> (0 < dim d)%nat) -> (0 < size d)%nat -> ima_train pw kind pr flex eps aprox big d clk stop margin = Ok (Some r) ->
  exists cs, length cs = length (re_printed r) /\ rising cs /\ (forall c, In c cs -> (1 <= c <= re_ctot r)%nat) /\
    forall i, In i (re_svs r) <-> (i < size d)%nat /\ eps * rate_after cs < nz (re_alpha r) i.
Proof.
  intros pw kind pr flex eps aprox big d clk stop margin r HR HI HQ HS E. unfold ima_train in E. destruct (ima_loop _ _ _ _ _ _ _ _ _ _ _ _) as [[st|]| |] eqn:EL; cbn [obind] in E; try discriminate E. injection E as <-.
  destruct (rates_loop pw kind pr flex eps aprox big d clk stop HR HQ HS (max_it pr) (ima_start d margin) st []) with (5 := EL) as (cs & A1 & A2 & A3 & A4 & A5 & _).
  - split; [reflexivity|]. split; [reflexivity|]. split; [intros i j H; cbn in H; lia|]. split; [intros c []|]. split; [reflexivity|]. split; [reflexivity|]. intros _ _. cbn [ima_start im_f f_w f_b f_norm f_al]. auto.
  - left. reflexivity.
  - cbn [ima_start im_f f_al]. apply repeat_length.
  - cbn [ima_start im_f f_index]. unfold index_perm in HI. destruct (d_index d) eqn:EI; [apply Permutation_refl|]. destruct HI as [HI|HI]; [discriminate|exact HI].
  - exists cs. cbn [re_printed re_ctot re_svs re_alpha]. split; [lia|]. split; [exact A3|]. split; [exact A4|]. intro i. rewrite filter_In, in_seq, A5. destruct (Rlt_dec _ _); split; intros (H1 & H2); split; auto; try lia; try discriminate H2; contradiction.
Qed.
Lemma last_at (l : list nat) : last l O = nth (length l - 1) l O.
Proof. induction l as [|a [|b l] IH]; [reflexivity|reflexivity|]. cbn [length Nat.sub] in *. rewrite Nat.sub_0_r in IH. exact IH. Qed.
Lemma rate_bounds cs : rising cs -> (forall c, In c cs -> (1 <= c)%nat) -> 0 < rate_after cs <= 1 /\ ((length cs <= 3)%nat -> rate_after cs = 1).
Proof.
  intros H K. destruct cs as [|a [|b [|x cs]]]; cbn [rate_after]; try (split; [lra|auto]). set (l := a :: b :: x :: cs) in *.
  pose proof (last_at l) as EL.
  pose proof (H 2%nat (length l - 1)%nat ltac:(cbn [l length]; lia)) as L. change (nth 2 l O) with x in L. rewrite <- EL in L. pose proof (K x ltac:(cbn; auto)) as X1. apply le_INR in L, X1. cbn [INR] in X1.
  assert (0 < sqrt (INR x)) as P1 by (apply sqrt_lt_R0; lra). assert (sqrt (INR x) <= sqrt (INR (last l O))) as P2 by (apply sqrt_le_1; lra). split.
  - split; [apply Rdiv_lt_0_compat; lra|]. apply Rmult_le_reg_r with (sqrt (INR (last l O))); [lra|]. unfold Rdiv. rewrite Rmult_assoc, Rinv_l by lra. lra.
  - intro L3. assert (last l O = x) as ->. { rewrite EL. destruct cs; [reflexivity|cbn [l length] in L3; lia]. } apply Rinv_r. lra.
Qed.
(** C140: hence, for eps at least 0, every support vector has a positive alpha and every point whose alpha exceeds eps is a support vector; after at most three reported margins these are the only ones. *)
Lemma c140_support : forall (pw : R -> R -> R) (kind : qnorm) (pr : params) (flex eps aprox big : R) (d : data R) (clk : nat -> nat -> bool) (stop : nat -> bool) (margin : R) r,
  rect d -> d_index d = [] \/ index_perm d -> (kind = L1 -> (0 < dim d)%nat) -> (0 < size d)%nat -> 0 <= eps -> ima_train pw kind pr flex eps aprox big d clk stop margin = Ok (Some r) ->
  forall i, (In i (re_svs r) -> 0 < nz (re_alpha r) i) /\ ((i < size d)%nat -> eps < nz (re_alpha r) i -> In i (re_svs r)) /\
    ((length (re_printed r) <= 3)%nat -> In i (re_svs r) -> eps < nz (re_alpha r) i).
Proof.
  intros pw kind pr flex eps aprox big d clk stop margin r HR HI HQ HS He E i. destruct (c140_rates _ _ _ _ _ _ _ _ _ _ _ _ HR HI HQ HS E) as (cs & A1 & A2 & A3 & A4).
  destruct (rate_bounds cs A2 (fun c H => proj1 (A3 c H))) as ((B1 & B2) & B3). assert (0 <= eps * rate_after cs) as P by (apply Rmult_le_pos; lra). assert (eps * rate_after cs <= eps * 1) as P2 by (apply Rmult_le_compat_l; lra). split; [|split].
  - intro H. apply A4 in H. destruct H. lra.
  - intros H1 H2. apply A4. split; [exact H1|lra].
  - intros L H. apply A4 in H. rewrite B3 in H by lia. lra.
Qed.
Lemma c140_rates_ex : exists r, ima_train (fun _ _ => 0) L2 (lim 1 1) 0 (1/1000) 0 100 ix (fun _ _ => true) (fun _ => true) 0 = Ok (Some r) /\ re_ok r = true /\ rect ix /\ index_perm ix /\ (0 < size ix)%nat.
Proof. destruct c92_separates_ex as (r & A & B & C & D & _). exists r. split; [exact A|]. split; [exact B|]. split; [exact C|]. split; [exact D|]. cbn. lia. Qed.
