(** Property lemmas for the committee of perceptrons: C109. *)
From Coq Require Import ZArith Bool List Lia Reals Lra Permutation.
From Verif Require Import Base ListLib M_Data L_Data2 M_Point L_Point L_Vec Loop L_Valid M_Kernel S_Kernel L_Kernel M_Perc S_Perc T_Perc S_Ima M_Balanced T_Balanced M_Knn M_Ens S_Ens T_Ens M_Pcom.
Import ListNotations.
Local Open Scope R_scope.

(** *** any rearrangement is a shuffle *)
Lemma shuffle_to {A} (l l' : list A) : Permutation l' l -> exists perm, Permutation perm (seq 0 (length l)) /\ permute perm l = Ok l'.
Proof.
  intro P. symmetry in P. destruct l as [|a l0] eqn:El; [apply Permutation_nil in P as ->; exists []; split; [constructor|reflexivity]|]. rewrite <- El in *. clear l0 El. pose proof (Permutation_length P) as L.
  apply (Permutation_nth l l' a) in P as (_ & f & Bf & Inj & E). set (n := length l) in *. assert (Permutation (map f (seq 0 n)) (seq 0 n)) as Pf.
  { apply NoDup_Permutation_bis; [|rewrite map_length; auto|].
    - assert (forall k s, (s + k <= n)%nat -> NoDup (map f (seq s k))) as Q; [|apply (Q n 0%nat); lia]. induction k as [|k IH]; intros s Ls; [constructor|]. cbn [seq map]. constructor; [|apply IH; lia]. intro I. apply in_map_iff in I as (x & Ex & Ix). apply in_seq in Ix. apply Inj in Ex; lia.
    - intros x I. apply in_map_iff in I as (y & <- & I). apply in_seq in I. apply in_seq. specialize (Bf y). lia. }
  exists (map f (seq 0 n)). split; [exact Pf|]. destruct (permute_perm l (map f (seq 0 n)) Pf) as (r & -> & Pr & Er). f_equal. pose proof (Permutation_length Pr) as Lr. apply (nth_ext _ _ a a); [lia|]. intros i Li.
  assert (i < n)%nat as Ln by (unfold n; lia). rewrite E by auto. apply (f_equal (fun q => nth_error q i)) in Er. rewrite !nth_error_map in Er. rewrite (nth_error_nth' r a Li) in Er. rewrite (nth_error_nth' (seq 0 n) 0%nat) in Er by (rewrite seq_length; auto). rewrite seq_nth in Er by auto. cbn [option_map Nat.add] in Er.
  injection Er as Er. symmetry. apply nth_error_nth. symmetry. exact Er.
Qed.
(** Training on a rearranged dataset is training on the dataset with another shuffle. *)
Lemma train_moved (d d' : data R) perm : (d_size d <= length (d_index d))%nat -> (d_size d' <= length (d_index d'))%nat -> Permutation (d_points d') (d_points d) -> Permutation perm (seq 0 (size d')) ->
  exists perm', Permutation perm' (seq 0 (size d)) /\ forall big rate me mu late w0, bp_train big rate me mu late w0 perm d' = bp_train big rate me mu late w0 perm' d.
Proof.
  intros HI HI' P HP. destruct (shuffle_spec d' perm HI' HP) as (d2 & E2 & P2 & _). destruct (shuffle_to (d_points d) (d_points d2)) as (perm' & Pp & Ep); [etransitivity; eauto|]. exists perm'. split; [exact Pp|].
  intros big rate me mu late w0. destruct (shuffle_spec d perm' HI Pp) as (d3 & E3 & _). unfold bp_train. rewrite E2, E3. cbn [obind]. unfold shuffle in E3. rewrite Ep in E3. cbn [obind] in E3. destruct (reset_prefix _ _); try discriminate. cbn [obind] in E3. injection E3 as <-. reflexivity.
Qed.

Section Committee.
Variables (big : R) (max_epoch max_up : nat) (late : nat -> nat -> bool) (ws : nat -> vec) (perms : nat -> list nat) (d : data R).
Hypothesis HR : rect d.
Hypothesis HI : (d_size d <= length (d_index d))%nat.
Hypothesis HP : forall i, Permutation (perms i) (seq 0 (size d)).
(** The committee after [k] members: the samples are rearranged, and every member is what training alone on the original gives, for some shuffle. *)
Definition formed (k : nat) (s : data R * list (vec * R)) : Prop :=
  Permutation (d_points (fst s)) (d_points d) /\ d_classes (fst s) = d_classes d /\ d_dist (fst s) = d_dist d /\ (d_size (fst s) <= length (d_index (fst s)))%nat /\ length (snd s) = k /\
  forall i, (i < k)%nat -> exists w b perm n ok, nth_error (snd s) i = Some (w, b) /\ Permutation perm (seq 0 (size d)) /\ bp_train big (1 / 2) max_epoch max_up (late i) (ws i) perm d = Ok (w, b, n, ok).
Lemma pcom_formed n : (forall i, length (ws i) = dim d) -> exists s, pcom_train big n max_epoch max_up late ws perms d = Ok s /\ formed n s.
Proof using HR HI HP.
  intro Lw. unfold pcom_train. apply ofold_seq.
  - split; [apply Permutation_refl|]. split; [auto|]. split; [auto|]. split; [exact HI|]. split; [auto|]. intros i Hi. lia.
  - intros i [d1 ms] Li (P & Ec & Ed & Is & L & M). cbn [fst snd] in *. pose proof (Permutation_length P) as Lp. assert (Permutation (perms i) (seq 0 (size d1))) as HP1 by (unfold size in *; rewrite Lp; apply HP).
    destruct (train_moved d d1 (perms i) HI Is P HP1) as (perm' & Pp & Et). destruct (c95_total big (1 / 2) max_epoch max_up (late i) (ws i) perm' d HR HI Pp (Lw i)) as (w & b & n' & ok & Er & _).
    destruct (shuffle_spec d1 (perms i) Is HP1) as (d2 & E2 & P2 & _ & _ & _ & C2 & D2 & S2 & _ & _ & _ & _ & _ & I2 & _).
    exists (d2, ms ++ [(w, b)]). unfold pcom_member. cbn [fst snd]. rewrite Et, Er. cbn [obind]. rewrite E2. cbn [obind fst snd]. split; [reflexivity|]. split; [etransitivity; eauto|]. split; [cbn [fst]; congruence|]. split; [cbn [fst]; congruence|]. split; [cbn [fst]; lia|]. split; [cbn [snd]; rewrite app_length, L; cbn; lia|]. cbn [snd].
    intros j Hj. destruct (Nat.eq_dec j i) as [->|N]; [exists w, b, perm', n', ok; split; [rewrite nth_error_app2, L, Nat.sub_diag by lia; reflexivity|auto]|].
    destruct (M j ltac:(lia)) as (w' & b' & q & n2 & ok' & A1 & A2). exists w', b', q, n2, ok'. split; [rewrite nth_error_app1 by lia; auto|auto].
Qed.
End Committee.

(** C109: training always ends, with n members, each one a perceptron trained alone on the committee's samples in some order; the samples are rearranged, no more. *)
Lemma c109_train : forall (big : R) (n max_epoch max_up : nat) (late : nat -> nat -> bool) (ws : nat -> vec) (perms : nat -> list nat) (d : data R),
  rect d -> (d_size d <= length (d_index d))%nat -> (forall i, Permutation (perms i) (seq 0 (size d))) -> (forall i, length (ws i) = dim d) ->
  exists d' ms, pcom_train big n max_epoch max_up late ws perms d = Ok (d', ms) /\ Permutation (d_points d') (d_points d) /\ d_classes d' = d_classes d /\ d_dist d' = d_dist d /\ length ms = n /\
    forall i, (i < n)%nat -> exists w b perm k ok, nth_error ms i = Some (w, b) /\ Permutation perm (seq 0 (size d)) /\ bp_train big (1 / 2) max_epoch max_up (late i) (ws i) perm d = Ok (w, b, k, ok).
Proof.
  intros big n me mu late ws perms d HR HI HP Lw. destruct (pcom_formed big me mu late ws perms d HR HI HP n Lw) as ([d' ms] & E & P & Ec & Ed & Is & L & M). exists d', ms. auto 10.
Qed.
Lemma all_same_vote classes y n : NoDup classes -> In y classes -> (0 < n)%nat -> committee_evaluate classes (repeat y n) = Ok y.
Proof.
  intros ND I Hn. assert (classes <> []) as NE by (intro; subst; destruct I). destruct (c52_committee classes (repeat y n) ND NE) as (c & -> & (bf & af & E & B & A)); [intros x J; apply repeat_spec in J; congruence|].
  assert (forall x, ballots (repeat y n) x = if Z.eq_dec y x then n else 0%nat) as Bl. { intro x. unfold ballots. clear. induction n as [|n IH]; cbn; [destruct (Z.eq_dec y x); auto|]. rewrite IH. destruct (Z.eq_dec y x); auto. }
  f_equal. destruct (Z.eq_dec y c) as [|N]; [auto|]. exfalso. rewrite E in I. apply in_app_or in I as [I|[I|I]]; [apply B in I|congruence|apply A in I]; rewrite !Bl in I; destruct (Z.eq_dec y y); try congruence; destruct (Z.eq_dec y c); try congruence; apply lt_INR in Hn; cbn [INR] in *; lra.
Qed.
(** C109: on points that a hyperplane through the origin separates, with limits large enough for the margin, a committee of one or more members answers the label of every training point, whatever
    the weights drawn and the shuffles. *)
Lemma c109_separable : forall (n : nat) (ws : nat -> vec) (d : data R) (u : vec) (g : R),
  rect d -> (d_size d <= length (d_index d))%nat -> (forall i, length (ws i) = dim d) -> 0 < g -> binary d -> NoDup (d_classes d) -> (forall p, In p (d_points d) -> In (p_y p) (d_classes d)) -> (0 < n)%nat ->
  (forall p, In p (d_points d) -> g <= IZR (p_y p) * inner (dim d) u (p_x p)) ->
  exists K, forall (big : R) (max_epoch max_up : nat) (late : nat -> nat -> bool) (perms : nat -> list nat), 0 <= big -> (forall i, Permutation (perms i) (seq 0 (size d))) -> (K <= max_up)%nat -> (K < max_epoch)%nat -> (forall i e, late i e = false) ->
    exists d' ms, pcom_train big n max_epoch max_up late ws perms d = Ok (d', ms) /\ forall p, In p (d_points d) -> pcom_evaluate d' ms p = Ok (p_y p).
Proof.
  intros n ws d u g HR HI Lw Hg HB ND HC Hn Sep.
  assert (forall m, exists K, forall i, (i < m)%nat -> forall (big : R) (max_epoch max_up : nat) (lt : nat -> bool) (perm : list nat), Permutation perm (seq 0 (size d)) ->
    (K <= max_up)%nat -> (K < max_epoch)%nat -> (forall e, lt e = false) -> exists w b k, bp_train big (1 / 2) max_epoch max_up lt (ws i) perm d = Ok (w, b, k, true)) as HK.
  { induction m as [|m (K & IH)]; [exists 0%nat; intros i Hi; lia|]. destruct (c95_converges (1 / 2) (ws m) d u g HR HI (Lw m) ltac:(lra) Hg HB Sep) as (K' & H'). exists (Nat.max K K'). intros i Hi big me mu lt perm HP A B C.
    destruct (Nat.eq_dec i m) as [->|N]; [destruct (H' big me mu lt perm HP ltac:(lia) ltac:(lia) C) as (w & b & k & E & _); eauto|apply IH; auto; lia]. }
  destruct (HK n) as (K & H). exists K. intros big me mu late perms Hb HP A B C. destruct (pcom_formed big me mu late ws perms d HR HI HP n Lw) as ([d' ms] & E & P & Ec & Ed & Is & L & M). exists d', ms. split; [exact E|]. cbn [fst snd] in *.
  intros p Ip. unfold pcom_evaluate. rewrite (map_outcome_ok _ (fun _ => p_y p)).
  - cbn [obind]. assert (map (fun _ => p_y p) ms = repeat (p_y p) n) as -> by (rewrite <- L; clear; induction ms; cbn; congruence). rewrite Ec. apply all_same_vote; auto.
  - intros [w b] I. apply In_nth_error in I as (i & Ei). assert (i < n)%nat as Li by (rewrite <- L; apply nth_error_Some; congruence). destruct (M i Li) as (w' & b' & perm & k & ok & E1 & Pp & Et). rewrite Ei in E1. injection E1 as <- <-. cbn [fst snd].
    destruct (H i Li big me mu (late i) perm Pp A B (C i)) as (w2 & b2 & k2 & E2). rewrite Et in E2. injection E2 as -> -> -> ->. eapply (c95_classifies big (1 / 2) me mu (late i) (ws i) perm d); eauto. lia.
Qed.
(** C109: evaluation takes the majority of the signs when both labels are listed; a tie goes to the label listed first. *)
Lemma c109_majority : forall (d' : data R) (ms : list (vec * R)) (p : point R), NoDup (d_classes d') -> In 1%Z (d_classes d') -> In (-1)%Z (d_classes d') -> (forall w b, In (w, b) ms -> length w = length (p_x p)) ->
  exists preds c, Forall2 (fun m y => (y = 1%Z /\ 0 <= inner (length (p_x p)) (fst m) (p_x p) + snd m) \/ (y = (-1)%Z /\ inner (length (p_x p)) (fst m) (p_x p) + snd m < 0)) ms preds /\
    pcom_evaluate d' ms p = Ok c /\ first_largest (d_classes d') (fun x => INR (ballots preds x)) c.
Proof.
  intros d' ms p ND I1 I2 Lw. assert (exists preds, map_outcome (fun m => bp_evaluate (fst m) (snd m) p) ms = Ok preds /\ incl preds (d_classes d') /\
    Forall2 (fun m y => (y = 1%Z /\ 0 <= inner (length (p_x p)) (fst m) (p_x p) + snd m) \/ (y = (-1)%Z /\ inner (length (p_x p)) (fst m) (p_x p) + snd m < 0)) ms preds) as (preds & E & I & F).
  { induction ms as [|[w b] ms IH]; [exists []; split; [reflexivity|]; split; [intros x []|constructor]|]. destruct IH as (preds & E & I & F); [intros; apply (Lw w0 b0); now right|]. cbn [map_outcome fst snd]. unfold bp_evaluate at 1. rewrite (sign_ok (length (p_x p))) by (auto; apply (Lw w b); now left).
    cbn [obind]. rewrite E. cbn [obind]. eexists. split; [reflexivity|]. destruct (Rle_dec 0 _) as [N|N]; (split; [intros x [<-|J]; auto|constructor; [|exact F]]); cbn [fst snd]; [left|right]; split; auto; lra. }
  destruct (c52_committee (d_classes d') preds ND) as (c & Ec & Fc); [intro N; rewrite N in I1; destruct I1|exact I|]. exists preds, c. split; [exact F|]. split; [unfold pcom_evaluate; rewrite E; exact Ec|exact Fc].
Qed.
(** C109: when a label is missing from the classes (one class only, or labels other than 1 and -1), evaluation stops as soon as one member answers it. *)
Lemma vote_unknown classes : forall preds votes, (exists y, In y preds /\ ~ In y classes) -> length votes = length classes ->
  ofold (fun votes pred => let pos := find_pos pred classes in let* _ := M_Knn.pat votes pos in vupd pos (fun v => v + 1) votes) preds votes = Abort.
Proof.
  induction preds as [|x preds IH]; intros votes (y & I & N) L; [destruct I|]. cbn [ofold]. cbv zeta. destruct (in_dec Z.eq_dec x classes) as [J|J].
  - pose proof (proj1 (find_pos_In x classes) J) as Lt. unfold M_Knn.pat at 1. destruct (nth_error votes (find_pos x classes)) eqn:Q; [|apply nth_error_None in Q; lia]. cbn [obind]. destruct (vupd_lt (find_pos x classes) (fun v => v + 1) votes) as (v' & U & ->); [lia|]. cbn [obind].
    apply IH; [|rewrite <- L; eapply upd_length; eauto]. destruct I as [->|I]; [contradiction|eauto].
  - assert (find_pos x classes = length classes) as -> by (pose proof (find_pos_le x classes); rewrite find_pos_In in J; lia). unfold M_Knn.pat at 1. destruct (nth_error votes (length classes)) eqn:Q; [|reflexivity]. exfalso. assert (length classes < length votes)%nat by (apply nth_error_Some; congruence). lia.
Qed.
Lemma c109_unlisted_refuted : forall (d' : data R) (ms : list (vec * R)) (p : point R) w b, (forall w b, In (w, b) ms -> length w = length (p_x p)) -> In (w, b) ms ->
  (0 <= inner (length (p_x p)) w (p_x p) + b /\ ~ In 1%Z (d_classes d')) \/ (inner (length (p_x p)) w (p_x p) + b < 0 /\ ~ In (-1)%Z (d_classes d')) -> pcom_evaluate d' ms p = Abort.
Proof.
  intros d' ms p w b Lw I H. unfold pcom_evaluate. rewrite (map_outcome_ok _ (fun m => if Rle_dec 0 (inner (length (p_x p)) (fst m) (p_x p) + snd m) then 1%Z else (-1)%Z)).
  - cbn [obind]. unfold committee_evaluate. rewrite vote_unknown; [reflexivity| |apply repeat_length]. eexists. split; [apply in_map_iff; exists (w, b); split; [reflexivity|exact I]|]. cbn [fst snd]. destruct (Rle_dec 0 _) as [N|N]; destruct H as [[A B]|[A B]]; auto; lra.
  - intros [w' b'] J. cbn [fst snd]. unfold bp_evaluate. apply sign_ok; [eapply Lw; eauto|auto].
Qed.
(** C109: a committee without members answers the class listed first for every point. *)
Lemma c109_empty_refuted : forall (big : R) (max_epoch max_up : nat) (late : nat -> nat -> bool) (ws : nat -> vec) (perms : nat -> list nat) (d : data R) c cs p, d_classes d = c :: cs ->
  exists d' ms, pcom_train big 0 max_epoch max_up late ws perms d = Ok (d', ms) /\ pcom_evaluate d' ms p = Ok c.
Proof.
  intros big me mu late ws perms d c cs p E. exists d, []. split; [reflexivity|]. unfold pcom_evaluate. cbn [map_outcome obind]. unfold committee_evaluate. cbn [ofold obind]. rewrite E. cbn [length repeat max_element].
  assert (forall l bi i, max_from 0 bi i (repeat 0 l) = bi) as -> by (induction l as [|l IH]; intros bi i; cbn [repeat max_from]; [auto|]; destruct (Rlt_dec 0 0); [lra|apply IH]). reflexivity.
Qed.
(** The hypotheses are met. *)
Lemma c109_train_ex : rect by1 /\ (d_size by1 <= length (d_index by1))%nat /\ (forall i : nat, Permutation [0; 1]%nat (seq 0 (size by1))) /\ (forall i : nat, length [INR i] = dim by1).
Proof. destruct by1_ok as (A & B & C & _). auto. Qed.
Lemma c109_separable_ex : rect by1 /\ (d_size by1 <= length (d_index by1))%nat /\ (forall i : nat, length [INR i] = dim by1) /\ binary by1 /\ NoDup (d_classes by1) /\ (forall p, In p (d_points by1) -> In (p_y p) (d_classes by1)) /\
  forall p, In p (d_points by1) -> 1 <= IZR (p_y p) * inner (dim by1) [1] (p_x p).
Proof.
  destruct c95_converges_ex as (A & B & C). split; [exact A|]. split; [apply by1_ok|]. split; [reflexivity|]. split; [exact B|]. split; [cbn; repeat constructor; cbn; lia|]. split; [intros p [<-|[<-|[]]]; cbn; auto|exact C].
Qed.
Lemma c109_majority_ex : NoDup (d_classes by1) /\ In 1%Z (d_classes by1) /\ In (-1)%Z (d_classes by1) /\ (forall w b, In (w, b) [([1], 0); ([2], 1)] -> length w = length (p_x (mkPoint [3] 0%Z 0%Z 0))).
Proof. split; [cbn; repeat constructor; cbn; lia|]. split; [now left|]. split; [right; now left|]. intros w b [E|[E|[]]]; injection E as <- <-; reflexivity. Qed.
Lemma c109_unlisted_refuted_ex : (forall w b, In (w, b) [([1], 0)] -> length w = length (p_x (mkPoint [-3] 0%Z 0%Z 0))) /\ inner 1 [1] [-3] + 0 < 0 /\ ~ In (-1)%Z (d_classes (mkData [mkPoint [1] 1%Z 1%Z 0] [1]%Z [0]%Z [] [1]%Z [1]%Z 1 1 false false false true)).
Proof. split; [intros w b [E|[]]; injection E as <- <-; reflexivity|]. split; [unfold inner; cbn; lra|]. cbn. lia. Qed.
