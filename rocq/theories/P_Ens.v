(** Property theorems: Property lemmas for ensembles: C52, C53, C54, C82, C83.
    Each is closed by the lemma of the same (lower-case) name in T_Ens.v. *)
From Coq Require Import ZArith Bool List Reals Lra Lia Psatz Permutation Sorted.
From Verif Require Import Base ListLib M_Data L_Vec Loop L_Valid M_Knn L_Knn M_Ens S_Ens.
From Verif Require Import T_Ens.
Import ListNotations.
Local Open Scope R_scope.

(** C52: voting with the given weights: the first class of largest total weight. *)
Theorem C52_weighted : forall w classes preds, NoDup classes -> classes <> [] -> incl preds classes -> length w = length preds -> preds <> [] ->
  exists c, voter_evaluate (mkVoter w true) classes preds = Ok (mkVoter w true, c) /\ first_largest classes (weight_for w preds) c.
Proof. exact c52_weighted. Qed.
Print Assumptions C52_weighted.

Example C52_weighted_ex : NoDup [1; -1; 3]%Z /\ [1; -1; 3]%Z <> [] /\ incl [3; 1]%Z [1; -1; 3]%Z /\ length [/ 4; / 2] = length [3; 1]%Z /\ [3; 1]%Z <> [].
Proof. exact c52_weighted_ex. Qed.

(** C52: hard voting, committees and bagging: the first class with the most learners, whatever weights were set before. *)
Theorem C52_hard : forall w classes preds, NoDup classes -> classes <> [] -> incl preds classes ->
  exists v c, voter_evaluate (mkVoter w false) classes preds = Ok (v, c) /\ first_largest classes (fun x => INR (ballots preds x)) c.
Proof. exact c52_hard. Qed.
Print Assumptions C52_hard.

Example C52_hard_ex : NoDup [1; -1; 3]%Z /\ [1; -1; 3]%Z <> [] /\ incl [3; 3; 1]%Z [1; -1; 3]%Z.
Proof. exact c52_hard_ex. Qed.

Theorem C52_committee : forall classes preds, NoDup classes -> classes <> [] -> incl preds classes ->
  exists c, committee_evaluate classes preds = Ok c /\ first_largest classes (fun x => INR (ballots preds x)) c.
Proof. exact c52_committee. Qed.
Print Assumptions C52_committee.

Example C52_committee_ex : NoDup [1; -1; 3]%Z /\ [1; -1; 3]%Z <> [] /\ incl [3; 3; 1]%Z [1; -1; 3]%Z.
Proof. exact c52_committee_ex. Qed.

Theorem C52_majority : forall w classes preds v c m, NoDup classes -> incl preds classes -> voter_evaluate (mkVoter w false) classes preds = Ok (v, c) ->
  (length preds < 2 * ballots preds m)%nat -> c = m.
Proof. exact c52_majority. Qed.
Print Assumptions C52_majority.

Example C52_majority_ex : exists v c, voter_evaluate (mkVoter [] false) [1; -1; 3]%Z [3; 3; 1]%Z = Ok (v, c) /\ (length [3; 3; 1]%Z < 2 * ballots [3; 3; 1]%Z 3)%nat.
Proof. exact c52_majority_ex. Qed.

(** C52: the guard: a learner that answers something else than a class of the training data fails an assertion. *)
Theorem C52_unknown_refuted : forall w soft classes p, ~ In p classes -> length w = 1%nat -> voter_evaluate (mkVoter w soft) classes [p] = Abort.
Proof. exact c52_unknown_refuted. Qed.
Print Assumptions C52_unknown_refuted.

Example C52_unknown_refuted_ex : ~ In 2%Z [1; -1]%Z /\ length [1] = 1%nat.
Proof. exact c52_unknown_refuted_ex. Qed.

(** C83: an evaluation with hard voting overwrites the weights that were set: a later evaluation with soft voting uses ones. *)
Theorem C83_weights_refuted : exists w classes preds v1 v2 v3 c1 c2, set_weights (mkVoter [] true) 3 w = Ok v1 /\ weighted_vote w classes preds = Ok (-1)%Z /\
  voter_evaluate (set_voting_type v1 false) classes preds = Ok (v2, c1) /\ voter_evaluate (set_voting_type v2 true) classes preds = Ok (v3, c2) /\ c2 = 1%Z.
Proof. exact c83_weights_refuted. Qed.
Print Assumptions C83_weights_refuted.

(** C83: without a hard evaluation in between, the weights that were set are used by every soft evaluation. *)
Theorem C83_weights : forall w n classes preds v, set_weights (mkVoter [] true) n w = Ok v -> NoDup classes -> classes <> [] -> incl preds classes -> length preds = n -> preds <> [] ->
  exists c, voter_evaluate v classes preds = Ok (v, c) /\ first_largest classes (weight_for w preds) c.
Proof. exact c83_weights. Qed.
Print Assumptions C83_weights.

Example C83_weights_ex : exists v, set_weights (mkVoter [] true) 2 [/ 4; / 2] = Ok v /\ incl [3; 1]%Z [1; -1; 3]%Z.
Proof. exact c83_weights_ex. Qed.

(** C83, histories: the voting type is always the last one given. *)
Theorem C83_type : forall calls v v', voter_run calls v = Ok v' -> vo_soft v' = last_type calls (vo_soft v).
Proof. exact c83_type. Qed.
Print Assumptions C83_type.

(** C83, histories in which every evaluation happens under soft voting: the weights are the last ones given.
    Evaluations under hard voting overwrite them: c83_weights_refuted. *)
Theorem C83_history : forall calls v v', voter_run calls v = Ok v' ->
  (forall before classes preds after, calls = before ++ V_eval classes preds :: after -> last_type before (vo_soft v) = true) ->
  vo_weights v' = last_weights calls (vo_weights v).
Proof. exact c83_history. Qed.
Print Assumptions C83_history.

Example C83_history_ex : exists v, voter_run [V_weights 2 [/ 4; / 2]; V_type true; V_eval [1; -1; 3]%Z [3; 1]%Z] (mkVoter [] false) = Ok v.
Proof. exact c83_history_ex. Qed.

(** C53: with at least two points and two classes, after any number of rounds with any learners the weights are positive and sum to one. *)
Theorem C53_distribution : forall n K answers, (2 <= n)%nat -> (2 <= K)%nat ->
  exists alphas w, adaboost_train n K answers = Some (alphas, w) /\ length alphas = length answers /\ length w = n /\ distribution w.
Proof. exact c53_distribution. Qed.
Print Assumptions C53_distribution.

Example C53_distribution_ex : (2 <= 3)%nat /\ (2 <= 2)%nat.
Proof. exact c53_distribution_ex. Qed.

(** C53: the guards: with one class, or one point that a learner gets wrong, a logarithm of zero is taken. *)
Theorem C53_one_class_refuted : forall n answer answers, (1 <= n)%nat -> adaboost_train n 1 (answer :: answers) = None.
Proof. exact c53_one_class_refuted. Qed.
Print Assumptions C53_one_class_refuted.

Example C53_one_class_refuted_ex : (1 <= 3)%nat.
Proof. exact c53_one_class_refuted_ex. Qed.

Theorem C53_one_point_refuted : forall K answer answers, answer 0%nat = false -> adaboost_train 1 K (answer :: answers) = None.
Proof. exact c53_one_point_refuted. Qed.
Print Assumptions C53_one_point_refuted.

Example C53_one_point_refuted_ex : (fun _ : nat => false) 0%nat = false.
Proof. exact c53_one_point_refuted_ex. Qed.

(** C53: the answer is the first class of the training data of largest total vote of the learners. *)
Theorem C53_evaluate : forall alphas classes preds, classes <> [] -> length alphas = length preds ->
  exists c, adaboost_evaluate alphas classes preds = Ok c /\ In c classes /\ first_largest classes (weight_for alphas preds) c.
Proof. exact c53_evaluate. Qed.
Print Assumptions C53_evaluate.

Example C53_evaluate_ex : [1; 2]%Z <> [] /\ length [1; 3] = length [2; 2]%Z.
Proof. exact c53_evaluate_ex. Qed.

Theorem C82_alpha_refuted : forall n K, (2 <= n)%nat -> (2 <= K)%nat ->
  let good := fun i => negb (Nat.eqb i 0) in let w := repeat (1 / INR n) n in
  wrong_weight good w = 1 / INR n /\
  exists a w', boost_round K good w = Some (a, w') /\ a = samme_alpha K (1 / INR n * (1 / INR n)) /\ a <> samme_alpha K (1 / INR n).
Proof. exact c82_alpha_refuted. Qed.
Print Assumptions C82_alpha_refuted.

Example C82_alpha_refuted_ex : (2 <= 4)%nat /\ (2 <= 3)%nat.
Proof. exact c82_alpha_refuted_ex. Qed.

Theorem C82_direction : forall K good w a w' i j, distribution w -> (2 <= length w)%nat -> (2 <= K)%nat -> boost_round K good w = Some (a, w') ->
  (i < length w)%nat -> (j < length w)%nat -> good i = false -> good j = true ->
  (0 < a <-> nth i w 0 / nth j w 0 < nth i w' 0 / nth j w' 0).
Proof. exact c82_direction. Qed.
Print Assumptions C82_direction.

Example C82_direction_ex : exists a w', distribution [/ 2; / 2] /\ boost_round 2 (fun i => Nat.eqb i 0) [/ 2; / 2] = Some (a, w').
Proof. exact c82_direction_ex. Qed.

Theorem C82_all_right : forall K w a w', distribution w -> (2 <= length w)%nat -> (2 <= K)%nat -> boost_round K (fun _ => true) w = Some (a, w') -> w' = w /\ a = 1 + ln (INR (K - 1)).
Proof. exact c82_all_right. Qed.
Print Assumptions C82_all_right.

Example C82_all_right_ex : exists a w', distribution [/ 2; / 2] /\ boost_round 2 (fun _ => true) [/ 2; / 2] = Some (a, w').
Proof. exact c82_all_right_ex. Qed.

(** C54: the result never has a negative weight. *)
Theorem C54_nonneg : forall y x, simplex_projection y = Ok x -> length x = length y /\ Forall (fun v => 0 <= v) x.
Proof. exact c54_nonneg. Qed.
Print Assumptions C54_nonneg.

(** C54: two or more non-negative weights whose excess over a common lower bound is at most one: the result is on the simplex, and is the projection: all weights move by the same amount. *)
Theorem C54_simplex : forall y m, (2 <= length y)%nat -> 0 <= m -> Forall (fun v => m <= v) y -> sum y - INR (length y) * m <= 1 ->
  exists x t, simplex_projection y = Ok x /\ on_simplex x /\ x = map (fun v => v - t) y.
Proof. exact c54_simplex. Qed.
Print Assumptions C54_simplex.

Example C54_simplex_ex : (2 <= length [1/4; 1; 1/2])%nat /\ 0 <= 1/4 /\ Forall (fun v => 1/4 <= v) [1/4; 1; 1/2] /\ sum [1/4; 1; 1/2] - INR (length [1/4; 1; 1/2]) * (1/4) <= 1.
Proof. exact c54_simplex_ex. Qed.

(** C54: outside that guard the result can miss the simplex, also for weights between zero and one: (0, 1, 1) is returned as it is; one weight fails an assertion. *)
Theorem C54_sum_refuted : exists y x, Forall (fun v => 0 <= v <= 1) y /\ simplex_projection y = Ok x /\ sum x = 2.
Proof. exact c54_sum_refuted. Qed.
Print Assumptions C54_sum_refuted.

Theorem C54_short_refuted : forall y, (length y < 2)%nat -> simplex_projection y = Abort.
Proof. exact c54_short_refuted. Qed.
Print Assumptions C54_short_refuted.

Example C54_short_refuted_ex : (length [1] < 2)%nat.
Proof. exact c54_short_refuted_ex. Qed.

