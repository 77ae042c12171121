(** Model of the ensembles: /repo/subprojects/ufjfmltk-ensemble/include/ufjfmltk/ensemble/{VotingClassifier,PerceptronCommittee,BaggingClassifier,
    AdaBoostClassifier,AutoWeightedVoting}.hpp. The answers of the members are inputs ([preds], [good]); classes and answers are integers.
    A number that is not real (log 0, 0/0) ends the modelled run with [None]. *)
From Coq Require Import ZArith Bool List Reals.
From Verif Require Import Base M_Data Loop M_Knn.
Import ListNotations.
Local Open Scope nat_scope.

(** std::max_element(v.begin(), v.end()) - v.begin(): the first largest; 0 on the empty vector. *)
Fixpoint max_from (best : R) (bi i : nat) (l : list R) : nat :=
  match l with
  | [] => bi
  | x :: r => if Rlt_dec best x then max_from x i (S i) r else max_from best bi (S i) r
  end.
(** std::max_element (VotingClassifier.hpp:55, PerceptronCommittee.hpp:44): the first maximum. *)
Definition max_element (l : list R) : nat := match l with [] => 0 | x :: r => max_from x 0 1 r end.

(** std::find_if(classes, == pred) - classes.begin() is [find_pos]: the number of classes when there is none. *)
(** votes[pred_pos] += weights[i], VotingClassifier.hpp:46-54. Both are Points, whose operator[] asserts the index. *)
Definition cast (weights : list R) (classes : list Z) (preds : list Z) (votes : list R) (i : nat) : outcome (list R) :=
  let* pred := vget preds i in
  let pos := find_pos pred classes in
  let* _ := pat votes pos in
  let* w := pat weights i in
  vupd pos (fun v => (v + w)%R) votes.
(** VotingClassifier.hpp:38-57 after the weights are settled. *)
Definition weighted_vote (weights : list R) (classes : list Z) (preds : list Z) : outcome Z :=
  let* votes := ofold (cast weights classes preds) (seq 0 (length preds)) (repeat 0%R (length classes)) in
  vget classes (max_element votes).
(** The classifier: weights and voting type. VotingClassifier.hpp:14-18. *)
Record voter := mkVoter { vo_weights : list R; vo_soft : bool }.
(** VotingClassifier.hpp:38-57: hard voting overwrites the weights by ones (Point::operator= keeps a longer tail, Point.hpp:300-310). *)
Definition voter_evaluate (v : voter) (classes : list Z) (preds : list Z) : outcome (voter * Z) :=
  if vo_soft v then
    if Nat.eqb (length (vo_weights v)) 0 then Abort
    else let* c := weighted_vote (vo_weights v) classes preds in Ok (v, c)
  else
    let w := repeat 1%R (length preds) ++ skipn (length preds) (vo_weights v) in
    let* c := weighted_vote w classes preds in Ok (mkVoter w false, c).
(** VotingClassifier.hpp:59-63: [n] learners. *)
Definition set_weights (v : voter) (n : nat) (w : list R) : outcome voter :=
  if Nat.eqb (length w) n then Ok (mkVoter w (vo_soft v)) else Abort.
(** VotingClassifier.hpp:67. *)
Definition set_voting_type (v : voter) (soft : bool) : voter := mkVoter (vo_weights v) soft.

(** A history of calls of one classifier: setWeights with [n] learners, setVotingType, evaluate. VotingClassifier.hpp:38-67. *)
Inductive vcall := V_weights (n : nat) (w : list R) | V_type (soft : bool) | V_eval (classes preds : list Z).
(** VotingClassifier.hpp:38-67: one call. *)
Definition vcall_run (v : voter) (c : vcall) : outcome voter :=
  match c with
  | V_weights n w => set_weights v n w
  | V_type soft => Ok (set_voting_type v soft)
  | V_eval classes preds => let* r := voter_evaluate v classes preds in Ok (fst r)
  end.
(** VotingClassifier.hpp:38-67: a history of calls. *)
Definition voter_run (calls : list vcall) (v : voter) : outcome voter := ofold vcall_run calls v.

(** PerceptronCommittee.hpp:30-46 and BaggingClassifier.hpp:44-53 (there the votes are integers): one vote per learner. *)
Definition committee_evaluate (classes : list Z) (preds : list Z) : outcome Z :=
  let* votes := ofold (fun votes pred => let pos := find_pos pred classes in let* _ := pat votes pos in vupd pos (fun v => (v + 1)%R) votes) preds (repeat 0%R (length classes)) in
  vget classes (max_element votes).

(** AdaBoostClassifier.hpp:43-55, one round: [good i] tells whether the learner answers the label of point i; [K] is the number of classes. *)
Definition log (x : R) : option R := if Rlt_dec 0 x then Some (ln x) else None.
(** Point.hpp:285-293: sum(). *)
Definition suml (l : list R) : R := fold_left Rplus l 0%R.
(** Point.hpp:527-537: dot. *)
Definition dotl (a b : list R) : R := suml (map (fun p => fst p * snd p)%R (combine a b)).
(** AdaBoostClassifier.hpp:52. *)
Definition boost_alpha (err : R) (K : nat) : option R :=
  match (if Rlt_dec 0 err then log ((1 - err) / err) else Some 1%R), log (INR (K - 1)) with
  | Some a, Some b => Some (a + b)%R
  | _, _ => None
  end.
(** AdaBoostClassifier.hpp:42-55; [good i]: the learner is right about point [i]. *)
Definition boost_round (K : nat) (good : nat -> bool) (w : list R) : option (R * list R) :=
  let errors := map (fun i => if good i then 0%R else nth i w 0%R) (seq 0 (length w)) in
  if Req_EM_T (suml w) 0 then None else
  match boost_alpha (dotl w errors / suml w)%R K with
  | None => None
  | Some a =>
      let w1 := map (fun p => fst p * exp (a * snd p))%R (combine w errors) in
      if Req_EM_T (suml w1) 0 then None else Some (a, map (fun x => x / suml w1)%R w1)
  end.
(** AdaBoostClassifier.hpp:30-60: the weights before the first round (Point::assign) and the rounds; the alphas in order. *)
Fixpoint boost_rounds (K : nat) (answers : list (nat -> bool)) (w : list R) : option (list R * list R) :=
  match answers with
  | [] => Some ([], w)
  | good :: r =>
      match boost_round K good w with
      | None => None
      | Some (a, w') => match boost_rounds K r w' with Some (al, w'') => Some (a :: al, w'') | None => None end
      end
  end.
(** AdaBoostClassifier.hpp:30-60. *)
Definition adaboost_train (n K : nat) (answers : list (nat -> bool)) : option (list R * list R) :=
  boost_rounds K answers (repeat (1 / INR n)%R n).
(** AdaBoostClassifier.hpp:62-74. *)
Definition adaboost_evaluate (alphas : list R) (classes : list Z) (preds : list Z) : outcome Z :=
  let* prob := map_outcome (fun c => ofold (fun s m => let* p := vget preds m in if Z.eqb p c then let* a := pat alphas m in Ok (s + a)%R else Ok s) (seq 0 (length preds)) 0%R) classes in
  vget classes (max_element prob).

(** AutoWeightedVoting.hpp:38-71. The vector t has no effect on the result, except that its index is asserted: with fewer than two weights the first access fails.
    [us] are the entries u[i], u[i-1], ..., u[0] still to visit, [k] = n - i. *)
Fixpoint simplex_scan (us : list R) (k : nat) (tmpsum : R) : R * option R :=
  match us with
  | [] => (tmpsum, None)
  | u :: r =>
      let s := (tmpsum + u)%R in
      let tmax := ((s - 1) / INR k)%R in
      if Rle_dec u tmax then (s, Some tmax) else simplex_scan r (S k) s
  end.
(** std::sort of the coordinates (AutoWeightedVoting.hpp:38-71). *)
Definition rsort (l : list R) : list R := isort (fun a b => if Rle_dec a b then true else false) l.
(** AutoWeightedVoting.hpp:38-71. *)
Definition simplex_projection (y : list R) : outcome (list R) :=
  if Nat.ltb (length y) 2 then Abort else
  match rev (rsort y) with
  | [] => Abort
  | last :: us =>
      let (s, t) := simplex_scan us 2 0 in
      let that := match t with Some v => v | None => ((s + last - 1) / INR (length y))%R end in
      Ok (map (fun v => let x := (v - that)%R in if Rlt_dec x 0 then 0%R else x) y)
  end.
