(** Model of the regressors: /repo/subprojects/ufjfmltk-regressor/include/ufjfmltk/regressor/{KNNRegressor,LMS,PrimalRegressor,Metrics}.hpp.
    A sample is a vector and its (real) label; a dataset is a list of samples. *)
From Coq Require Import Bool List Reals.
From Verif Require Import Base Loop M_Point.
Import ListNotations.
Local Open Scope nat_scope.

(** The values and the real label of a point (Point.hpp:45-47). *)
Definition sample := (list R * R)%type.

(** KNNRegressor.hpp:34-60. std::stable_sort is a stable sort; the sum is divided by k ([None] for 0/0); reading idx[j] past the end is undefined. *)
Definition knn_regress (dist : list R -> list R -> R) (k : nat) (s : list sample) (q : list R) : outcome (option R) :=
  let ds := map (fun p => dist q (fst p)) s in
  let less i j := if Rlt_dec (nth i ds 0%R) (nth j ds 0%R) then true else false in
  let idx := isort (fun i j => negb (less j i)) (seq 0 (length s)) in
  let* sum := osum k (fun j => let* i := vget idx j in let* p := vget s i in Ok (snd p)) in
  Ok (if Nat.eqb k 0 then None else Some (sum / INR k)%R).

(** Metrics.hpp:11-14: pow(real - predicted, 2).sum()/real.size(). *)
Definition mse (real predicted : list R) : outcome (option R) :=
  if Nat.eqb (length real) (length predicted) then
    let* s := psum (U Pow2 (B Sub (V real) (V predicted))) in
    Ok (if Nat.eqb (length real) 0 then None else match s with Some v => Some (v / INR (length real))%R | None => None end)
  else Abort.

(** PrimalRegressor.hpp:23-37: a point of another dimension gives 0. *)
Definition primal_value (w : list R) (bias : R) (p : list R) : outcome R :=
  if Nat.eqb (length p) (length w)
  then ofold (fun f i => let* a := vget w i in let* x := vget p i in Ok (f + a * x)%R) (seq 0 (length w)) bias
  else Ok 0%R.

(** LMS.hpp:57-69, one example: the weights [w], the bias, the sum of squared errors so far. The reads of the input assert k < size, and w += ... asserts equal sizes. *)
Record lms := mkLms { lm_w : list R; lm_bias : R; lm_cost : R }.
(** LMS.hpp:57-69. *)
Definition lms_step (rate : R) (dim : nat) (s : lms) (e : sample) : outcome lms :=
  if Nat.eqb (length (fst e)) dim && Nat.eqb (length (lm_w s)) dim then
    let* func := ofold (fun f k => let* x := vget (fst e) k in let* a := vget (lm_w s) k in Ok (f + x * a)%R) (seq 0 dim) (lm_bias s) in
    let error := (snd e - func)%R in
    Ok (mkLms (map (fun p => fst p + rate * error * snd p)%R (combine (lm_w s) (fst e))) (lm_bias s + (snd e - func))%R (lm_cost s + (snd e - func) * (snd e - func))%R)
  else Abort.
(** LMS.hpp:55-80. [max_it] further passes at most; [late p] is the outcome of the clock test after pass p. The result: weights, bias, number of complete passes
    before the last one (the value of steps). *)
Fixpoint lms_loop (rate EPS : R) (dim : nat) (late : nat -> bool) (data : list sample) (max_it p : nat) (w : list R) (bias prev : R) : outcome (list R * R * nat) :=
  match max_it with
  | 0 => Ok (w, bias, p)
  | S m =>
      let* s := ofold (lms_step rate dim) data (mkLms w bias 0) in
      let cost := (lm_cost s * (1 / 2))%R in
      if Rle_dec (Rabs (cost - prev)) EPS then Ok (lm_w s, lm_bias s, p)
      else if late p then Ok (lm_w s, lm_bias s, p)
      else lms_loop rate EPS dim late data m (S p) (lm_w s) (lm_bias s) cost
  end.
(** LMS.hpp:40-97: the weights start from zero, the bias from that of the solution. *)
Definition lms_train (rate EPS : R) (dim : nat) (late : nat -> bool) (data : list sample) (max_it : nat) (bias0 : R) : outcome (list R * R * nat) :=
  lms_loop rate EPS dim late data max_it 0 (repeat 0%R dim) bias0 0%R.
