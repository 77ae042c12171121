(** Model of BalancedPerceptron (/repo/subprojects/ufjfmltk-classifier/include/ufjfmltk/classifier/Perceptron.hpp:79-155), over the reals.

    Simplifications: the weights drawn by random_init (Point.hpp:565-575) and the permutation of shuffle are arguments; the clock is an oracle
    ([late e]: the time is over after epoch [e]); DBL_MAX is the parameter [big]; the counters are natural numbers; the points' label is an integer. *)
From Coq Require Import ZArith Bool List Reals.
From Verif Require Import Base M_Data M_Point.
Import ListNotations.
Local Open Scope R_scope.

(** The training variables: weights, bias, ite (updates so far), errors of this epoch. *)
Record bstate := mkB { b_w : vec; b_b : R; b_ite : nat; b_err : nat }.

(** Perceptron.hpp:108: dot(weights, point) + bias >= 0. *)
Definition bp_sign (w : vec) (b : R) (p : point R) : outcome Z :=
  let* f := pdot w (p_x p) in Ok (if Rle_dec 0 (f + b) then 1%Z else (-1)%Z).

(** Perceptron.hpp:111: weights += rate * point * y; the sizes are those dot has checked. *)
Fixpoint bp_add (c : R) (w x : vec) : vec :=
  match w, x with a :: w', v :: x' => (a + c * v) :: bp_add c w' x' | _, _ => w end.

(** Perceptron.hpp:106-122: one pass; the second component is [stop]. *)
Fixpoint bp_pass (rate : R) (max_up : nat) (ps : list (point R)) (s : bstate) : outcome (bstate * bool) :=
  match ps with
  | [] => Ok (s, false)
  | p :: r =>
      let* pred := bp_sign (b_w s) (b_b s) p in
      let s' := if Z.eqb (p_y p) pred then s
                else mkB (bp_add (rate * IZR (p_y p)) (b_w s) (p_x p)) (b_b s + rate * b_b s) (S (b_ite s)) (S (b_err s)) in
      if Nat.ltb max_up (b_ite s') then Ok (s', true) else bp_pass rate max_up r s'
  end.

(** Perceptron.hpp:104-125: the epochs, of which [left] are left. *)
Fixpoint bp_loop (rate : R) (max_up : nat) (late : nat -> bool) (ps : list (point R)) (left epoch : nat) (s : bstate) : outcome bstate :=
  match left with
  | O => Ok s
  | S l =>
      let* r := bp_pass rate max_up ps (mkB (b_w s) (b_b s) (b_ite s) 0) in
      let (s1, stop) := r in
      if stop || late (S epoch) || Nat.eqb (b_err s1) 0 then Ok s1 else bp_loop rate max_up late ps l (S epoch) s1
  end.

(** Perceptron.hpp:127-133: gamma1 and gamma2. *)
Fixpoint bp_gammas (w : vec) (b : R) (ps : list (point R)) (g : R * R) : outcome (R * R) :=
  match ps with
  | [] => Ok g
  | p :: r =>
      let* v := pdot w (p_x p) in
      let f := IZR (p_y p) * (v + b) in
      let g1 := if Z.eqb (p_y p) 1 then (if Rlt_dec f (fst g) then f else fst g) else fst g in
      let g2 := if Z.eqb (p_y p) (-1) then (if Rlt_dec f (snd g) then f else snd g) else snd g in
      bp_gammas w b r (g1, g2)
  end.

(** Perceptron.hpp:134-140: the shift of the bias. *)
Definition bp_shift (b : R) (g : R * R) : R :=
  let a1 := Rabs (fst g) in let a2 := Rabs (snd g) in
  let rmargin := if Rlt_dec a2 a1 then a2 else a1 in
  let mmargin := (a1 + a2) / 2 in
  if Rlt_dec a1 a2 then b + Rabs (mmargin - rmargin) else b - Rabs (mmargin - rmargin).

(** Perceptron.hpp:92-145: train(): weights, bias, updates and answer. *)
Definition bp_train (big rate : R) (max_epoch max_up : nat) (late : nat -> bool) (w0 : vec) (perm : list nat) (d : data R)
  : outcome (vec * R * nat * bool) :=
  let* d' := shuffle perm d in
  let* s := bp_loop rate max_up late (d_points d') max_epoch 0 (mkB w0 0 0 0) in
  let* g := bp_gammas (b_w s) (b_b s) (d_points d') (big, big) in
  Ok (b_w s, bp_shift (b_b s) g, b_ite s, Nat.eqb (b_err s) 0).

(** Perceptron.hpp:147-153: evaluate with raw_value = false. *)
Definition bp_evaluate (w : vec) (b : R) (p : point R) : outcome Z := bp_sign w b p.
