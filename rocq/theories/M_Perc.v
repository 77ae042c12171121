(** Model of the perceptrons
    (/repo/subprojects/ufjfmltk-classifier/include/ufjfmltk/classifier/Perceptron.hpp) and of the
    evaluation functions of PrimalClassifier.hpp and DualClassifier.hpp, over the reals.

    Simplifications: doubles are reals; the counters steps and ctot are natural numbers (they are ints bounded by the limits);
    the clock is an oracle: [clk k] says whether the k-th test of the elapsed time still allows a pass;
    the local vector func of the primal trainer, written but never read across points, is left out. *)
From Coq Require Import ZArith Bool List Reals.
From Verif Require Import Base M_Data M_Point L_Vec Loop M_Kernel.
Import ListNotations.
Local Open Scope nat_scope.

(** A vector<int> entry used as an index. Perceptron.hpp:196, 427. *)
Definition zidx (z : Z) : outcome nat := if Z.ltb z 0 then UB else Ok (Z.to_nat z).
(** Point::operator[] asserts its index (Point.hpp:247-255). *)
Definition aget {A} (l : list A) (i : nat) : outcome A := match nth_error l i with Some a => Ok a | None => Abort end.
(** The assignment to an element of a Point, with the assert of Point.hpp:247-255. *)
Definition aupd {A} (i : nat) (f : A -> A) (l : list A) : outcome (list A) := match upd i f l with Some r => Ok r | None => Abort end.

(** Learner.hpp:22-40: rate, MAX_IT, MAX_UP. *)
Record params := mkParams { rate : R; max_it : nat; max_up : nat }.

(** The state a training run changes: solution.w, bias, norm (Solution.hpp:16-30), ctot, and the mistakes [e] of the current pass. *)
Record pstate := mkP { ps_w : vec; ps_b : R; ps_norm : R; ps_ctot : nat; ps_e : nat }.

(** Perceptron.hpp:201-203: func = bias; func += w[j] * x[j]. *)
Definition decision (dim : nat) (w x : vec) (b : R) : outcome R :=
  ofold (fun f j => let* a := aget w j in let* c := vget x j in Ok (f + a * c)%R) (seq 0 dim) b.

(** Perceptron.hpp:207-210: w[j] += rate * y * x[j]; norm += w[j] * w[j]. *)
Definition bump (dim : nat) (c : R) (x w : vec) : outcome (vec * R) :=
  ofold (fun s j =>
    let* v := vget x j in let* w1 := aupd j (fun a => a + c * v)%R (fst s) in let* a := aget w1 j in
    Ok (w1, snd s + a * a)%R) (seq 0 dim) (w, 0%R).

Section Primal.
Variable pr : params.
Variable d : data R.

(** Perceptron.hpp:195-216: one pass; [is] are the positions still to visit. *)
Fixpoint ppass (steps : nat) (is : list nat) (s : pstate) : outcome pstate :=
  match is with
  | [] => Ok s
  | i :: r =>
      let* z := vget (d_index d) i in let* idx := zidx z in
      let* p := vget (d_points d) idx in
      let y := IZR (p_y p) in
      let* f := decision (dim d) (ps_w s) (p_x p) (ps_b s) in
      if Rle_dec (y * f) 0 then
        let* u := bump (dim d) (rate pr * y) (p_x p) (ps_w s) in
        ppass steps r (mkP (fst u) (ps_b s + rate pr * y)%R (sqrt (snd u)) (S (ps_ctot s)) (S (ps_e s)))
      else if Nat.ltb 0 steps && Nat.ltb 1 (ps_e s) then Ok s
      else ppass steps r s
  end.

(** Perceptron.hpp:194-223: the loop; [k] clock tests have been made. Every pass increments steps, so
    [S max_it] passes are enough: [None] (fuel used up) is never returned, see perceptron_terminates. *)
Fixpoint ploop (clk : nat -> bool) (fuel k steps : nat) (s : pstate) : outcome (option (pstate * nat)) :=
  if clk k then
    match fuel with
    | O => Ok None
    | S fuel' =>
        let* s1 := ppass steps (seq 0 (size d)) (mkP (ps_w s) (ps_b s) (ps_norm s) (ps_ctot s) 0) in
        let steps1 := S steps in
        if Nat.eqb (ps_e s1) 0 || Nat.ltb (max_it pr) steps1 || Nat.ltb (max_up pr) (ps_ctot s1) then Ok (Some (s1, steps1))
        else ploop clk fuel' (S k) steps1 s1
    end
  else Ok (Some (s, steps)).

(** Perceptron.hpp:180-226: PerceptronPrimal::train. [w0] is solution.w before, [ctot0] and [steps0] the counters before.
    Returns the final state, the steps and the answer. *)
Definition ptrain (clk : nat -> bool) (w0 : vec) (steps0 ctot0 : nat) : outcome (option (pstate * nat * bool)) :=
  let w := match w0 with [] => repeat 0%R (dim d) | _ => w0 end in
  let* r := ploop clk (S (max_it pr)) 0 steps0 (mkP w 0 0 ctot0 0) in
  Ok (match r with None => None | Some (s, st) => Some (s, st, Nat.eqb (ps_e s) 0) end).
End Primal.

(** PrimalClassifier.hpp:42-57: evaluate (raw_value is ignored); 0 on a dimension mismatch. *)
Definition primal_evaluate (w : vec) (b : R) (x : vec) : outcome Z :=
  if negb (Nat.eqb (length x) (length w)) then Ok 0%Z
  else let* f := ofold (fun f j => let* a := aget w j in let* c := aget x j in Ok (f + a * c)%R) (seq 0 (length w)) b in
       Ok (if Rle_dec 0 f then 1%Z else (-1)%Z).

(** DualClassifier.hpp:28-44: evaluate. *)
Definition dual_evaluate (pw : R -> R -> R) (k : kernel) (d : data R) (alpha : vec) (b : R) (p : point R) : outcome Z :=
  if negb (Nat.eqb (length (p_x p)) (dim d)) then Ok 0%Z
  else let* f := ofold (fun f r =>
         let* q := vget (d_points d) r in let* v := kfun pw k p q (dim d) None in let* a := vget alpha r in
         Ok (f + a * IZR (p_y q) * v)%R) (seq 0 (size d)) b in
       Ok (if Rle_dec 0 f then 1%Z else (-1)%Z).

(** ** The dual perceptron Perceptron.hpp:402-464: the local variables. *)
Record dstate := mkD { ds_alpha : vec; ds_b : R; ds_norm : R; ds_ctot : nat; ds_e : nat }.

Section Dual.
Variable pr : params.
Variable d : data R.
Variable K : list (list R).

(** Perceptron.hpp:430-432; index is 0..size-1 (Perceptron.hpp:415). *)
Definition dual_decision (n idx : nat) (alpha : vec) (b : R) : outcome R :=
  ofold (fun f r => let* a := vget alpha r in let* q := vget (d_points d) r in let* v := mget K idx r in
                    Ok (f + a * IZR (p_y q) * v)%R) (seq 0 n) b.

(** Perceptron.hpp:426-442: one pass. y is an int: the label. *)
Fixpoint dpass (steps : nat) (is : list nat) (s : dstate) : outcome dstate :=
  match is with
  | [] => Ok s
  | i :: r =>
      let* p := vget (d_points d) i in
      let y := IZR (p_y p) in
      let* f := dual_decision (size d) i (ds_alpha s) (ds_b s) in
      if Rle_dec (y * f) 0 then
        let* kii := mget K i i in
        let nn := sqrt (ds_norm s * ds_norm s + 2 * rate pr * y * (f - ds_b s) + rate pr * rate pr * kii) in
        let* al := vupd i (fun a => a + rate pr)%R (ds_alpha s) in
        dpass steps r (mkD al (ds_b s + rate pr * y)%R nn (S (ds_ctot s)) (S (ds_e s)))
      else if Nat.ltb 0 steps && Nat.ltb 1 (ds_e s) then Ok s
      else dpass steps r s
  end.

(** Perceptron.hpp:422-450. *)
Fixpoint dloop (clk : nat -> bool) (fuel k steps : nat) (s : dstate) : outcome (option (dstate * nat)) :=
  if clk k then
    match fuel with
    | O => Ok None
    | S fuel' =>
        let* s1 := dpass steps (seq 0 (size d)) (mkD (ds_alpha s) (ds_b s) (ds_norm s) (ds_ctot s) 0) in
        let steps1 := S steps in
        if Nat.eqb (ds_e s1) 0 || Nat.ltb (max_it pr) steps1 || Nat.ltb (max_up pr) (ds_ctot s1) then Ok (Some (s1, steps1))
        else dloop clk fuel' (S k) steps1 s1
    end
  else Ok (Some (s, steps)).

(** Perceptron.hpp:455-461: solution.w[j] += alpha[i] * y_i * x_i[j]. *)
Definition dual_w (alpha : vec) (w0 : vec) : outcome vec :=
  ofold (fun w i =>
    ofold (fun w j => let* a := vget alpha i in let* p := vget (d_points d) i in let* v := vget (p_x p) j in
                      aupd j (fun c => c + a * IZR (p_y p) * v)%R w) (seq 0 (dim d)) w) (seq 0 (size d)) w0.
End Dual.

(** What PerceptronDual keeps between trainings: solution.{w,bias,norm,alpha}, this->alpha, the kernel, steps, ctot. Perceptron.hpp:402-464. *)
Record dual := mkDual { du_w : vec; du_b : R; du_norm : R; du_alpha : vec; du_k : kernel; du_steps : nat; du_ctot : nat }.

(** Perceptron.hpp:402-464: PerceptronDual::train without an initial solution. solution = Solution() (line 419) goes through
    Point::operator=, which copies the elements of the (empty) source only, so an earlier w stays (Solution.hpp:32-44, Point.hpp:300-310). *)
Definition dual_train (pw : R -> R -> R) (pr : params) (clk : nat -> bool) (d : data R) (u : dual) : outcome (option (dual * bool)) :=
  let* k := compute pw (du_k u) d None in
  let alpha := match du_alpha u with [] => repeat 0%R (size d) | a => a end in
  let* r := dloop pr d (k_K k) clk (S (max_it pr)) 0 (du_steps u) (mkD alpha (du_b u) (du_norm u) (du_ctot u) 1) in
  match r with
  | None => Ok None
  | Some (s, st) =>
      let* w := dual_w d (ds_alpha s) (vresize 0%R (dim d) (du_w u)) in
      Ok (Some (mkDual w (ds_b s) (ds_norm s) (ds_alpha s) k st (ds_ctot s), Nat.eqb (ds_e s) 0))
  end.
(** The object after construction without an initial solution (Perceptron.hpp:376-398). *)
Definition dual_fresh (k : kernel) : dual := mkDual [] 0 0 [] k 0 0.
