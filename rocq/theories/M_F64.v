(** Model, in IEEE 754 double precision, of the decision function and of the training of the primal perceptron.
    /repo/subprojects/ufjfmltk-classifier/include/ufjfmltk/classifier/PrimalClassifier.hpp:42-57 and Perceptron.hpp:178-230 of the same directory;
    M_Perc.v has the same functions over the reals. The numbers are the binary64 numbers of the Flocq library (infinities, signed zeros and one not-a-number
    included); every operation rounds to nearest, ties to even, and the compiler is assumed not to contract a product and a sum into one operation.
    Labels are integers, converted to double. *)
From Coq Require Import ZArith Bool List.
From Flocq Require Import Core BinarySingleNaN.
From Verif Require Import Base M_Data Loop M_Perc.
Import ListNotations.
Local Open Scope nat_scope.

(** The double type of PrimalClassifier.hpp:18, Solution.hpp:17-29: 53 bits, exponents below 1024. *)
Definition b64 := binary_float 53 1024.
#[global] Instance prec53 : Prec_gt_0 53 := eq_refl.
#[global] Instance emax1024 : Prec_lt_emax 53 1024 := eq_refl.
(** The operators +, * and <= on doubles (PrimalClassifier.hpp:52-53, 56). *)
Definition fadd (x y : b64) : b64 := Bplus mode_NE x y.
(** PrimalClassifier.hpp:53. *)
Definition fmul (x y : b64) : b64 := Bmult mode_NE x y.
(** PrimalClassifier.hpp:56, Perceptron.hpp:206. *)
Definition fle (x y : b64) : bool := Bleb x y.
(** 0.0 (Perceptron.hpp:188, 206). *)
Definition fzero : b64 := B754_zero false.
(** The label as a double (Perceptron.hpp:199). *)
Definition fofZ (z : Z) : b64 := binary_normalize 53 1024 prec53 emax1024 mode_NE z 0 false.

(** Perceptron.hpp:202-203: func = bias; func += w[j] * x[j]. *)
Definition fdecision (dim : nat) (w x : list b64) (b : b64) : outcome b64 :=
  ofold (fun f j => let* a := aget w j in let* c := vget x j in Ok (fadd f (fmul a c))) (seq 0 dim) b.
(** PrimalClassifier.hpp:42-57: evaluate. *)
Definition fevaluate (w : list b64) (b : b64) (x : list b64) : outcome Z :=
  if negb (Nat.eqb (length x) (length w)) then Ok 0%Z
  else let* f := ofold (fun f j => let* a := aget w j in let* c := aget x j in Ok (fadd f (fmul a c))) (seq 0 (length w)) b in
       Ok (if fle fzero f then 1%Z else (-1)%Z).

(** The parameters of training, Learner.hpp:22-40. *)
Record fparams := mkFparams { f_rate : b64; f_max_it : nat; f_max_up : nat }.
(** The state of training, Solution.hpp:17-29 and Perceptron.hpp:181. *)
Record fstate := mkF { fs_w : list b64; fs_b : b64; fs_norm : b64; fs_ctot : nat; fs_e : nat }.
(** Perceptron.hpp:207-210: w[j] += rate * y * x[j]; norm += w[j] * w[j]; [c] is rate * y. *)
Definition fbump (dim : nat) (c : b64) (x w : list b64) : outcome (list b64 * b64) :=
  ofold (fun s j =>
    let* v := vget x j in let* w1 := aupd j (fun a => fadd a (fmul c v)) (fst s) in let* a := aget w1 j in
    Ok (w1, fadd (snd s) (fmul a a))) (seq 0 dim) (w, fzero).

Section Train.
Variable pr : fparams.
Variable d : data b64.
(** Perceptron.hpp:195-216: one pass. *)
Fixpoint fpass (steps : nat) (is : list nat) (s : fstate) : outcome fstate :=
  match is with
  | [] => Ok s
  | i :: r =>
      let* z := vget (d_index d) i in let* idx := zidx z in
      let* p := vget (d_points d) idx in
      let y := fofZ (p_y p) in
      let* f := fdecision (dim d) (fs_w s) (p_x p) (fs_b s) in
      if fle (fmul y f) fzero then
        let* u := fbump (dim d) (fmul (f_rate pr) y) (p_x p) (fs_w s) in
        fpass steps r (mkF (fst u) (fadd (fs_b s) (fmul (f_rate pr) y)) (Bsqrt mode_NE (snd u)) (S (fs_ctot s)) (S (fs_e s)))
      else if Nat.ltb 0 steps && Nat.ltb 1 (fs_e s) then Ok s
      else fpass steps r s
  end.
(** Perceptron.hpp:193-223: the loop, as ploop of M_Perc.v. *)
Fixpoint floop (clk : nat -> bool) (fuel k steps : nat) (s : fstate) : outcome (option (fstate * nat)) :=
  if clk k then
    match fuel with
    | O => Ok None
    | S fuel' =>
        let* s1 := fpass steps (seq 0 (size d)) (mkF (fs_w s) (fs_b s) (fs_norm s) (fs_ctot s) 0) in
        let steps1 := S steps in
        if Nat.eqb (fs_e s1) 0 || Nat.ltb (f_max_it pr) steps1 || Nat.ltb (f_max_up pr) (fs_ctot s1) then Ok (Some (s1, steps1))
        else floop clk fuel' (S k) steps1 s1
    end
  else Ok (Some (s, steps)).
(** Perceptron.hpp:178-226: train. *)
Definition ftrain (clk : nat -> bool) (w0 : list b64) (steps0 ctot0 : nat) : outcome (option (fstate * nat * bool)) :=
  let w := match w0 with [] => repeat fzero (dim d) | _ => w0 end in
  let* r := floop clk (S (f_max_it pr)) 0 steps0 (mkF w fzero fzero ctot0 0) in
  Ok (match r with None => None | Some (s, st) => Some (s, st, Nat.eqb (fs_e s) 0) end).
End Train.
