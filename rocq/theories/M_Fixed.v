(** Models of PerceptronFixedMarginPrimal and PerceptronFixedMarginDual
    (/repo/subprojects/ufjfmltk-classifier/include/ufjfmltk/classifier/Perceptron.hpp:233-374 and 466-552), over the reals.

    Simplifications as in M_Perc: the clock is an oracle, the counters are natural numbers. The alphas of the points are kept in a vector, by position.
    std::pow is the parameter [pw]. The primal trainer's vector func (written and read at the same position only) is left out. *)
From Coq Require Import ZArith Bool List Reals.
From Verif Require Import Base M_Data M_Point L_Vec Loop M_Kernel M_Perc.
Import ListNotations.
Local Open Scope nat_scope.

(** The norm in use: q == 1, 2, -1 or any other value (Perceptron.hpp:282-330); 0 is not among the others here. *)
Inductive qnorm := Linf | L2 | L1 | Lp (q : R).
(** Perceptron.hpp:284, 302. *)
Definition fm_sign (a : R) : R := if Rlt_dec a 0 then (-1)%R else 1%R.
(** The state a run changes: w, bias, norm, the points' alphas, the local index, s, e, ctot, and largw and n of the L1 formulation. *)
Record fstate := mkF { f_w : vec; f_b : R; f_norm : R; f_al : vec; f_index : list Z; f_s : nat; f_e : nat; f_ctot : nat; f_lw : R; f_n : nat }.

Section Primal.
Variable pw : R -> R -> R.
Variable kind : qnorm.
Variable pr : params.
Variable gamma flex eps : R.
Variable d : data R.

(** Perceptron.hpp:268-271: func[idx] = bias; func[idx] += w[j] * x[j]. *)
Definition fm_decision (w x : vec) (b : R) : outcome R :=
  ofold (fun f j => let* a := vget w j in let* c := vget x j in Ok (f + a * c)%R) (seq 0 (dim d)) b.
(** Perceptron.hpp:283-289, 291-296, 322-329: w[j] += rate * (y * x[j] - lambda); sumnorm += ... *)
Definition fm_coord (lam acc : R -> R) (y : R) (x : vec) (s : vec * R) (j : nat) : outcome (vec * R) :=
  let* a := vget (fst s) j in let* v := vget x j in
  let a' := (a + rate pr * (y * v - lam a))%R in
  let* w' := vupd j (fun _ => a') (fst s) in Ok (w', (snd s + acc a')%R).
(** The guard (norm > 0 && w[j] != 0) of lambda, Perceptron.hpp:285, 292, 303, 323. *)
Definition fm_lam (norm : R) (v a : R) : R := if Rlt_dec 0 norm then (if Req_EM_T a 0 then 0%R else v) else 0%R.
(** Perceptron.hpp:283-288, 291-295, 322-328: the loop over the coordinates. *)
Definition fm_loop (lam acc : R -> R) (y : R) (x w : vec) : outcome (vec * R) := ofold (fm_coord lam acc y x) (seq 0 (dim d)) (w, 0%R).

(** Perceptron.hpp:297-320, one coordinate: state w, largw_temp, n_temp. A quotient by 0 is never below EPS. *)
Definition near (a b : R) : bool := if Req_EM_T a 0 then false else if Rlt_dec (Rabs (a - Rabs b) / a) eps then true else false.
(** Perceptron.hpp:300-316: one coordinate in the L1 formulation. *)
Definition fm_coord1 (norm lw : R) (n : nat) (y : R) (x : vec) (s : vec * R * nat) (j : nat) : outcome (vec * R * nat) :=
  let '(w, lt, nt) := s in
  let* a := vget w j in let* v := vget x j in
  let top := if Req_EM_T lw 0 then true else near lw a in
  let a' := (a + rate pr * (y * v - (if top then fm_lam norm (gamma * fm_sign a / INR n) a else 0)))%R in
  let* w' := vupd j (fun _ => a') w in
  if Nat.ltb 0 j then
    if near lt a' then Ok (w', lt, S nt)
    else if Rlt_dec lt (Rabs a') then Ok (w', Rabs a', 1) else Ok (w', lt, nt)
  else Ok (w', lt, nt).

(** Perceptron.hpp:282-330: new w, norm, largw, n. *)
Definition fm_step (y : R) (x : vec) (s : fstate) : outcome (vec * R * R * nat) :=
  let norm := f_norm s in let w := f_w s in
  match kind with
  | Linf => let* r := fm_loop (fun a => fm_lam norm (gamma * fm_sign a) a) Rabs y x w in Ok (fst r, snd r, f_lw s, f_n s)
  | L2 => let* r := fm_loop (fun a => fm_lam norm (a * gamma / norm) a) (fun a => a * a)%R y x w in Ok (fst r, sqrt (snd r), f_lw s, f_n s)
  | Lp q => let* r := fm_loop (fun a => fm_lam norm (a * gamma * pw (Rabs a) (q - 2) * pw norm (1 - q)) a) (fun a => pw (Rabs a) q) y x w in
            Ok (fst r, pw (snd r) (1 / q), f_lw s, f_n s)
  | L1 => let* a0 := vget w 0 in
          let* r := ofold (fm_coord1 norm (f_lw s) (f_n s) y x) (seq 0 (dim d)) (w, Rabs a0, 1%nat) in
          let '(w', lt, nt) := r in Ok (w', lt, lt, nt)
  end%R.

(** Perceptron.hpp:262-342: one pass over the positions [is]. *)
Fixpoint fpass (steps : nat) (is : list nat) (s : fstate) : outcome fstate :=
  match is with
  | [] => Ok s
  | i :: r =>
    let* z := vget (f_index s) i in let* idx := zidx z in
    let* p := vget (d_points d) idx in
    let y := IZR (p_y p) in
    let* f := fm_decision (f_w s) (p_x p) (f_b s) in
    let* al := vget (f_al s) idx in
    if Rle_dec (y * f) (gamma * f_norm s - al * flex) then
      let lambda := if Req_EM_T (f_norm s) 0 then 1%R else (1 - rate pr * gamma / f_norm s)%R in
      let al1 := map (fun a => a * lambda)%R (f_al s) in
      let* u := fm_step y (p_x p) s in
      let '(w', norm', lw', n') := u in
      let* al2 := vupd idx (fun a => a + rate pr)%R al1 in
      let k := if Nat.ltb (f_s s) i then f_s s else f_e s in
      let s' := if Nat.ltb (f_s s) i then S (f_s s) else f_s s in
      let* j := vget (f_index s) k in
      let* ix1 := vupd k (fun _ => z) (f_index s) in
      let* ix2 := vupd i (fun _ => j) ix1 in
      fpass steps r (mkF w' (f_b s + rate pr * y)%R norm' al2 ix2 s' (S (f_e s)) (S (f_ctot s)) lw' n')
    else if Nat.ltb 0 steps && Nat.ltb 1 (f_e s) && Nat.ltb (f_s s) i then Ok s
    else fpass steps r s
  end.

(** Perceptron.hpp:257-349: the loop, as in M_Perc. *)
Definition f_reset (s : fstate) : fstate := mkF (f_w s) (f_b s) (f_norm s) (f_al s) (f_index s) (f_s s) 0 (f_ctot s) (f_lw s) (f_n s).
(** Perceptron.hpp:261-349. *)
Fixpoint floop (clk : nat -> bool) (fuel k steps : nat) (s : fstate) : outcome (option (fstate * nat)) :=
  if clk k then
    match fuel with
    | O => Ok None
    | S fuel' =>
        let* s1 := fpass steps (seq 0 (size d)) (f_reset s) in
        if Nat.eqb (f_e s1) 0 || Nat.ltb (max_it pr) (S steps) || Nat.ltb (max_up pr) (f_ctot s1) then Ok (Some (s1, S steps))
        else floop clk fuel' (S k) (S steps) s1
    end
  else Ok (Some (s, steps)).
(** Perceptron.hpp:244-355: train, from solution.w = [w0], solution.bias = [b0], solution.norm = [norm0] and the points' alphas.
    Returns the final state, the steps and the answer. *)
Definition ftrain (clk : nat -> bool) (w0 : vec) (b0 norm0 : R) (steps0 ctot0 : nat) : outcome (option (fstate * nat * bool)) :=
  let w := match w0 with [] => repeat 0%R (dim d) | _ => w0 end in
  let* r := floop clk (S (max_it pr)) 0 steps0 (mkF w b0 norm0 (map p_alpha (d_points d)) (d_index d) 0 0 ctot0 0 (dim d)) in
  Ok (match r with None => None | Some (s, st) => Some (s, st, Nat.eqb (f_e s) 0) end).
End Primal.

(** ** The dual trainer. [None]: a quotient by 0 or the root of a negative number, so that a NaN or an infinity is computed. *)
Record gstate := mkG { g_func : vec; g_b : R; g_norm : R; g_al : vec; g_index : list Z; g_s : nat; g_e : nat; g_ctot : nat }.
Section Dual.
Variable pr : params.
Variable gamma : R.
Variable d : data R.
Variable K : list (list R).
(** Perceptron.hpp:510-513: func[r] = lambda * func[r] + rate * y * (K[idx][r] + 1) + bias * (1 - lambda). *)
Definition gm_func (idx : nat) (y lambda b : R) (func : vec) : outcome vec :=
  ofold (fun f r => let* k := mget K idx r in vupd r (fun a => lambda * a + rate pr * y * (k + 1) + b * (1 - lambda))%R f) (seq 0 (size d)) func.
(** Perceptron.hpp:500-528: one pass. *)
Fixpoint gpass (steps : nat) (is : list nat) (s : gstate) : outcome (option gstate) :=
  match is with
  | [] => Ok (Some s)
  | i :: r =>
    let* z := vget (g_index s) i in let* idx := zidx z in
    let* p := vget (d_points d) idx in
    let y := IZR (p_y p) in
    let* f := vget (g_func s) idx in
    if Rle_dec (y * f - gamma * g_norm s) 0 then
      if (if Req_EM_T gamma 0 then false else if Req_EM_T (g_norm s) 0 then true else false) then Ok None
      else
        let lambda := if Req_EM_T gamma 0 then 1%R else (1 - rate pr * gamma / g_norm s)%R in
        let norm1 := (g_norm s * lambda)%R in
        let al1 := map (fun a => a * lambda)%R (g_al s) in
        let* func' := gm_func idx y lambda (g_b s) (g_func s) in
        let* f' := vget func' idx in let* kii := mget K idx idx in
        let q := (norm1 * norm1 + 2 * rate pr * y * lambda * (f' - g_b s) + rate pr * rate pr * kii)%R in
        if Rlt_dec q 0 then Ok None
        else
          let* al2 := vupd idx (fun a => a + rate pr)%R al1 in
          let k := if Nat.ltb (g_s s) i then S (g_s s) else g_e s in
          let s' := if Nat.ltb (g_s s) i then S (g_s s) else g_s s in
          let* j := vget (g_index s) k in
          let* ix1 := vupd k (fun _ => z) (g_index s) in
          let* ix2 := vupd i (fun _ => j) ix1 in
          gpass steps r (mkG func' (g_b s + rate pr * y)%R (sqrt q) al2 ix2 s' (S (g_e s)) (S (g_ctot s)))
    else if Nat.ltb 0 steps && Nat.ltb 1 (g_e s) && Nat.ltb (g_s s) i then Ok (Some s)
    else gpass steps r s
  end.
(** Perceptron.hpp:491-535. The outer [None]: fuel used up. *)
Definition g_reset (s : gstate) : gstate := mkG (g_func s) (g_b s) (g_norm s) (g_al s) (g_index s) (g_s s) 0 (g_ctot s).
(** Perceptron.hpp:499-535. *)
Fixpoint gloop (clk : nat -> bool) (fuel k steps : nat) (s : gstate) : outcome (option (option (gstate * nat))) :=
  if clk k then
    match fuel with
    | O => Ok None
    | S fuel' =>
        let* r := gpass steps (seq 0 (size d)) (g_reset s) in
        match r with
        | None => Ok (Some None)
        | Some s1 => if Nat.eqb (g_e s1) 0 || Nat.ltb (max_it pr) (S steps) || Nat.ltb (max_up pr) (g_ctot s1) then Ok (Some (Some (s1, S steps)))
                     else gloop clk fuel' (S k) (S steps) s1
        end
    end
  else Ok (Some (Some (s, steps))).
(** Perceptron.hpp:541-549: solution.w[i] += Alpha_j * y_j * x_j[i]. *)
Definition gm_w (al w0 : vec) : outcome vec :=
  ofold (fun w i =>
    ofold (fun w j => let* a := vget al j in let* p := vget (d_points d) j in let* v := vget (p_x p) i in
                      aupd i (fun c => c + a * IZR (p_y p) * v)%R w) (seq 0 (size d)) w) (seq 0 (dim d)) w0.
End Dual.
(** Perceptron.hpp:479-552: train from solution.{func,bias,norm,w} = [func0], [b0], [norm0], [w0] and the points' alphas.
    Returns the final state, solution.w, the steps and the answer. *)
Definition gtrain (pw : R -> R -> R) (kern : kernel) (pr : params) (gamma : R) (clk : nat -> bool) (d : data R) (func0 w0 : vec) (b0 norm0 : R) (steps0 ctot0 : nat)
  : outcome (option (option (gstate * vec * nat * bool))) :=
  let* k := compute pw kern d None in
  let func := match func0 with [] => repeat 0%R (size d) | f => f end in
  let* r := gloop pr gamma d (k_K k) clk (S (max_it pr)) 0 steps0 (mkG func b0 norm0 (map p_alpha (d_points d)) (d_index d) 0 1 ctot0) in
  match r with
  | None => Ok None
  | Some None => Ok (Some None)
  | Some (Some (s, st)) => let* w := gm_w d (g_al s) (vresize 0%R (dim d) w0) in Ok (Some (Some (s, w, st, Nat.eqb (g_e s) 0)))
  end.
