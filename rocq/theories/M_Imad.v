(** Model of IMADual::train() (/repo/subprojects/ufjfmltk-classifier/include/ufjfmltk/classifier/IMA.hpp:553-707), over the reals.

    Simplifications: the inner trainer is the loop of M_Fixed (PerceptronFixedMarginDual); its own solution.w, which IMADual never reads, is left out, as are
    verbose output, the timer's values and the normalisation of a vector that is overwritten by the next statement (IMA.hpp:675-680). The clock is an
    oracle ([clk c t]: test number t of call number c still has time); DBL_MAX is the parameter [big]; EPS and MIN_INC (Learner.hpp:33-35) are [eps] and [inc].
    A dataset has been set (without one the code reads through a null pointer before it tests for it, IMA.hpp:557-566). *)
From Coq Require Import ZArith Bool List Reals.
From Verif Require Import Base M_Data M_Point L_Vec Loop M_Kernel M_Perc M_Fixed M_Dll M_Smo M_Weight.
Import ListNotations.
Local Open Scope R_scope.

(** IMA.hpp:616-620: points[i]->Alpha() > EPS * rate ? Alpha : 0. *)
Definition id_cut (eps rate : R) (al : vec) : vec := map (fun a => if Rlt_dec (eps * rate) a then a else 0) al.

(** IMA.hpp:615-623: the smallest non-negative and the largest negative value over the norm; a quotient by a norm of 0 is infinite or not a number and changes neither. *)
Definition id_scan (big norm : R) (d : data R) (func : vec) : outcome (R * R) :=
  ofold (fun mm i =>
    let* f := vget func i in
    Ok (if Req_EM_T norm 0 then mm
        else if Rle_dec 0 f then (if Rlt_dec (f / norm) (fst mm) then (f / norm, snd mm) else mm)
        else (if Rlt_dec (snd mm) (f / norm) then (fst mm, f / norm) else mm))) (seq 0 (size d)) (big, - big).

(** The variables of the loop IMA.hpp:604-643: the inner trainer's solution and counters with the points' alphas and the index, gamma, old_rmargin, rmargin,
    saved_alphas, it; for reference, the alphas of the last successful call and the answer of the last call. *)
Record idual := mkId { id_g : gstate; id_steps : nat; id_gamma : R; id_old : R; id_rm : R; id_saved : vec; id_it : nat; id_full : vec; id_last : bool }.

Section Train.
Variable pr : params.
Variable eps inc big : R.
Variable d : data R.
Variable K : list (list R).

(** IMA.hpp:604-643: the loop. The outer [None]: the fuel ran out; the inner one: a number that is not finite was computed. *)
Fixpoint id_loop (clk : nat -> nat -> bool) (fuel : nat) (st : idual) : outcome (option (option idual)) :=
  let g := id_g st in
  let* r := gloop pr (id_gamma st) d K (clk (id_it st)) (S (max_it pr)) 0 (id_steps st) (mkG (g_func g) (g_b g) (g_norm g) (g_al g) (g_index g) 0 1 (g_ctot g)) in
  match r with
  | None => Ok None
  | Some None => Ok (Some None)
  | Some (Some (s, steps)) =>
      if Nat.eqb (g_e s) 0 then
        let* mm := id_scan big (g_norm s) d (g_func s) in
        let rm := if Rlt_dec (Rabs (snd mm)) (Rabs (fst mm)) then Rabs (snd mm) else Rabs (fst mm) in
        let g0 := (fst mm - snd mm) / 2 in
        let gamma := if Rlt_dec g0 (inc * rm) then inc * rm else g0 in
        let st' := mkId s steps gamma rm rm (id_cut eps (rate pr) (g_al s)) (S (id_it st)) (g_al s) true in
        if Rlt_dec (rm - id_old st) eps then Ok (Some (Some st'))
        else match fuel with O => Ok None | S f => id_loop clk f st' end
      else Ok (Some (Some (mkId s steps (id_gamma st) (id_old st) (id_rm st) (id_saved st) (id_it st) (id_full st) false)))
  end.

(** IMA.hpp:555-602: where the loop starts. The points' alphas are those they come with; func is empty and is resized by the inner trainer (Perceptron.hpp:495). *)
Definition id_start : idual :=
  mkId (mkG (repeat 0 (size d)) 0 0 (map p_alpha (d_points d)) (d_index d) 0 1 0) 0 0 0 0 (repeat 0 (size d)) 0 (repeat 0 (size d)) false.
End Train.

(** What training stores: solution.w, bias, norm ([None]: not finite), margin, alpha, the support vectors, the dataset with its alphas, the answer, and for reference the alphas
    of the last successful call of the inner trainer and the answer of its last call. *)
Record id_result := mkIdr { dr_w : vec; dr_bias : R; dr_norm : option R; dr_margin : R; dr_alpha : vec; dr_svs : list nat; dr_data : data R; dr_kernel : kernel; dr_ok : bool;
                            dr_full : vec; dr_last : bool }.

(** IMA.hpp:553-707: train(). *)
Definition id_train (pw : R -> R -> R) (kern : kernel) (pr : params) (eps inc big : R) (clk : nat -> nat -> bool) (d : data R) : outcome (option (option id_result)) :=
  let* k := compute pw kern d None in
  let* r := id_loop pr eps inc big d (k_K k) clk (S (max_it pr)) (id_start d) in
  match r with
  | None => Ok None
  | Some None => Ok (Some None)
  | Some (Some st) =>
      let g := id_g st in
      let svs := filter (fun i => if Rlt_dec (eps * rate pr) (nz (g_al g) i) then true else false) (seq 0 (size d)) in
      let d' := with_alphas d (id_saved st) in
      let* norm := knorm k d' in
      let* wk := smo_weights pw k d' in
      Ok (Some (Some (mkIdr (fst wk) (g_b g) norm (id_rm st) (id_saved st) svs d' (snd wk) (negb (Nat.eqb (id_it st) 0)) (id_full st) (id_last st))))
  end.
