(** Model of the incremental margin algorithm IMAp and of IMApFixedMargin
    (/repo/subprojects/ufjfmltk-classifier/include/ufjfmltk/classifier/IMA.hpp:115-503), over the reals.

    Simplifications: as in M_Fixed, whose coordinate loops are the same text; the clock is an oracle ([clk c k]: test number k of call number c still
    has time; [stop it]: the total time is over after iteration [it]); DBL_MAX is the parameter [big] and overflow is left out; verbose output is
    kept only as the list of the printed margins. The learning rate of an empty dataset (0/0 in the code, never used there) is not a number in the code. *)
From Coq Require Import ZArith Bool List Reals.
From Verif Require Import Base M_Data M_Point L_Vec Loop M_Kernel M_Perc M_Fixed.
Import ListNotations.
Local Open Scope nat_scope.

Section Pass.
Variable pw : R -> R -> R.
Variable kind : qnorm.
Variable pr : params.
Variable gamma flex eps : R.
Variable d : data R.

(** IMA.hpp:406-485: one pass over the positions [is]; [func] keeps the last value computed for each point (IMA.hpp:413-415). *)
Fixpoint ipass (steps : nat) (is : list nat) (s : fstate) (func : vec) : outcome (fstate * vec) :=
  match is with
  | [] => Ok (s, func)
  | i :: r =>
    let* z := vget (f_index s) i in let* idx := zidx z in
    let* p := vget (d_points d) idx in
    let y := IZR (p_y p) in
    let* f := fm_decision d (f_w s) (p_x p) (f_b s) in
    let* func' := vupd idx (fun _ => f) func in
    let* al := vget (f_al s) idx in
    if Rle_dec (y * f) (gamma * f_norm s - al * flex) then
      let lambda := if Req_EM_T (f_norm s) 0 then 1%R else (1 - rate pr * gamma / f_norm s)%R in
      let al1 := map (fun a => a * lambda)%R (f_al s) in
      let* u := fm_step pw kind pr gamma eps d y (p_x p) s in
      let '(w', norm', lw', n') := u in
      let* al2 := vupd idx (fun a => a + rate pr)%R al1 in
      let k := if Nat.ltb (f_s s) i then f_s s else f_e s in
      let s' := if Nat.ltb (f_s s) i then S (f_s s) else f_s s in
      let* j := vget (f_index s) k in
      let* ix1 := vupd k (fun _ => z) (f_index s) in
      let* ix2 := vupd i (fun _ => j) ix1 in
      ipass steps r (mkF w' (f_b s + rate pr * y)%R norm' al2 ix2 s' (S (f_e s)) (S (f_ctot s)) lw' n') func'
    else if Nat.ltb 0 steps && Nat.ltb 1 (f_e s) && Nat.ltb (f_s s) i then Ok (s, func')
    else ipass steps r s func'
  end.

(** IMA.hpp:405-493: the loop; [flag] is the bound tMax when flagNao1aDim is set. *)
Fixpoint iloop (clk : nat -> bool) (flag : option nat) (fuel k steps : nat) (s : fstate) (func : vec) : outcome (option (fstate * vec * nat)) :=
  if clk k then
    match fuel with
    | O => Ok None
    | S fuel' =>
        let* u := ipass steps (seq 0 (size d)) (f_reset s) func in
        let (s1, func1) := u in
        if Nat.eqb (f_e s1) 0 || Nat.ltb (max_it pr) (S steps) || Nat.ltb (max_up pr) (f_ctot s1)
           || match flag with Some t => Nat.ltb t (f_ctot s1) | None => false end then Ok (Some (s1, func1, S steps))
        else iloop clk flag fuel' (S k) (S steps) s1 func1
    end
  else Ok (Some (s, func, steps)).

(** IMA.hpp:385-503: IMApFixedMargin::train(). The object's state on entry is in [s] (its f_s and f_e are set here, IMA.hpp:386); e starts at 1, so a run
    that has no time for a pass answers false. *)
Definition itrain (clk : nat -> bool) (flag : option nat) (steps : nat) (s : fstate) : outcome (option (fstate * vec * nat * bool)) :=
  let w := match f_w s with [] => repeat 0%R (dim d) | w => w end in
  let* r := iloop clk flag (S (max_it pr)) 0 steps (mkF w (f_b s) (f_norm s) (f_al s) (f_index s) 0 1 (f_ctot s) (f_lw s) (f_n s)) (repeat 0%R (size d)) in
  Ok (match r with None => None | Some (s1, func, st) => Some (s1, func, st, Nat.eqb (f_e s1) 0) end).
End Pass.

(** IMA.hpp:239-252: the smallest value of the points on the positive side and the largest on the negative side, over the norm. A quotient by a norm of 0
    is infinite or not a number, and changes neither. *)
Definition ima_scan (big flex norm : R) (d : data R) (func al : vec) : outcome (R * R) :=
  ofold (fun mm i =>
    let* p := vget (d_points d) i in let* f := vget func i in let* a := vget al i in
    let v := (f + IZR (p_y p) * a * flex)%R in
    Ok (if Req_EM_T norm 0 then mm
        else if Rle_dec 0 v then (if Rlt_dec (v / norm) (fst mm) then (v / norm, snd mm) else mm)
        else (if Rlt_dec (snd mm) (v / norm) then (fst mm, v / norm) else mm))%R) (seq 0 (size d)) (big, (- big)%R).

(** The local variables of IMAp::train() and the state of its inner trainer (IMA.hpp:116-136, 211-228). [im_f] is the inner trainer's solution, index and
    counters together with the points' alphas; [im_w], [im_b], [im_norm], [im_margin] are w_saved, bias, norm and rmargin. *)
Record ima := mkIma { im_f : fstate; im_steps : nat; im_it : nat; im_gamma : R; im_rate : R; im_t1 : nat;
                      im_w : vec; im_b : R; im_norm : R; im_margin : R; im_printed : list R }.

Section Train.
Variable pw : R -> R -> R.
Variable kind : qnorm.
Variable pr : params.
Variable flex eps aprox big : R.
Variable d : data R.

(** IMA.hpp:230-301: the body of the loop after a successful call. *)
Definition ima_body (st : ima) (s : fstate) (func : vec) (steps : nat) : outcome ima :=
  let norm := f_norm s in
  let* mm := ima_scan big flex norm d func (f_al s) in
  let (mn, mx) := mm in
  let* w := map_outcome (fun j => match nth_error (f_w s) j with Some v => Ok v | None => Abort end) (seq 0 (dim d)) in
  let rm := if Rlt_dec (Rabs mx) (Rabs mn) then Rabs mx else Rabs mn in
  let mmargin := ((Rabs mx + Rabs mn) / 2)%R in
  let b' := if Rlt_dec (Rabs mn) (Rabs mx) then (f_b s + Rabs (mmargin - rm))%R else (f_b s - Rabs (mmargin - rm))%R in
  let g := ((mn - mx) / 2)%R in
  let inc := ((1 + aprox) * rm)%R in
  let gamma := if Rlt_dec g inc then inc else g in
  let t1 := if Nat.eqb (im_it st) 2 then f_ctot s else im_t1 st in
  let rt := if Nat.ltb 1 (im_it st) then (sqrt (INR t1) / sqrt (INR (f_ctot s)))%R else im_rate st in
  Ok (mkIma (mkF (f_w s) b' norm (f_al s) (f_index s) (f_s s) (f_e s) (f_ctot s) (f_lw s) (f_n s)) steps (S (im_it st)) gamma rt t1
        w (f_b s) norm mmargin (im_printed st ++ [mmargin])).

(** IMA.hpp:230-316: the loop. [None]: the fuel ran out (it cannot: IMA.hpp:298 stops after MAX_IT iterations). *)
Fixpoint ima_loop (clk : nat -> nat -> bool) (stop : nat -> bool) (fuel : nat) (st : ima) : outcome (option ima) :=
  let* r := itrain pw kind (mkParams (im_rate st) (max_it pr) (max_up pr)) (im_gamma st) flex eps d (clk (im_it st)) None (im_steps st) (im_f st) in
  match r with
  | None => Ok None
  | Some (s, func, steps, false) =>
      Ok (Some (mkIma s steps (im_it st) (im_gamma st) (im_rate st) (im_t1 st) (im_w st) (im_b st) (im_norm st) (im_margin st) (im_printed st)))
  | Some (s, func, steps, true) =>
      let* st' := ima_body st s func steps in
      if Nat.ltb (max_it pr) (im_it st') || stop (im_it st') then Ok (Some st')
      else match fuel with O => Ok None | S f => ima_loop clk stop f st' end
  end.

(** IMA.hpp:116-228: the state in which the loop starts, without an initial solution. The inner trainer's solution is empty (norm 0), its counters n and
    maiorw are not read before they are set; the alphas are cleared. [margin] is the constructor's argument. *)
Definition ima_start (margin : R) : ima :=
  mkIma (mkF [] 0%R 0%R (repeat 0%R (size d)) (match d_index d with [] => map Z.of_nat (seq 0 (size d)) | ix => ix end) 0 0 0 0%R 0) 0 0 0%R 1%R 1
    (repeat 0%R (dim d)) 0%R 1%R margin [].

(** What training stores: solution.w, bias, norm, margin, the support vectors, the printed margins, the steps and updates, the points' alphas, the answer. *)
Record ima_result := mkRes { re_w : vec; re_b : R; re_norm : R; re_margin : R; re_svs : list nat; re_printed : list R; re_steps : nat; re_ctot : nat; re_alpha : vec; re_ok : bool }.

(** IMA.hpp:116-347: IMAp::train() without an initial solution. *)
Definition ima_train (clk : nat -> nat -> bool) (stop : nat -> bool) (margin : R) : outcome (option ima_result) :=
  let* r := ima_loop clk stop (max_it pr) (ima_start margin) in
  Ok (match r with
      | None => None
      | Some st =>
          let svs := filter (fun i => if Rlt_dec (eps * im_rate st) (nz (f_al (im_f st)) i) then true else false) (seq 0 (size d)) in
          Some (mkRes (im_w st) (im_b st) (im_norm st) (im_margin st) svs (im_printed st) (im_steps st) (f_ctot (im_f st)) (f_al (im_f st)) (negb (Nat.eqb (im_it st) 0)))
      end).

(** IMA.hpp:139-170: the part of IMAp::train() run with an initial solution, up to the first decision values. They are computed from the member w, which
    the constructor leaves empty when it is given a solution (IMA.hpp:106-113). [norm0]: the q-norm of the initial weights; 0 makes them infinite. *)
Definition ima_initial (w0 : vec) (norm0 : R) : outcome (list R) :=
  let* _ := ofold (fun u i => let* _ := (match nth_error w0 i with Some v => Ok v | None => Abort end) in Ok u) (seq 0 (dim d)) tt in
  map_outcome (fun i => osum (dim d) (fun j =>
    let* a := vget (@nil R) j in let* p := vget (d_points d) i in let* x := vget (p_x p) j in Ok (a * x)%R)) (seq 0 (size d)).
End Train.

(** IMA.hpp:350-365: IMAp::evaluate. The raw value, and the class. *)
Definition ima_raw (w : vec) (b : R) (p : point R) : outcome R :=
  if negb (Nat.eqb (length (p_x p)) (length w)) then Ok 0%R
  else ofold (fun f i => let* a := vget w i in let* x := vget (p_x p) i in Ok (f + a * x)%R) (seq 0 (length w)) b.
(** IMA.hpp:350-365, raw_value = false. *)
Definition ima_evaluate (w : vec) (b norm margin : R) (p : point R) : outcome Z :=
  if negb (Nat.eqb (length (p_x p)) (length w)) then Ok 0%Z
  else let* f := ima_raw w b p in Ok (if Rle_dec (margin * norm) f then 1%Z else (-1)%Z).
