(** Model of the SMO trainer: /repo/subprojects/ufjfmltk-classifier/include/ufjfmltk/classifier/SMO.hpp, over the reals.

    Simplifications: doubles are reals; C, TOL (SMO.hpp:41-42) and EPS (Learner.hpp:33) are parameters; the Alpha() fields of the training points are
    the vector [sm_alpha]; the kernel matrix is given (its computation is modelled in M_Kernel.v); [rnd] is the value of
    rand() after srand(0) (SMO.hpp:246-249); the verbose output is left out. *)
From Coq Require Import ZArith Bool List Reals.
From Verif Require Import Base M_Data M_Point L_Vec Loop M_Kernel M_Perc M_Dll.
Import ListNotations.
Local Open Scope R_scope.

(** SMO.hpp:27-37: smo_learning_data. *)
Record ldata := mkLd { ld_err : R; ld_done : bool; ld_sv : option addr }.
(** SMO.hpp:27-37: an element of l_data after resize. *)
Definition ld_fresh : ldata := mkLd 0 false None.
(** SMO.hpp:389, 395-396, 436. *)
Definition set_err (e : R) (l : ldata) : ldata := mkLd e (ld_done l) (ld_sv l).
(** SMO.hpp:165-166, 271, 437. *)
Definition set_done (b : bool) (l : ldata) : ldata := mkLd (ld_err l) b (ld_sv l).
(** SMO.hpp:350, 358; int_dll.cpp:24-44 sets it to null. *)
Definition set_sv (a : option addr) (l : ldata) : ldata := mkLd (ld_err l) (ld_done l) a.

(** What take_step changes: the alphas, solution.bias, the list and l_data (SMO.hpp:260-403). *)
Record smo := mkSmo { sm_alpha : vec; sm_bias : R; sm_heap : heap; sm_head : addr; sm_ld : list ldata }.
(** Assignment to Alpha() (SMO.hpp:342-343). *)
Definition with_alpha (s : smo) (a : vec) : smo := mkSmo a (sm_bias s) (sm_heap s) (sm_head s) (sm_ld s).
(** Assignment to solution.bias (SMO.hpp:381). *)
Definition with_bias (s : smo) (b : R) : smo := mkSmo (sm_alpha s) b (sm_heap s) (sm_head s) (sm_ld s).
(** A change of the list (SMO.hpp:345-361). *)
Definition with_heap (s : smo) (h : heap) : smo := mkSmo (sm_alpha s) (sm_bias s) h (sm_head s) (sm_ld s).
(** A change of l_data (SMO.hpp:345-396). *)
Definition with_ld (s : smo) (l : list ldata) : smo := mkSmo (sm_alpha s) (sm_bias s) (sm_heap s) (sm_head s) l.

Section Smo.
Variables C TOL EPS : R.
Variable rnd : nat.
Variable d : data R.
Variable K : list (list R).

(** The indices met by [list = head->next; while(list != nullptr) ... list = list->next]. A walk of more than size nodes would be
    an endless one (reported as UB; it does not happen, see C45). *)
Definition nodes (s : smo) : outcome (list nat) :=
  let* n := load (sm_heap s) (sm_head s) in
  let* r := dll_walk (S (size d)) (sm_heap s) (n_next n) in
  match r with None => UB | Some l => map_outcome (fun x => zidx (snd x)) l end.

(** The label of example i (SMO.hpp:275-276). *)
Definition label (i : nat) : outcome R := let* p := vget (d_points d) i in Ok (IZR (p_y p)).

(** SMO.hpp:406-421: function(index). *)
Definition smo_function (s : smo) (index : nat) : outcome R :=
  let* l := nodes s in
  let* v := ofold (fun sum i =>
      let* a := vget (sm_alpha s) i in
      if Rlt_dec 0 a then let* y := label i in let* k := mget K i index in Ok (sum + a * y * k) else Ok sum) l 0 in
  Ok (v + sm_bias s).

(** SMO.hpp:172-173, 282-287: the cached error of a non-bound example, otherwise function(i) - y. *)
Definition smo_error (s : smo) (i : nat) : outcome R :=
  let* a := vget (sm_alpha s) i in
  let* c := vget (sm_ld s) i in
  let* y := label i in
  if Rlt_dec 0 a then (if Rlt_dec a C then Ok (ld_err c) else let* f := smo_function s i in Ok (f - y))
  else let* f := smo_function s i in Ok (f - y).

(** SMO.hpp:345-361: the support-vector list after alpha_i became [a]. *)
Definition sv_update (s : smo) (i : nat) (a : R) : outcome smo :=
  let* c := vget (sm_ld s) i in
  match ld_sv c with
  | None =>
      if Rlt_dec 0 a then
        let* r := dll_append (sm_heap s) (Some (sm_head s)) in
        match snd r with
        | None => UB
        | Some q =>
            let* h := store (fst r) q (set_index (Z.of_nat i)) in
            let* ld := vupd i (set_sv (Some q)) (sm_ld s) in
            Ok (with_ld (with_heap s h) ld)
        end
      else Ok s
  | Some q =>
      if Req_EM_T a 0 then
        let* r := dll_remove (sm_heap s) (Some q) in
        let* ld := vupd i (set_sv None) (sm_ld s) in
        Ok (with_ld (with_heap s (fst r)) ld)
      else Ok s
  end.

(** SMO.hpp:289-298: the interval of the new alpha2. *)
Definition smo_bounds (s12 : Z) (a1 a2 : R) : R * R :=
  if Z.eqb s12 (-1) then (Rmax 0 (a2 - a1), Rmin C (C + a2 - a1)) else (Rmax 0 (a2 + a1 - C), Rmin C (a1 + a2)).

(** SMO.hpp:305-324: the new alpha2 before the last correction. *)
Definition smo_alpha2 (eta y2 e1 e2 a2 lo hi : R) : R :=
  if Rlt_dec eta 0 then
    let n := a2 + y2 * (e2 - e1) / eta in
    if Rlt_dec n lo then lo else if Rlt_dec hi n then hi else n
  else
    let c1 := eta / 2 in
    let c2 := y2 * (e1 - e2) - eta * a2 in
    let fmin := c1 * lo * lo + c2 * lo in
    let fmax := c1 * hi * hi + c2 * lo in
    if Rlt_dec (fmax + EPS) fmin then lo else if Rlt_dec fmin (fmax - EPS) then hi else a2.

(** SMO.hpp:332-340: new alpha1, and the correction of alpha2 when it leaves [0, C]. *)
Definition smo_alpha1 (s12 : Z) (a1 a2 n2 : R) : R * R :=
  let n1 := a1 - IZR s12 * (n2 - a2) in
  if Rlt_dec n1 0 then (0, n2 + IZR s12 * n1)
  else if Rlt_dec C n1 then (C, n2 + IZR s12 * (n1 - C))
  else (n1, n2).

(** SMO.hpp:363-378: the new bias. *)
Definition smo_bias (bias y1 y2 e1 e2 a1 a2 n1 n2 k11 k12 k22 : R) : R :=
  let b := - bias in
  let t1 := y1 * (n1 - a1) in
  let t2 := y2 * (n2 - a2) in
  let b_1 := b + e1 + t1 * k11 + t2 * k12 in
  let b_2 := b + e2 + t1 * k12 + t2 * k22 in
  - (if Rlt_dec 0 n1 then (if Rlt_dec n1 C then b_1 else if Rlt_dec 0 n2 then (if Rlt_dec n2 C then b_2 else (b_2 + b_1) / 2) else (b_2 + b_1) / 2)
     else if Rlt_dec 0 n2 then (if Rlt_dec n2 C then b_2 else (b_2 + b_1) / 2) else (b_2 + b_1) / 2).

(** SMO.hpp:383-393: the error cache is recomputed along the list. *)
Definition smo_refresh (s : smo) (i1 i2 : nat) : outcome smo :=
  let* l := nodes s in
  ofold (fun s i =>
    let* a := vget (sm_alpha s) i in
    if negb (Nat.eqb i i1) && negb (Nat.eqb i i2) then
      if Rlt_dec a C then
        let* f := smo_function s i in let* y := label i in
        let* ld := vupd i (set_err (f - y)) (sm_ld s) in Ok (with_ld s ld)
      else Ok s
    else Ok s) l s.

(** SMO.hpp:260-403: take_step(i1, i2). *)
Definition take_step (s : smo) (i1 i2 : nat) : outcome (smo * bool) :=
  let* ld0 := vupd i2 (set_done true) (sm_ld s) in
  let s := with_ld s ld0 in
  let* p1 := vget (d_points d) i1 in
  let* p2 := vget (d_points d) i2 in
  let y1 := IZR (p_y p1) in
  let y2 := IZR (p_y p2) in
  let* a1 := vget (sm_alpha s) i1 in
  let* a2 := vget (sm_alpha s) i2 in
  let* e1 := smo_error s i1 in
  let* e2 := smo_error s i2 in
  let s12 := (p_y p1 * p_y p2)%Z in
  let (lo, hi) := smo_bounds s12 a1 a2 in
  if Req_EM_T lo hi then Ok (s, false)
  else
    let* k12 := mget K i1 i2 in
    let* k11 := mget K i1 i1 in
    let* k22 := mget K i2 i2 in
    let eta := 2 * k12 - k11 - k22 in
    let n2 := smo_alpha2 eta y2 e1 e2 a2 lo hi in
    if Rlt_dec (Rabs (n2 - a2)) (EPS * (n2 + a2 + EPS)) then Ok (s, false)
    else
      let (m1, m2) := smo_alpha1 s12 a1 a2 n2 in
      let* al1 := vupd i1 (fun _ => m1) (sm_alpha s) in
      let* al2 := vupd i2 (fun _ => m2) al1 in
      let* s1 := sv_update (with_alpha s al2) i1 m1 in
      let* s2 := sv_update s1 i2 m2 in
      let s3 := with_bias s2 (smo_bias (sm_bias s) y1 y2 e1 e2 a1 a2 m1 m2 k11 k12 k22) in
      let* s4 := smo_refresh s3 i1 i2 in
      let* l1 := vupd i1 (set_err 0) (sm_ld s4) in
      let* l2 := vupd i2 (set_err 0) l1 in
      Ok (with_ld s4 l2, true).

(** SMO.hpp:189-216: max_errors(i1, e1). *)
Definition max_errors (s : smo) (i1 : nat) (e1 : R) : outcome (smo * bool) :=
  let* l := nodes s in
  let* best := ofold (fun acc k =>
      let* c := vget (sm_ld s) k in
      let* a := vget (sm_alpha s) k in
      if negb (ld_done c) then
        if Rlt_dec a C then
          let t := Rabs (e1 - ld_err c) in
          if Rlt_dec (fst acc) t then Ok (t, Some k) else Ok acc
        else Ok acc
      else Ok acc) l (0, None) in
  match snd best with
  | None => Ok (s, false)
  | Some i2 => take_step s i1 i2
  end.

(** SMO.hpp:219-235 and 238-257: try the candidates [l] in turn; [nb]: only those below C. A failing take_step changes only the
    done flags, so the list can be read beforehand. *)
Fixpoint try_all (nb : bool) (i1 : nat) (l : list nat) (s : smo) : outcome (smo * bool) :=
  match l with
  | [] => Ok (s, false)
  | k :: r =>
      let* c := vget (sm_ld s) k in
      let* a := vget (sm_alpha s) k in
      if negb (ld_done c) && (negb nb || (if Rlt_dec a C then true else false)) then
        let* t := take_step s i1 k in
        if snd t then Ok t else try_all nb i1 r (fst t)
      else try_all nb i1 r s
  end.
(** SMO.hpp:219-235. *)
Definition iterate_non_bound (s : smo) (i1 : nat) : outcome (smo * bool) := let* l := nodes s in try_all true i1 l s.
(** SMO.hpp:238-257. *)
Definition iterate_all_set (s : smo) (i1 : nat) : outcome (smo * bool) :=
  if Nat.eqb (size d) 0 then UB
  else try_all false i1 (map (fun k => Nat.modulo k (size d)) (seq (Nat.modulo rnd (size d)) (size d))) s.

(** SMO.hpp:157-186: examine_example(i1). *)
Definition examine_example (s : smo) (i1 : nat) : outcome (smo * bool) :=
  let* ld1 := vupd i1 (set_done true) (map (set_done false) (sm_ld s)) in
  let s := with_ld s ld1 in
  let* y1 := label i1 in
  let* a1 := vget (sm_alpha s) i1 in
  let* e1 := smo_error s i1 in
  let r1 := y1 * e1 in
  let go := (if Rlt_dec r1 (- TOL) then (if Rlt_dec a1 C then true else false) else false) ||
            (if Rlt_dec TOL r1 then (if Rlt_dec 0 a1 then true else false) else false) in
  if go then
    let* t := max_errors s i1 e1 in
    if snd t then Ok t
    else let* t2 := iterate_non_bound (fst t) i1 in
         if snd t2 then Ok t2 else iterate_all_set (fst t2) i1
  else Ok (s, false).

(** SMO.hpp:445-456: one epoch; [all] is examine_all. Returns the number of changed pairs. *)
Definition smo_epoch (all : bool) (s : smo) : outcome (smo * nat) :=
  ofold (fun st k =>
    let* a := vget (sm_alpha (fst st)) k in
    if all || (if Rlt_dec 0 a then (if Rlt_dec a C then true else false) else false) then
      let* t := examine_example (fst st) k in Ok (fst t, (snd st + (if snd t then 1 else 0))%nat)
    else Ok st) (seq 0 (size d)) (s, 0%nat).

(** SMO.hpp:440-459: the main loop. Every epoch increases [epoch], so the fuel is used up only after MAX_EPOCH. *)
Fixpoint smo_loop (max_epoch fuel epoch : nat) (changed : nat) (all : bool) (s : smo) : outcome (option (smo * bool)) :=
  if Nat.ltb 0 changed || all then
    if Nat.ltb max_epoch epoch then Ok (Some (s, false))
    else
      match fuel with
      | O => Ok None
      | S f =>
          let* t := smo_epoch all s in
          smo_loop max_epoch f (S epoch) (snd t) (if all then false else Nat.eqb (snd t) 0) (fst t)
      end
  else Ok (Some (s, true)).

(** SMO.hpp:93-153 and 424-468: train(): allocates the list head, clears the learning data and the alphas, runs the main loop, counts the support vectors and
    frees the list. Returns the final state, the number of support vectors and the answer. [h] is the heap before. *)
Definition smo_train (max_epoch : nat) (h : heap) : outcome (option (smo * nat * bool)) :=
  let (h0, hd) := dll_new h in
  let s0 := mkSmo (repeat 0 (size d)) 0 h0 hd (repeat ld_fresh (size d)) in
  let* r := smo_loop max_epoch (S (S max_epoch)) 0 0 true s0 in
  match r with
  | None => Ok None
  | Some (s, b) =>
      let svs := length (filter (fun a => if Rlt_dec 0 a then true else false) (sm_alpha s)) in
      let b' := b && negb (existsb (fun a => if Rlt_dec C a then true else false) (sm_alpha s)) in
      let* f := dll_free (S (S (size d))) (sm_heap s) (Some (sm_head s)) in
      match f with
      | None => UB
      | Some h' => Ok (Some (with_heap s h', svs, b'))
      end
  end.
End Smo.
