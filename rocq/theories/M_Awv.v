(** Model of the training of AutoWeightedVoting: /repo/subprojects/ufjfmltk-ensemble/include/ufjfmltk/ensemble/AutoWeightedVoting.hpp:73-252, over the reals.

    Simplifications: a weight that is not a number (0/0) is [None], comparisons with it are false; the members are the function [fit]: [fit i tr p] is the answer of
    member i, trained on [tr], for point p; the generator is given by [rr] and [ri]: draw t is [rr t] from [0,1) or [ri t b] from 0..b; the population size, 1000 in the
    code without a way to change it, is the argument [np]; F = 0.8 and CR = 0.9; the console output is left out. [None] as a result: still looking for parents after
    [fuel] draws. *)
From Coq Require Import ZArith Bool List Reals.
From Verif Require Import Base M_Data M_Point Loop M_Knn M_Ens M_Valid M_Dsm.
Import ListNotations.
Local Open Scope nat_scope.

(** Point<double> of weights. AutoWeightedVoting.hpp:17. *)
Definition wvec := list (option R).
(** votes[pred_pos] += weights[i] (VotingClassifier.hpp:46-54) on numbers that may be NaN. *)
Definition wcast (w : wvec) (classes : list Z) (preds : list Z) (votes : wvec) (i : nat) : outcome wvec :=
  let* pred := vget preds i in
  let pos := find_pos pred classes in
  let* _ := pat votes pos in
  let* x := pat w i in
  vupd pos (fun v => lift2 (bop_el Add) v x) votes.
(** VotingClassifier.hpp:38-57 under soft voting. *)
Definition soft_vote (w : wvec) (classes : list Z) (preds : list Z) : outcome Z :=
  if Nat.eqb (length w) 0 then Abort else
  let* votes := ofold (wcast w classes preds) (seq 0 (length preds)) (repeat (Some 0%R) (length classes)) in
  vget classes (best_index votes).

(** a == b on Points (Point.hpp:713-715) whose entries may be NaN. *)
Fixpoint weq (a b : wvec) : bool :=
  match a, b with
  | [], [] => true
  | Some x :: a', Some y :: b' => (if Req_EM_T x y then true else false) && weq a' b'
  | _, _ => false
  end.
(** a <= b on numbers that may be NaN (AutoWeightedVoting.hpp:221). *)
Definition nan_le (a b : option R) : bool := match a, b with Some x, Some y => if Rle_dec x y then true else false | _, _ => false end.
(** All entries, if they are numbers. (simplex_projection sorts them, AutoWeightedVoting.hpp:45.) *)
Fixpoint numbers (w : wvec) : option (list R) :=
  match w with
  | [] => Some []
  | Some x :: r => match numbers r with Some l => Some (x :: l) | None => None end
  | None :: _ => None
  end.

Section Awv.
Context {T : Type}.
(** The answers of the [m] members trained on [tr]. VotingClassifier.hpp:28-36, 47. *)
Definition answers (m : nat) (fit : nat -> data T -> point T -> Z) (tr : data T) (p : point T) : list Z := map (fun i => fit i tr p) (seq 0 m).

(** compute_acc, AutoWeightedVoting.hpp:73-82: the number of right answers. *)
Definition right_count (m : nat) (fit : nat -> data T -> point T -> Z) (tr te : data T) (w : wvec) : outcome nat :=
  ofold (fun acc p => let* c := soft_vote w (d_classes tr) (answers m fit tr p) in Ok (if Z.eqb c (p_y p) then S acc else acc)) (d_points te) 0.
(** AutoWeightedVoting.hpp:84-106: setWeights asserts the number of weights (VotingClassifier.hpp:60); 0/0 without test points. *)
Definition objective (m : nat) (fit : nat -> data T -> point T -> Z) (tr te : data T) (w : wvec) : outcome (option R) :=
  if Nat.eqb (length w) m then
    let* acc := right_count m fit tr te w in
    Ok (lift1 (fun x => Some (100 * x)%R) (bop_el Div (INR acc) (INR (size te))))
  else Abort.
(** AutoWeightedVoting.hpp:128-135. *)
Definition eval_population (m : nat) (fit : nat -> data T -> point T -> Z) (tr te : data T) (pop : list wvec) : outcome (list (option R)) :=
  map_outcome (objective m fit tr te) pop.
End Awv.

(** AutoWeightedVoting.hpp:113-123, one vector, drawn from number [t] on. *)
Definition init_vector (rr : nat -> R) (m t : nat) (simplex : bool) : outcome wvec :=
  let w := map rr (seq t m) in
  if simplex then let* x := simplex_projection w in Ok (map Some x) else Ok (map (fun x => Some (Rabs x)) w).
(** AutoWeightedVoting.hpp:108-126. *)
Definition init_population (rr : nat -> R) (m np : nat) (simplex : bool) : outcome (list wvec) :=
  map_outcome (fun i => init_vector rr m (i * m) simplex) (seq 0 np).
(** AutoWeightedVoting.hpp:137-140. *)
Definition get_best_solution (pop : list wvec) (costs : list (option R)) : outcome (wvec * option R) :=
  let b := best_index costs in
  let* v := vget pop b in
  let* c := vget costs b in
  Ok (v, c).

(** AutoWeightedVoting.hpp:148-163: draw until the vector differs from those of [excl]. The size of the population minus one is the last position. *)
Fixpoint pick_parent (ri : nat -> nat -> nat) (fuel : nat) (excl pop : list wvec) (t : nat) : outcome (option (wvec * nat)) :=
  match fuel with
  | 0 => Ok None
  | S f =>
      let* p := vget pop (ri t (length pop - 1)) in
      if existsb (weq p) excl then pick_parent ri f excl pop (S t) else Ok (Some (p, S t))
  end.
(** AutoWeightedVoting.hpp:147-163: the three parents. *)
Definition parents (ri : nat -> nat -> nat) (fuel : nat) (p0 : wvec) (pop : list wvec) (t : nat) : outcome (option (wvec * wvec * wvec * nat)) :=
  let* r1 := pick_parent ri fuel [p0] pop t in
  match r1 with None => Ok None | Some (p1, t1) =>
  let* r2 := pick_parent ri fuel [p0; p1] pop t1 in
  match r2 with None => Ok None | Some (p2, t2) =>
  let* r3 := pick_parent ri fuel [p0; p1; p2] pop t2 in
  match r3 with None => Ok None | Some (p3, t3) => Ok (Some (p1, p2, p3, t3)) end end end.
(** AutoWeightedVoting.hpp:167-177: crossing; operator[] asserts the index. [t] is the draw of the cut point. *)
Definition cross (ri : nat -> nat -> nat) (rr : nat -> R) (m : nat) (p0 p1 p2 p3 : wvec) (t : nat) : outcome wvec :=
  map_outcome (fun i =>
    if Nat.eqb i (ri t (m - 1)) || (if Rlt_dec (rr (t + 1 + i)) (9 / 10) then true else false) then
      let* x3 := pat p3 i in let* x1 := pat p1 i in let* x2 := pat p2 i in
      Ok (lift2 (bop_el Add) x3 (lift1 (fun d => Some (8 / 10 * d)%R) (lift2 (bop_el Sub) x1 x2)))
    else pat p0 i) (seq 0 m).
(** mltk::abs(S/S.norm()), AutoWeightedVoting.hpp:182, with the Euclidean norm (Point.hpp:650-656). *)
Definition unit_abs (s : wvec) : wvec :=
  match numbers s with
  | None => map (fun _ => None) s
  | Some v => map (fun x => lift1 (fun y => Some (Rabs y)) (bop_el Div x (sqrt (suml (map (fun a => a * a)%R v))))) v
  end.
(** AutoWeightedVoting.hpp:142-185. Sorting numbers of which some are NaN is undefined. *)
Definition new_sample (ri : nat -> nat -> nat) (rr : nat -> R) (fuel m : nat) (simplex : bool) (p0 : wvec) (pop : list wvec) (t : nat) : outcome (option (wvec * nat)) :=
  let* ps := parents ri fuel p0 pop t in
  match ps with
  | None => Ok None
  | Some (p1, p2, p3, t3) =>
      let* s := cross ri rr m p0 p1 p2 p3 t3 in
      let* s' := if simplex then match numbers s with None => UB | Some v => let* x := simplex_projection (map Rabs v) in Ok (map Some x) end else Ok (unit_abs s) in
      Ok (Some (s', t3 + 1 + m))
  end.

Section Train.
Context {T : Type}.
(** The members of the object that train() changes, and its local variables. AutoWeightedVoting.hpp:15-23, 207-210. *)
Record awv := mkAwv { a_pop : list wvec; a_costs : list (option R); a_best : wvec * option R; a_gen : nat; a_t : nat }.
(** AutoWeightedVoting.hpp:218-226: one member of the next population. *)
Definition breed (m : nat) (fit : nat -> data T -> point T -> Z) (tr te : data T) (ri : nat -> nat -> nat) (rr : nat -> R) (fuel : nat) (simplex : bool) (s : awv)
  (acc : option (list wvec * nat)) (i : nat) : outcome (option (list wvec * nat)) :=
  match acc with
  | None => Ok None
  | Some (np, t) =>
      let* r := new_sample ri rr fuel m simplex (fst (a_best s)) (a_pop s) t in
      match r with
      | None => Ok None
      | Some (si, t') =>
          let* c := objective m fit tr te si in
          let* ci := vget (a_costs s) i in
          let* old := vget (a_pop s) i in
          Ok (Some (np ++ [if nan_le c ci then si else old], t'))
      end
  end.
(** AutoWeightedVoting.hpp:216-236: generation [g]. *)
Definition generation (m : nat) (fit : nat -> data T -> point T -> Z) (tr te : data T) (ri : nat -> nat -> nat) (rr : nat -> R) (fuel : nat) (simplex : bool) (g : nat) (s : awv)
  : outcome (option awv) :=
  let* r := ofold (breed m fit tr te ri rr fuel simplex s) (seq 0 (length (a_pop s))) (Some ([], a_t s)) in
  match r with
  | None => Ok None
  | Some (pop, t) =>
      let* costs := eval_population m fit tr te pop in
      let* cand := get_best_solution pop costs in
      Ok (Some (if nan_lt (snd (a_best s)) (snd cand) then mkAwv pop costs cand g t else mkAwv pop costs (a_best s) (a_gen s) t))
  end.
(** AutoWeightedVoting.hpp:215-242: the generations, of which [left] are left; a best score of exactly 1 ends them. *)
Fixpoint generations (m : nat) (fit : nat -> data T -> point T -> Z) (tr te : data T) (ri : nat -> nat -> nat) (rr : nat -> R) (fuel : nat) (simplex : bool) (left g : nat) (s : awv)
  : outcome (option awv) :=
  match left with
  | 0 => Ok (Some s)
  | S l =>
      let* r := generation m fit tr te ri rr fuel simplex g s in
      match r with
      | None => Ok None
      | Some s' =>
          if (match snd (a_best s') with Some x => if Req_EM_T x 1 then true else false | None => false end) then Ok (Some s')
          else generations m fit tr te ri rr fuel simplex l (S g) s'
      end
  end.
(** AutoWeightedVoting.hpp:207-247, after the split and the training of the members. best_generation is 0 in a new object. *)
Definition search (m : nat) (fit : nat -> data T -> point T -> Z) (ri : nat -> nat -> nat) (rr : nat -> R) (fuel np max_it : nat) (simplex : bool) (tr te : data T) : outcome (option awv) :=
  let* pop := init_population rr m np simplex in
  let* costs := eval_population m fit tr te pop in
  let* best := get_best_solution pop costs in
  let* r := generations m fit tr te ri rr fuel simplex max_it 0 (mkAwv pop costs best 0 (np * m)) in
  match r with
  | None => Ok None
  | Some s => let* _ := objective m fit tr te (fst (a_best s)) in Ok (Some s)
  end.
(** AutoWeightedVoting.hpp:202: partTrainTest( samples, 10, seed): the seed lands on the parameter [stratified]; keepIndex and the seed of the split keep their defaults
    (Validation.hpp:167), so that the split is seeded by the device: [gen s] are the shuffles of a generator seeded by [s], [dev] is what the device gives. *)
Definition split (gen : nat -> nat -> nat -> list nat) (dev seed : nat) (d : data T) : outcome (data T * data T) :=
  partTrainTest (gen dev) d 10 (negb (Nat.eqb seed 0)) true.
(** AutoWeightedVoting.hpp:199-247: train(). *)
Definition awv_train (gen : nat -> nat -> nat -> list nat) (dev seed m : nat) (fit : nat -> data T -> point T -> Z) (ri : nat -> nat -> nat) (rr : nat -> R) (fuel np max_it : nat)
  (simplex : bool) (d : data T) : outcome (option (data T * data T * awv)) :=
  let* v := split gen dev seed d in
  let (tr, te) := v in
  let* r := search m fit ri rr fuel np max_it simplex tr te in
  match r with None => Ok None | Some s => Ok (Some (tr, te, s)) end.
(** AutoWeightedVoting.hpp:249-252: evaluate(p); the classes are those of the training part. *)
Definition awv_evaluate (m : nat) (fit : nat -> data T -> point T -> Z) (tr : data T) (s : awv) (p : point T) : outcome Z :=
  if Nat.eqb (length (fst (a_best s))) m then soft_vote (fst (a_best s)) (d_classes tr) (answers m fit tr p) else Abort.
End Train.
