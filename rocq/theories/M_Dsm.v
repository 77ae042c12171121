(** Model of DSM: /repo/subprojects/ufjfmltk-core/include/ufjfmltk/core/Sampling.hpp:10-77, over the reals. A value that is not a number is [None]; comparing with it is false.
    The counters are unbounded; a subspace is a vector of size_t, here of integers. *)
From Coq Require Import ZArith Bool List Reals.
From Verif Require Import Base M_Data M_Point Loop M_Stat M_Eq.
Import ListNotations.
Local Open Scope nat_scope.

(** The members of a DSM object that matter. Sampling.hpp:12-15 (k is subspaces.size()). *)
Record dsm := mkDsm { s_alpha : R; s_n : nat; s_labels : list R; s_subs : list (list Z) }.
(** size_t(-1). Sampling.hpp:23. *)
Definition unset : Z := (2 ^ 64 - 1)%Z.
(** Sampling.hpp:19-25. *)
Definition dsm_new (d : data R) (k n : nat) (alpha : R) : outcome dsm :=
  let* ls := getLabels d in Ok (mkDsm alpha n (map IZR ls) (repeat (repeat unset n) k)).
(** The size of std::set_intersection of two ranges, which are not sorted here: the merge of the standard library. Sampling.hpp:37-39. *)
Fixpoint common (a : list Z) : list Z -> nat :=
  fix inner (b : list Z) : nat :=
    match a, b with
    | x :: a', y :: b' => if Z.ltb x y then common a' b else if Z.ltb y x then inner b' else S (common a' b')
    | _, _ => 0
    end.
(** Sampling.hpp:31-44. *)
Definition div_ms (subs : list (list Z)) (i : nat) : outcome R :=
  let* mx := ofold (fun mx j =>
    if Nat.eqb j i then Ok mx else
    let* a := vget subs i in
    let* b := vget subs j in
    Ok (match bop_el Div (INR (common a b)) (INR (length b)) with Some v => if Rlt_dec mx v then v else mx | None => mx end)) (seq 0 (length subs)) 0%R in
  Ok (1 - mx)%R.
(** std::find(Si.begin(), Si.end(), feat) != Si.end(). Sampling.hpp:49, 67. *)
Definition contains (r : list Z) (feat : Z) : bool := existsb (Z.eqb feat) r.
(** Sampling.hpp:46-54. *)
Definition div_mx (subs : list (list Z)) (feat : Z) : option R :=
  lift1 (fun v => Some (1 - v)%R) (bop_el Div (INR (length (filter (fun r => contains r feat) subs))) (INR (length subs))).
(** Sampling.hpp:27-29. *)
Definition div_m (subs : list (list Z)) (i : nat) (feat : Z) : outcome (option R) :=
  let* s := div_ms subs i in Ok (lift1 (fun x => Some ((x + s) / 2)%R) (div_mx subs feat)).
(** Sampling.hpp:56-59. *)
Definition qual_correlation (labels : list R) (d : data R) (feat : Z) : outcome (option R) :=
  let* x := getFeature d feat in
  let* c := covar x labels in
  let* sx := std_p x in
  let* sl := std_p labels in
  Ok (lift2 (bop_el Div) c (lift2 (bop_el Mul) sx sl)).
(** Sampling.hpp:65-70: the scores of the features for subspace j; -1.01 for those it has. *)
Definition fscore (s : dsm) (subs : list (list Z)) (d : data R) (j : nat) : outcome (list (option R)) :=
  map_outcome (fun c =>
    let* r := vget subs j in
    if contains r (Z.of_nat c) then Ok (Some (- (101 / 100))%R) else
    let* q := qual_correlation (s_labels s) d (Z.of_nat c) in
    let* v := div_m subs j (Z.of_nat c) in
    Ok (lift2 (fun x y => Some (s_alpha s * x + (1 - s_alpha s) * y)%R) q v)) (seq 0 (dim d)).
(** a < b on numbers that may be NaN. *)
Definition nan_lt (a b : option R) : bool := match a, b with Some x, Some y => if Rlt_dec x y then true else false | _, _ => false end.
(** std::max_element(v.begin(), v.end()) - v.begin(). Sampling.hpp:71. *)
Fixpoint best_from (best : option R) (bi i : nat) (l : list (option R)) : nat :=
  match l with
  | [] => bi
  | x :: r => if nan_lt best x then best_from x i (S i) r else best_from best bi (S i) r
  end.
(** Sampling.hpp:71. *)
Definition best_index (l : list (option R)) : nat := match l with [] => 0 | x :: r => best_from x 0 1 r end.
(** Sampling.hpp:65-72: entry i of subspace j. *)
Definition dsm_pick (s : dsm) (d : data R) (i : nat) (subs : list (list Z)) (j : nat) : outcome (list (list Z)) :=
  let* f := fscore s subs d j in mset subs j i (Z.of_nat (best_index f)).
(** Sampling.hpp:63-76: the subspaces returned, which stay in the object. *)
Definition dsm_run (s : dsm) (d : data R) : outcome dsm :=
  let* subs := ofold (fun subs i => ofold (dsm_pick s d i) (seq 0 (length subs)) subs) (seq 0 (s_n s)) (s_subs s) in
  Ok (mkDsm (s_alpha s) (s_n s) (s_labels s) subs).
