(** Model of SMOTE: /repo/subprojects/ufjfmltk-core/include/ufjfmltk/core/Sampling.hpp:122-205, over the reals.
    The metric is any real function. std::sort is an oracle [srt]; the numbers alpha, drawn from [0,1), are the stream [al]; the order of the
    artificial points after std::shuffle is the list of positions [perm]. The dataset returned holds the points of the argument, which is changed in place. *)
From Coq Require Import ZArith Bool List Reals.
From Verif Require Import Base M_Data Loop.
Import ListNotations.
Local Open Scope nat_scope.

(** std::min_element(v.begin(), v.end()) - v.begin() on counters: the first smallest; 0 on the empty vector. *)
Fixpoint zmin_from (best : Z) (bi i : nat) (l : list Z) : nat :=
  match l with
  | [] => bi
  | x :: r => if Z.ltb x best then zmin_from x i (S i) r else zmin_from best bi (S i) r
  end.
(** std::min_element (Sampling.hpp:146): the first minimum. *)
Definition zmin_element (l : list Z) : nat := match l with [] => 0 | x :: r => zmin_from x 0 1 r end.

Section Smote.
Context (dist : list R -> list R -> R) (srt : list (nat * R) -> list (nat * R)) (al : nat -> R).
(** Sampling.hpp:171-174: std::unique; the element compared is the last one kept. *)
Definition same_entry (a b : nat * R) : bool := (if Req_EM_T (snd a) (snd b) then true else false) || Nat.eqb (fst a) (fst b).
(** std::unique with the predicate of Sampling.hpp:172-174: compares with the last element kept. *)
Fixpoint uniq_from (last : nat * R) (l : list (nat * R)) : list (nat * R) :=
  match l with
  | [] => []
  | x :: r => if same_entry last x then uniq_from last r else x :: uniq_from x r
  end.
(** std::unique and erase, Sampling.hpp:172-174. *)
Definition uniq (l : list (nat * R)) : list (nat * R) := match l with [] => [] | x :: r => x :: uniq_from x r end.
(** Sampling.hpp:160-178: the entries (position + 1 among the minority points, distance) of the neighbours of [z]. *)
Definition near_entries (k : nat) (Z : list (point R)) (z : list R) : list (nat * R) :=
  let ds := combine (seq 1 (length Z)) (map (fun p => dist z (p_x p)) Z) in
  firstn k (filter (fun e => if Req_EM_T (snd e) 0 then false else true) (uniq (srt ds))).
(** Sampling.hpp:188-193: s = z + alpha * (z - k) (ExprOps.hpp:36-40 asserts equal sizes); label and default values. *)
Definition smote_point (mc : Z) (a : R) (z w : list R) : outcome (point R) :=
  if Nat.eqb (length z) (length w) then Ok (mkPoint (map (fun p => fst p + a * (fst p - snd p))%R (combine z w)) mc 0%Z 0%R) else Abort.
(** Sampling.hpp:154-196, one minority point: the neighbour is read from the whole dataset. The state: artificial points and number of draws. *)
Definition smote_one (k : nat) (mc : Z) (d : data R) (Z : list (point R)) (s : list (point R) * nat) (z : point R) : outcome (list (point R) * nat) :=
  ofold (fun s e =>
    let* w := vget (d_points d) (fst e - 1) in
    let* p := smote_point mc (al (snd s)) (p_x z) (p_x w) in
    Ok (fst s ++ [p], S (snd s))) (near_entries k Z (p_x z)) s.
(** Sampling.hpp:136-204. classes[...] is unchecked. The number n_apoints, and so the factor r, is not used. *)
Definition smote (k : nat) (perm : list nat) (d : data R) : outcome (data R) :=
  let* mc := vget (d_classes d) (zmin_element (d_dist d)) in
  let Z := d_points (classesCopy data_empty d [mc]) in
  let* s := ofold (smote_one k mc d Z) Z ([], 0) in
  let* new := permute perm (fst s) in
  ofold (fun d p => let* r := insertPoint d p false in Ok (fst r)) new d.
End Smote.
