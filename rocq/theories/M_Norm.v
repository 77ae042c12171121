(** Model of Data::normalize: /repo/subprojects/ufjfmltk-core/include/ufjfmltk/core/Data.hpp:1645-1667, for real coordinates and p > 0
    (std::pow with another exponent is left out). *)
From Coq Require Import ZArith Bool List Reals.
From Verif Require Import Base M_Data Loop.
Import ListNotations.
Local Open Scope nat_scope.

(** std::pow(x, p) for x >= 0 and p > 0. *)
Definition rpow (x p : R) : R := if Rlt_dec 0 x then Rpower x p else 0%R.
(** Data.hpp:1651-1662, one point. X() is the coordinate vector itself: the reads are unchecked. Dividing by zero gives [None]. *)
Definition normalize_x (p : R) (old : nat) (x : list R) : outcome (option (list R)) :=
  let* s := osum old (fun j => let* v := vget x j in Ok (rpow (Rabs v) p)) in
  let* x1 := vupd old (fun _ => 1%R) (vresize 0%R (S old) x) in
  let norm := rpow (s + rpow (Rabs 1) p) (1 / p) in
  if Req_EM_T norm 0 then Ok None else
  let* x2 := ofold (fun x j => vupd j (fun v => (v / norm)%R) x) (seq 0 (S old)) x1 in
  Ok (Some x2).
(** Data.hpp:1651, the loop over the points. *)
Fixpoint normalize_points (p : R) (old : nat) (pts : list (point R)) : outcome (option (list (point R))) :=
  match pts with
  | [] => Ok (Some [])
  | q :: r =>
      let* a := normalize_x p old (p_x q) in
      let* b := normalize_points p old r in
      match a, b with Some x, Some r' => Ok (Some (mkPoint x (p_y q) (p_id q) (p_alpha q) :: r')) | _, _ => Ok None end
  end.
(** Data.hpp:1645-1667; m_size is the number of points handled. dim() reads the first point (Data.hpp:213), already enlarged. *)
Definition normalize (p : R) (d : data R) : outcome (option (data R)) :=
  let old := dim d in
  if Nat.ltb (length (d_points d)) (d_size d) then UB else
  let* r := normalize_points p old (firstn (d_size d) (d_points d)) in
  match r with
  | None => Ok None
  | Some pts =>
      let pts' := pts ++ skipn (d_size d) (d_points d) in
      let d' := mkData pts' (d_fnames d) (d_index d) (d_cnames d) (d_classes d) (d_dist d) (d_size d) (S old) (d_isempty d) true (d_cdist d) (d_class d) in
      Ok (Some (mkData pts' (d_fnames d ++ [Z.of_nat (dim d')]) (d_index d) (d_cnames d) (d_classes d) (d_dist d) (d_size d) (S old) (d_isempty d) true (d_cdist d) (d_class d)))
  end.
