(** Models of the ranking of the features in AOS and of its other choice: /repo/subprojects/ufjfmltk-featselect/include/ufjfmltk/featselect/AOS.hpp, over the reals.
    A value is [None] when it is not a finite number. *)
From Coq Require Import ZArith Bool List Reals.
From Verif Require Import Base ListLib Loop M_Data M_Point M_Stat M_Kmeans M_Fs M_Pq M_Aos.
Import ListNotations.
Local Open Scope nat_scope.

(** AOS.hpp:660-662: std::find; the length of the list when the label is not there. *)
Fixpoint aos_find (l : list Z) (y : Z) : nat := match l with [] => 0 | z :: l => if Z.eqb z y then 0 else S (aos_find l y) end.
(** AOS.hpp:664-665: the number of points of a class. The conversion from size_t to int is left out. *)
Definition aos_count (d : data R) (y : Z) : outcome Z := vget (d_dist d) (aos_find (d_classes d) y).
(** AOS.hpp:670-681: the mean of feature [i] over the points labelled -1, or over the others, there being [num] of them. *)
Definition aos_mean (d : data R) (neg : bool) (num : Z) (i : nat) : outcome (option R) :=
  let* s := fs_sum d neg i (fun x => x) in Ok (bop_el Div (snd s) (IZR num)).
(** AOS.hpp:683-692: sd_neg[i] and sd_pos[i], the sum of the squares of the differences to the mean. *)
Definition aos_scatter (d : data R) (neg : bool) (m : option R) (i : nat) : outcome (option R) :=
  let* s := fs_sum d neg i (fun x => match m with Some m => (x - m) * (x - m) | None => 0 end)%R in
  Ok (match m with Some _ => Some (snd s) | None => if Nat.eqb (fst s) 0 then Some 0%R else None end).
(** sqrt(sd/num-1) in AOS.hpp:695-696. *)
Definition aos_root (s : option R) (num : Z) : option R := lift1 (fun q => uop_el PowHalf (q - 1)%R) (lift1 (fun s => bop_el Div s (IZR num)) s).
(** AOS.hpp:695-696: avg_pos is subtracted from itself. *)
Definition aos_golub (ap sp sn : option R) (np nn : Z) : option R :=
  lift2 (bop_el Add) (lift2 (bop_el Div) (lift1 (uop_el Abs) (lift2 (bop_el Sub) ap ap)) (aos_root sp np)) (aos_root sn nn).
(** AOS.hpp:697. *)
Definition aos_fisher (ap an sp sn : option R) : option R :=
  lift2 (bop_el Div) (lift1 (uop_el Pow2) (lift2 (bop_el Sub) ap an)) (lift2 (bop_el Add) sp sn).
(** AOS.hpp:657-699: the golub ([g] true) or fisher score of feature [i]. *)
Definition aos_score (g : bool) (d : data R) (i : nat) : outcome (option R) :=
  let* np := aos_count d 1 in
  let* nn := aos_count d (-1) in
  let* an := aos_mean d true nn i in
  let* ap := aos_mean d false np i in
  let* sn := aos_scatter d true an i in
  let* sp := aos_scatter d false ap i in
  Ok (if g then aos_golub ap sp sn np nn else aos_fisher ap an sp sn).
(** AOS.hpp:634-731: the value by which the sort compares feature [i] of the sample, of weight [w], for each sorting_shape. *)
Definition aos_key (shape : Z) (q : R) (d : data R) (w : R) (i : nat) : outcome (option R) :=
  let* f := vget (d_fnames d) i in
  if Z.eqb shape 6 then let* s := aos_score false d i in Ok (lift1 (fun s => Some (Rabs (w * s))) s)
  else if Z.eqb shape 5 then let* s := aos_score true d i in Ok (lift1 (fun s => Some (Rabs (w * s))) s)
  else if Z.eqb shape 4 then let* r := radius d f q in Ok (Some (Rabs (w * r)))
  else if Z.eqb shape 3 then
    let* r := radius d f q in let* c := distCenters d f in Ok (lift1 (uop_el Abs) (lift1 (fun c => bop_el Div (w * r)%R c) c))
  else if Z.eqb shape 2 then let* c := distCenters d f in Ok (lift1 (uop_el Abs) (lift1 (fun c => bop_el Div w c) c))
  else Ok (Some (Rabs w)).
(** AOS.hpp:702-731: the comparisons ((a > b) - (a < b)) <= 0 ? false : true; a comparison with a value that is not a number is false. *)
Definition aos_gt (a b : option R) : Z := match a, b with Some a, Some b => if Rlt_dec b a then 1%Z else 0%Z | _, _ => 0%Z end.
Definition aos_before (a b : option R) : bool := if Z.leb (aos_gt a b - aos_gt b a) 0 then false else true.

(** AOS.hpp:640, 644-656: the member dcents of a weight. *)
Definition aos_dcents (shape : Z) (d : data R) (f : Z) : outcome (option R) :=
  if Z.eqb shape 2 || Z.eqb shape 3 then distCenters d f else Ok (Some (-1)%R).
(** AOS.hpp:742-844: the body of the loop over the children for both choices; each weight comes with its dcents.
    As in M_Aos.v the w given to a child is left out. *)
Definition aos_branch_choice (choice : Z) (c : aos_cfg) (level : nat) (ofnames : list Z) (dim : nat) (ws : list (Z * R * R)) (wnorm margin : R) (s : front) (i : nat) : outcome front :=
  let '(st, tab, q, nw) := s in
  let* w := vget ws i in
  let tp := aos_projected dim i (snd (fst w)) wnorm margin in
  let value := if Z.eqb choice 2 then (tp * snd w)%R else tp in
  let* names := aos_names level ofnames (fst (fst w)) in
  let* a := vis_add (st ++ [Some (mkNode names (S level) value tp (-1))]) tab (length st) in
  let '(b, st1, tab1) := a in
  if negb (Nat.eqb i 0) && (if Rlt_dec value ((1 - 5 / 100) * a_gm c) then true else false) then Ok (st1, tab1, q, nw ++ [[]])
  else if b then let* r := pq_insert (a_cap c) st1 q (length st) true in Ok (st1, tab1, snd r, nw ++ [[]])
  else Ok (st1, tab1, q, nw ++ [[]]).
(** AOS.hpp:741-845: the children of a node. *)
Definition aos_children (choice : Z) (c : aos_cfg) (level : nat) (ofnames : list Z) (dim : nat) (ws : list (Z * R * R)) (wnorm margin : R) (s : front) : outcome front :=
  ofold (aos_branch_choice choice c level ofnames dim ws wnorm margin) (seq 0 (a_breadth c)) s.
