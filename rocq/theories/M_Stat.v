(** Model of /repo/subprojects/ufjfmltk-core/include/ufjfmltk/core/Statistics.hpp over the reals. A value that is not a real number (0/0) is [None].
    Sums over a column add in the order of the points. *)
From Coq Require Import ZArith Bool List Reals.
From Verif Require Import Base M_Data M_Point Loop.
Import ListNotations.
Local Open Scope nat_scope.

(** Statistics.hpp:102-106, for a point that is a vector. *)
Definition mean_p (v : vec) : outcome (option R) :=
  if Nat.eqb (length v) 0 then Abort else
  let* s := psum (V v) in
  Ok (lift1 (fun x => Some (x / INR (length v))%R) s).
(** p - mean(p): a point minus a scalar that may not be a number. Statistics.hpp:121, 144, 182. *)
Definition minus_mean (v : vec) : outcome (option px) := let* m := mean_p v in Ok (match m with Some x => Some (B Sub (V v) (Sc x)) | None => None end).
(** Statistics.hpp:141-145. *)
Definition var_p (v : vec) : outcome (option R) :=
  if Nat.eqb (length v) 0 then Abort else
  let* e := minus_mean v in
  match e with
  | None => Ok None
  | Some e => let* s := psum (U Pow2 e) in Ok (lift1 (fun x => Some (x / INR (length v))%R) s)
  end.
(** Statistics.hpp:118-122. *)
Definition std_p (v : vec) : outcome (option R) :=
  if Nat.eqb (length v) 0 then Abort else
  let* e := minus_mean v in
  match e with
  | None => Ok None
  | Some e => let* s := psum (U Pow2 e) in Ok (lift1 (fun x => uop_el PowHalf (x / INR (length v))%R) s)
  end.
(** Statistics.hpp:179-183: divides by the size minus one. *)
Definition covar (p q : vec) : outcome (option R) :=
  if negb (Nat.eqb (length p) (length q)) then Abort else
  let* a := minus_mean p in
  let* b := minus_mean q in
  match a, b with
  | Some a, Some b => let* s := psum (B Mul a b) in Ok (lift1 (fun x => bop_el Div x (INR (length q) - 1)%R) s)
  | _, _ => Ok None
  end.

(** Point::operator[] asserts the index (Point.hpp:247-250). *)
Definition pcoord (p : point R) (i : nat) : outcome R := match nth_error (p_x p) i with Some v => Ok v | None => Abort end.
(** X()[j] of point i: no check. Statistics.hpp:135, 159, 170, 199, 208, 219, 245-247, 279-281. *)
Definition xcoord (d : data R) (i j : nat) : outcome R := let* p := vget (d_points d) i in vget (p_x p) j.
(** Statistics.hpp:108-116. *)
Definition mean_d (d : data R) (feat : nat) : outcome R :=
  if Nat.ltb feat (dim d) then
    let* s := osum (size d) (fun i => let* p := vget (d_points d) i in pcoord p feat) in
    Ok (if Nat.ltb 0 (size d) then s / INR (size d) else 0)%R
  else Abort.
(** Statistics.hpp:124-139. (With no points the mean fails its assertion.) *)
Definition std_d (d : data R) (feat : nat) : outcome R :=
  if Nat.eqb (size d) 1 then Ok 0%R else
  let* avg := mean_d d feat in
  let* sd := osum (size d) (fun i => let* x := xcoord d i feat in Ok ((x - avg) * (x - avg))%R) in
  Ok (sqrt (sd / (INR (size d) - 1))).

(** Statistics.hpp:155-163 and 195-203: the mean of every feature kept, 0 for the others; [None] when there are no points. *)
Definition centroid (keep : nat -> outcome bool) (d : data R) : outcome (list (option R)) :=
  map_outcome (fun j =>
    let* k := keep j in
    if k then
      let* s := osum (size d) (fun i => xcoord d i j) in
      Ok (bop_el Div s (INR (size d)))
    else Ok (Some 0%R)) (seq 0 (dim d)).
(** Statistics.hpp:168-172 and 206-210: the square of the distance of point i to the centroid in the features kept. *)
Definition spread (keep : nat -> outcome bool) (d : data R) (avg : list (option R)) (i : nat) : outcome (option R) :=
  ofold (fun acc j =>
    let* k := keep j in
    if k then
      let* a := vget avg j in
      let* x := xcoord d i j in
      Ok (lift2 (fun s m => Some (s + (m - x) * (m - x))%R) acc a)
    else Ok acc) (seq 0 (dim d)) (Some 0%R).
(** feat < 0 || fnames[j] != feat with an int feat. *)
Definition keep_int (d : data R) (feat : Z) (j : nat) : outcome bool :=
  if Z.ltb feat 0 then Ok true else let* f := vget (d_fnames d) j in Ok (negb (Z.eqb f feat)).
(** The same with a size_t feat (feat < 0 is false, the name is converted). *)
Definition keep_size (d : data R) (feat : Z) (j : nat) : outcome bool :=
  let* f := vget (d_fnames d) j in Ok (negb (Z.eqb (f mod 2 ^ 64) feat)).
(** Statistics.hpp:147-177. *)
Definition var_d (d : data R) (feat : Z) : outcome (option R) :=
  let keep := keep_size d feat in
  let* avg := centroid keep d in
  let* s := ofold (fun acc i => let* n := spread keep d avg i in Ok (lift2 (fun a b => Some (a + b)%R) acc n)) (seq 0 (size d)) (Some 0%R) in
  Ok (lift1 (fun x => bop_el Div x (INR (size d))) s).
(** Statistics.hpp:185-226. A comparison with a value that is not a number is false. *)
Definition radius (d : data R) (feat : Z) (q : R) : outcome R :=
  let keep := keep_int d feat in
  if Req_EM_T q 2 then
    let* avg := centroid keep d in
    ofold (fun m i =>
      let* n := spread keep d avg i in
      Ok (match lift1 (uop_el PowHalf) n with Some v => if Rlt_dec m v then v else m | None => m end)) (seq 0 (size d)) 0%R
  else if Req_EM_T q 1 then
    ofold (fun m i => ofold (fun m j =>
      let* k := keep j in
      if k then let* x := xcoord d i j in Ok (if Rlt_dec m (Rabs x) then Rabs x else m) else Ok m) (seq 0 (dim d)) m) (seq 0 (size d)) 0%R
  else Ok 1%R.
(** Statistics.hpp:237-252 and 271-286: the means of the points labelled 1 and of the others in feature j. *)
Definition class_mean (d : data R) (pos : bool) (j : nat) : outcome (option R) :=
  let* n := ofold (fun n i => let* p := vget (d_points d) i in Ok (if Bool.eqb (Z.eqb (p_y p) 1) pos then S n else n)) (seq 0 (size d)) 0 in
  let* s := osum (size d) (fun i => let* p := vget (d_points d) i in if Bool.eqb (Z.eqb (p_y p) 1) pos then vget (p_x p) j else Ok 0%R) in
  Ok (bop_el Div s (INR n)).
(** (avg_pos[j] - avg_neg[j])^2. *)
Definition gap2 (d : data R) (j : nat) : outcome (option R) :=
  let* a := class_mean d true j in
  let* b := class_mean d false j in
  Ok (lift2 (fun x y => Some ((x - y) * (x - y))%R) a b).
(** Statistics.hpp:228-260. *)
Definition distCenters (d : data R) (feat : Z) : outcome (option R) :=
  let* s := ofold (fun acc j =>
    let* g := gap2 d j in
    let* k := keep_int d feat j in
    Ok (if k then lift2 (fun s x => Some (s + x)%R) acc g else acc)) (seq 0 (dim d)) (Some 0%R) in
  Ok (lift1 (uop_el PowHalf) s).
(** Statistics.hpp:262-296; [index] is not used. *)
Definition distCentersWithoutFeats (d : data R) (feats : list Z) (index : Z) : outcome (option R) :=
  let* s := ofold (fun acc j =>
    let* g := gap2 d j in
    ofold (fun acc f => let* n := vget (d_fnames d) j in Ok (if Z.eqb n f then lift2 (fun s x => Some (s - x)%R) acc g else acc)) feats acc) (seq 0 (dim d)) (Some 0%R) in
  Ok (lift1 (fun x => uop_el PowHalf (Rabs x)) s).
