(** Model, in IEEE 754 double precision, of three distances: /repo/subprojects/ufjfmltk-core/include/ufjfmltk/core/DistanceMetric.hpp:28-66, as M_F64.v models the decision
    function. M_Point.v has the same functions over the reals. std::pow(x, 2) is taken to be the rounded product of x with itself. *)
From Coq Require Import ZArith Bool List.
From Flocq Require Import Core BinarySingleNaN.
From Verif Require Import Base M_Data Loop M_Perc M_F64.
Import ListNotations.
Local Open Scope nat_scope.

(** The operators - and > on doubles (ExprOps.hpp:69-78, Point.hpp:547). *)
Definition fsub (x y : b64) : b64 := Bminus mode_NE x y.
(** Point.hpp:547. *)
Definition flt (x y : b64) : bool := Bltb x y.
(** numeric_limits<double>::min(), the smallest normal number 2^-1022 (Point.hpp:545). *)
Definition fmin_normal : b64 := binary_normalize 53 1024 prec53 emax1024 mode_NE 1 (-1022) false.
(** p1 - p2, read by position: ExprOps.hpp:36-41 (sizes; an operand of size 0 counts as a scalar, and is then read unchecked), 69-78. *)
Definition fdiff (p q : list b64) : outcome (list b64) :=
  if Nat.eqb (length p) 0 || Nat.eqb (length q) 0 || Nat.eqb (length p) (length q) then
    map_outcome (fun i => let* x := vget p i in let* y := vget q i in Ok (fsub x y)) (seq 0 (if Nat.eqb (length p) 0 then length q else length p))
  else Abort.
(** Point.hpp:285-293: sum(); DistanceMetric.hpp:36-39 in the Euclidean distance. *)
Definition fsum (l : list b64) : b64 := fold_left fadd l fzero.
(** Point.hpp:543-550: max(). *)
Definition fmax (l : list b64) : b64 := fold_left (fun m x => if flt m x then x else m) l fmin_normal.
(** DistanceMetric.hpp:51-53. *)
Definition fmanhattan (p q : list b64) : outcome b64 := let* d := fdiff p q in Ok (fsum (map Babs d)).
(** DistanceMetric.hpp:63-65. *)
Definition fchebyshev (p q : list b64) : outcome b64 := let* d := fdiff p q in Ok (fmax (map Babs d)).
(** DistanceMetric.hpp:35-41. *)
Definition feuclidean (p q : list b64) : outcome b64 := let* d := fdiff p q in Ok (Bsqrt mode_NE (fsum (map (fun x => fmul x x) d))).
