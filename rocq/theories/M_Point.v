(** Model of Point.hpp and ExprOps.hpp: lazily evaluated element-wise expressions and the functions on
    points, over the reals. Doubles are idealised as real numbers; a value that is not a real number
    (division by zero, logarithm or root outside the domain: inf/NaN in C++) is [None].
    Asserts are enabled ([Abort]); an out-of-range vector access is [UB]. *)
From Coq Require Import ZArith Bool List Reals.
From Verif Require Import Base M_Data.
Import ListNotations.

(** The data of a Point<double> (Point.hpp:45). *)
Definition vec := list R.

(** ExprOps.hpp:50-108 (A_Add, A_Mult, A_Div, A_Sub) on the element type. *)
Inductive bop := Add | Sub | Mul | Div.
(** ExprOps.hpp:57-59, 73-75, 89-91, 105-107. *)
Definition bop_el (o : bop) (x y : R) : option R :=
  match o with
  | Add => Some (x + y)%R
  | Sub => Some (x - y)%R
  | Mul => Some (x * y)%R
  | Div => if Req_EM_T y 0 then None else Some (x / y)%R
  end.
(** ExprOps.hpp:131-191: F_Log, F_Exp, F_Abs, F_Pow. std::pow is modelled for the exponents 1, 2 and
    1/2 used by the distance functors. F_Cos and F_Sin are not modelled. *)
Inductive uop := Log | Exp | Abs | Pow1 | Pow2 | PowHalf.
(** ExprOps.hpp:136-138, 146-148, 156-158, 188-190. *)
Definition uop_el (o : uop) (x : R) : option R :=
  match o with
  | Log => if Rlt_dec 0 x then Some (ln x) else None
  | Exp => Some (exp x)
  | Abs => Some (Rabs x)
  | Pow1 => Some x
  | Pow2 => Some (x * x)%R
  | PowHalf => if Rle_dec 0 x then Some (sqrt x) else None
  end.

(** A Point<T,Rep>: a vector, a scalar operand (A_Scalar, ExprScalar.hpp: size() is 0, every index gives
    the value), or an unevaluated operation. References to operands are modelled by value, that is,
    for operands that outlive the expression. *)
Inductive px :=
| V (v : vec)
| Sc (s : R)
| B (o : bop) (a b : px)
| U (o : uop) (a : px).

(** ExprOps.hpp:36-41 (BExprOp::size), 124-126 (UExprOp::size). *)
Fixpoint psize (e : px) : outcome nat :=
  match e with
  | V v => Ok (length v)
  | Sc _ => Ok O
  | B _ a b =>
      let* n := psize a in
      let* m := psize b in
      if Nat.eqb n 0 || Nat.eqb m 0 || Nat.eqb n m then Ok (if Nat.eqb n 0 then m else n) else Abort
  | U _ a => psize a
  end.

(** NaN and infinity, here [None], stay so through an operation (ExprOps.hpp:57-107). *)
Definition lift2 (f : R -> R -> option R) (x y : option R) : option R :=
  match x, y with Some a, Some b => f a b | _, _ => None end.
(** The same for unary operations (ExprOps.hpp:136-190). *)
Definition lift1 (f : R -> option R) (x : option R) : option R :=
  match x with Some a => f a | None => None end.

(** operator[] of the expression classes (ExprOps.hpp:57-190); Rep::operator[] of std::vector is unchecked. *)
Fixpoint pidx (e : px) (i : nat) : outcome (option R) :=
  match e with
  | V v => let* x := vget v i in Ok (Some x)
  | Sc s => Ok (Some s)
  | B o a b => let* x := pidx a i in let* y := pidx b i in Ok (lift2 (bop_el o) x y)
  | U o a => let* x := pidx a i in Ok (lift1 (uop_el o) x)
  end.

(** The loop of Point.hpp:83-85. *)
Fixpoint collect {A} (f : nat -> outcome A) (is : list nat) : outcome (list A) :=
  match is with
  | [] => Ok []
  | i :: r => let* x := f i in let* l := collect f r in Ok (x :: l)
  end.

(** Point(Point<T,R1> const&), Point.hpp:78-89: evaluation into a vector. *)
Definition peval (e : px) : outcome (list (option R)) :=
  let* n := psize e in collect (pidx e) (seq 0 n).

(** Point.hpp:285-293: sum(). *)
Definition osumR (l : list (option R)) : option R :=
  fold_left (fun acc x => lift2 (fun a b => Some (a + b)%R) acc x) l (Some 0%R).
(** Point.hpp:285-293 on an expression. *)
Definition psum (e : px) : outcome (option R) := let* l := peval e in Ok (osumR l).

(** Point.hpp:543-550 (max) and 556-563 (min): the accumulators start at numeric_limits<T>::min(), the
    smallest positive number [tiny], and numeric_limits<T>::max() [huge]; comparisons with NaN are false. *)
Definition pmax (tiny : R) (e : px) : outcome R :=
  let* l := peval e in
  Ok (fold_left (fun m x => match x with Some v => if Rlt_dec m v then v else m | None => m end) l tiny).
(** Point.hpp:556-563. *)
Definition pmin (huge : R) (e : px) : outcome R :=
  let* l := peval e in
  Ok (fold_left (fun m x => match x with Some v => if Rlt_dec v m then v else m | None => m end) l huge).

(** Point.hpp:527-537: dot. *)
Definition pdot (a b : vec) : outcome R :=
  if Nat.eqb (length a) (length b)
  then Ok (fold_left (fun acc p => acc + fst p * snd p)%R (combine a b) 0%R)
  else Abort.

(** Point.hpp:650-656: norm(2), through pow(abs(x),2).sum() and the root. *)
Definition pnorm2 (a : vec) : outcome R :=
  let* s := psum (U Pow2 (U Abs (V a))) in
  match s with Some r => Ok (sqrt r) | None => UB end.

(** Point.hpp:300-310: operator=(Point const&); 323-333 (std::vector): the vector never shrinks and
    only the coordinates are copied. *)
Definition passign (a b : vec) : vec := b ++ skipn (length b) a.
(** Point.hpp:300-310. *)
Definition point_assign (a b : point R) : point R := mkPoint (passign (p_x a) (p_x b)) (p_y a) (p_id a) (p_alpha a).

(** Point.hpp:363-483, operator+=, -=, *=, /= with a point. *)
Definition paccum (o : bop) (a b : vec) : outcome (list (option R)) :=
  if Nat.eqb (length a) (length b) then Ok (map (fun p => bop_el o (fst p) (snd p)) (combine a b)) else Abort.
(** The same with a scalar. Point.hpp:372-461. *)
Definition paccum_s (o : bop) (a : vec) (s : R) : list (option R) := map (fun x => bop_el o x s) a.

(** Point.hpp:662-667: normalize(p, 2): division by the Euclidean norm. *)
Definition pnormalize (a : vec) : outcome (list (option R)) :=
  let* n := pnorm2 a in Ok (paccum_s Div a n).

(** Point.hpp:678-688: linspace; N = 1 divides by zero, the value is then still [lower]; N = 0: N-1 wraps, no
    element is written. *)
Definition linspace (lower upper : R) (n : nat) : list R :=
  map (fun i => lower + INR i * ((upper - lower) / INR (n - 1)))%R (seq 0 n).

(** DistanceMetric.hpp. Line numbers of operator() of each functor. DistanceMetric.hpp:29-503. *)
Inductive functor :=
| Euclidean            (* 35-41 *)
| Manhattan            (* 51-53 *)
| Chebyshev            (* 63-65 *)
| Lorentzian           (* 77-79 *)
| Canberra             (* 85-87 *)
| Sorensen             (* 93-95 *)
| AvgManhattan         (* 101-103 *)
| NonIntersection      (* 109-111: (1 / 2) is the integer 0 *)
| Jaccard              (* 123-126 *)
| Cosine               (* 136-138 *)
| Dice                 (* 148-150 *)
| Chord                (* 160-162 *)
| Bhattacharyya        (* 174-176 *)
| SquaredChord         (* 186-188 *)
| Matusita             (* 198-200 *)
| Hellinger            (* 210-212 *)
| SquaredEuclidean     (* 224-226 *)
| Clark                (* 236-238 *)
| Neyman               (* 248-250 *)
| Pearson              (* 260-262 *)
| Squared              (* 272-274 *)
| ProbabilisticSymmetric (* 284-286 *)
| Divergence           (* 296-298 *)
| AdditiveSymmetric    (* 308-310 *)
| Average              (* 320-322: (1/size) is a size_t division *)
| SquaredChiSquared    (* 340-342 *)
| KullbackLeibler      (* 354-356 *)
| Jeffreys             (* 366-368 *)
| KDivergence          (* 378-380 *)
| Topsoe               (* 390-392 *)
| JensenShannon        (* 402-404: (1/2) is the integer 0 *)
| JensenDifference     (* 414-416: (1/2) is the integer 0 *)
| MaxSymmetric         (* 432-434 *)
| MinSymmetric         (* 440-442: also std::max *)
| AverageL1Linf        (* 454-456 *)
| KumarJohnson         (* 466-468: 3/2 is the integer 1 *)
| Taneja               (* 478-480 *)
| Hassanat.            (* 490-503; Point::operator[] asserts the index *)

(** Division in DistanceMetric.hpp:29-503. *)
Definition rdivo (x y : option R) : option R := lift2 (bop_el Div) x y.
(** std::sqrt in DistanceMetric.hpp:29-503. *)
Definition sqrto (x : option R) : option R := lift1 (uop_el PowHalf) x.
(** A function of two numbers in DistanceMetric.hpp:29-503. *)
Definition olift (f : R -> R -> R) := lift2 (fun a b => Some (f a b)).

(** DistanceMetric.hpp:490-503: one coordinate. *)
Definition hassanat_el (x y : R) : option R :=
  let mn := Rmin x y in let mx := Rmax x y in
  if Rle_dec 0 mn then lift1 (fun q => Some (1 - q)%R) (bop_el Div (1 + mn) (1 + mx))
  else lift1 (fun q => Some (1 - q)%R) (bop_el Div (1 + mn + Rabs mn) (1 + mx + Rabs mx)).

(** DistanceMetric.hpp:29-503; the lines of each functor are given at its constructor. *)
Definition distance (tiny : R) (f : functor) (p q : vec) : outcome (option R) :=
  let a := V p in let b := V q in
  let d := B Sub a b in
  let sq e := U Pow2 e in
  let ab e := U Abs e in
  let half e := B Div e (Sc 2) in
  let scale (k : R) (m : outcome (option R)) := let* s := m in Ok (lift1 (fun x => Some (k * x)%R) s) in
  let divr m n := let* x := m in let* y := n in Ok (rdivo x y) in
  match f with
  | Euclidean => let* s := psum (sq d) in Ok (sqrto s)
  | Manhattan => psum (ab d)
  | Chebyshev => let* m := pmax tiny (ab d) in Ok (Some m)
  | Lorentzian => psum (U Log (B Sub (Sc 1) (ab d)))
  | Canberra => psum (B Div (ab d) (B Add (ab a) (ab b)))
  | Sorensen => divr (psum (ab d)) (psum (B Add a b))
  | AvgManhattan => let* s := psum (ab d) in Ok (rdivo s (Some (INR (length p))))
  | NonIntersection => scale 0%R (psum (ab d))
  | Jaccard =>
      let* n := psum (sq d) in let* x := psum (sq a) in let* y := psum (sq b) in let* xy := psum (B Mul a b) in
      Ok (rdivo n (olift Rminus (olift Rplus x y) xy))
  | Cosine =>
      let* xy := psum (B Mul a b) in let* x := psum (sq a) in let* y := psum (sq b) in
      Ok (olift Rminus (Some 1%R) (rdivo xy (olift Rmult (sqrto x) (sqrto y))))
  | Dice =>
      let* xy := psum (B Mul a b) in let* x := psum (sq a) in let* y := psum (sq b) in
      Ok (olift Rminus (Some 1%R) (rdivo (olift Rmult (Some 2%R) xy) (olift Rplus x y)))
  | Chord =>
      let* xy := psum (B Mul a b) in let* x := psum (sq a) in let* y := psum (sq b) in
      Ok (sqrto (olift Rminus (Some 2%R) (olift Rmult (Some 2%R) (rdivo xy (olift Rmult x y)))))
  | Bhattacharyya => let* s := psum (U PowHalf (B Mul a b)) in Ok (lift1 (fun x => Some (- x)%R) (sqrto s))
  | SquaredChord => psum (sq (B Sub (U PowHalf a) (U PowHalf b)))
  | Matusita => let* s := psum (sq (B Sub (U PowHalf a) (U PowHalf b))) in Ok (sqrto s)
  | Hellinger => let* s := psum (sq (B Sub (U PowHalf a) (U PowHalf b))) in Ok (sqrto (olift Rmult (Some 2%R) s))
  | SquaredEuclidean => psum (sq d)
  | Clark => psum (sq (B Div d (B Add (ab a) (ab b))))
  | Neyman => psum (B Div (sq d) a)
  | Pearson => psum (B Div (sq d) b)
  | Squared => psum (B Div (sq d) (B Add a b))
  | ProbabilisticSymmetric => scale 2%R (psum (B Div (sq d) (B Add a b)))
  | Divergence => scale 2%R (psum (B Div (sq d) (sq (B Add a b))))
  | AdditiveSymmetric => scale 2%R (psum (B Div (B Mul (sq d) (B Add a b)) (B Mul a b)))
  | Average =>
      match length p with
      | O => UB
      | n => let* s := scale (INR (1 / n)) (psum (sq d)) in Ok (sqrto s)
      end
  | SquaredChiSquared => psum (B Div (sq d) (ab (B Add a b)))
  | KullbackLeibler => psum (B Mul a (U Log (B Div a b)))
  | Jeffreys => psum (B Mul d (U Log (B Div a b)))
  | KDivergence => psum (B Mul a (U Log (B Div (B Mul (Sc 2) a) (B Add a b))))
  | Topsoe =>
      let* x := psum (B Mul a (U Log (B Div (B Mul (Sc 2) a) (B Add a b)))) in
      let* y := psum (B Mul b (U Log (B Div (B Mul (Sc 2) b) (B Add a b)))) in
      Ok (olift Rplus x y)
  | JensenShannon =>
      let* x := scale 0%R (psum (B Mul a (U Log (B Div (B Mul (Sc 2) a) (B Add a b))))) in
      let* y := psum (B Mul b (U Log (B Div (B Mul (Sc 2) b) (B Add a b)))) in
      Ok (olift Rplus x y)
  | JensenDifference =>
      scale 0%R (psum (B Sub (half (B Add (B Mul a (U Log a)) (B Mul b (U Log b))))
                           (B Mul (half (B Add a b)) (U Log (half (B Add a b))))))
  | MaxSymmetric | MinSymmetric =>
      let* x := psum (B Div (sq d) a) in let* y := psum (B Div (sq d) b) in Ok (olift Rmax x y)
  | AverageL1Linf =>
      let* s := psum (ab d) in let* m := pmax tiny (ab d) in Ok (olift (fun x y => (x + y) / 2)%R s (Some m))
  | KumarJohnson => psum (B Div (sq (B Add (sq a) (sq b))) (B Mul (Sc 2) (U Pow1 (B Mul a b))))
  | Taneja => psum (B Mul (half (B Add a b)) (U Log (B Div (B Add a b) (B Mul (Sc 2) (U PowHalf (B Mul a b))))))
  | Hassanat =>
      let* l := collect (fun i => let* x := vget p i in
               match nth_error q i with Some y => Ok (hassanat_el x y) | None => Abort end) (seq 0 (length p)) in
      Ok (osumR l)
  end.
