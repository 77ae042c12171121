(** Model of the lazy point expressions of Point.hpp, ExprOps.hpp, ExprTraits.hpp and ExprScalar.hpp with the references they hold and the lifetimes of what these refer to.
    (M_Point.v has the same expressions by value.) A place of the memory is the representation of a point (a vector, or an operation with references to
    the representations of its operands), a vector of indices, or a number; [None]: the object there was destroyed. Numbers are reals, [None] for those that are not (M_Point.v).
    Not modelled: expressions of several element types, assignments that resize a point (M_Point.v: passign), and expressions indexed by an expression. *)
From Coq Require Import ZArith Bool List Reals.
From Verif Require Import Base M_Point.
Import ListNotations.
Local Open Scope nat_scope.

(** Reference to a number (ExprScalar.hpp:14): to a temporary or a variable, or to the i-th coordinate of a point, as operator[] gives (Point.hpp:252-255). *)
Inductive nref := RNum (l : nat) | RElem (x i : nat).
(** ExprTraits.hpp:7-18: operands are held by reference, but an A_Scalar by value; it holds a reference to its number. *)
Inductive opd := Ref (l : nat) | Scal (s : nref).
(** What a place holds. ExprOps.hpp:20-43, 115-129 (operations), 224-252 (A_Subscript: a point and a point of indices), Point.hpp:45 (vectors). *)
Inductive obj := OVec (v : list (option R)) | OIdx (v : list nat) | ONum (s : option R) | OBin (o : bop) (a b : opd) | OUn (o : uop) (a : nat) | OSub (a i : nat).
(** Places, numbered in order of construction; [None]: destroyed. Point.hpp:42-49. *)
Definition mem := list (option obj).

(** Access through a reference (ExprOps.hpp:25-27, 118): undefined when the object was destroyed. *)
Definition look (m : mem) (l : nat) : outcome obj := match nth_error m l with Some (Some o) => Ok o | _ => UB end.
(** The number a reference leads to: ExprScalar.hpp:20-22. *)
Definition nread (m : mem) (s : nref) : outcome (option R) :=
  match s with
  | RNum l => let* o := look m l in match o with ONum x => Ok x | _ => UB end
  | RElem x i => let* o := look m x in match o with OVec v => vget v i | _ => UB end
  end.
(** size() through references: ExprOps.hpp:36-41 (binary), 124-126 (unary), 247-249 (A_Subscript), ExprScalar.hpp:25-27. References lead to older places, so [f] above the place suffices. *)
Fixpoint lsize (f : nat) (m : mem) (l : nat) : outcome nat :=
  match f with
  | 0 => UB
  | S f =>
      let* o := look m l in
      match o with
      | OVec v => Ok (length v)
      | OIdx v => Ok (length v)
      | ONum _ => UB
      | OBin _ a b =>
          let* n := match a with Ref l => lsize f m l | Scal _ => Ok 0 end in
          let* k := match b with Ref l => lsize f m l | Scal _ => Ok 0 end in
          if Nat.eqb n 0 || Nat.eqb k 0 || Nat.eqb n k then Ok (if Nat.eqb n 0 then k else n) else Abort
      | OUn _ a => lsize f m a
      | OSub _ i => lsize f m i
      end
  end.
(** operator[] through references: ExprOps.hpp:57-107 (binary), 136-190 (unary), 238-240 (A_Subscript); std::vector does not check its index. *)
Fixpoint lidx (f : nat) (m : mem) (l : nat) (i : nat) : outcome (option R) :=
  match f with
  | 0 => UB
  | S f =>
      let* o := look m l in
      match o with
      | OVec v => vget v i
      | OIdx _ | ONum _ => UB
      | OBin o a b =>
          let* x := match a with Ref l => lidx f m l i | Scal s => nread m s end in
          let* y := match b with Ref l => lidx f m l i | Scal s => nread m s end in
          Ok (lift2 (bop_el o) x y)
      | OUn o a => let* x := lidx f m a i in Ok (lift1 (uop_el o) x)
      | OSub a j =>
          let* oj := look m j in
          match oj with
          | OIdx js => let* k := vget js i in let* oa := look m a in match oa with OVec v => vget v k | _ => UB end
          | _ => UB
          end
      end
  end.
(** Point(Point<T,R1> const&), Point.hpp:78-89: evaluation of the expression at [l]. *)
Definition levaluate (m : mem) (l : nat) : outcome (list (option R)) :=
  let* n := lsize (S l) m l in collect (lidx (S l) m l) (seq 0 n).

(** Numbers in expressions: a literal or computed value, or a coordinate of a named point. Point.hpp:742-859, 252-255. *)
Inductive num := Lit (s : option R) | Elem (x i : nat).
(** Source expressions on named points (their places): operators with two points, a number on the left or on the right, functions, and x[p] with named points. Point.hpp:735-859, 612-648, 257-260. The operator % is left out. *)
Inductive ex := Var (x : nat) | Bin (o : bop) (a b : ex) | BinL (o : bop) (s : num) (b : ex) | BinR (o : bop) (a : ex) (s : num) | Un (o : uop) (a : ex) | At (x p : nat).

(** The reference to a number: a temporary is created for a literal; operator[] of a point asserts its index (Point.hpp:252-255). *)
Definition bnum (m : mem) (s : num) : outcome (mem * nref) :=
  match s with
  | Lit v => Ok (m ++ [Some (ONum v)], RNum (length m))
  | Elem x i => let* o := look m x in match o with OVec v => if Nat.ltb i (length v) then Ok (m, RElem x i) else Abort | _ => UB end
  end.
(** Construction of an expression: each operator returns a temporary with references to its operands. Point.hpp:735-859, 612-648, 257-260. *)
Fixpoint build (m : mem) (e : ex) : outcome (mem * nat) :=
  match e with
  | Var x => Ok (m, x)
  | Bin o a b => let* r := build m a in let* s := build (fst r) b in Ok (fst s ++ [Some (OBin o (Ref (snd r)) (Ref (snd s)))], length (fst s))
  | BinL o n b => let* r := bnum m n in let* s := build (fst r) b in Ok (fst s ++ [Some (OBin o (Scal (snd r)) (Ref (snd s)))], length (fst s))
  | BinR o a n => let* r := build m a in let* s := bnum (fst r) n in Ok (fst s ++ [Some (OBin o (Ref (snd r)) (Scal (snd s)))], length (fst s))
  | Un o a => let* r := build m a in Ok (fst r ++ [Some (OUn o (snd r))], length (fst r))
  | At x p => Ok (m ++ [Some (OSub x p)], length m)
  end.
(** The end of a statement: temporaries (the places from [n] on) are destroyed, except one that was given a name. Point.hpp:123 (destructor). *)
Definition sweep (n : nat) (keep : option nat) (m : mem) : mem :=
  map (fun p => if Nat.ltb (fst p) n || match keep with Some k => Nat.eqb (fst p) k | None => false end then snd p else None) (combine (seq 0 (length m)) m).
(** Point<double> r = e; the values r gets, and the memory. Point.hpp:78-89. *)
Definition declare (m : mem) (e : ex) : outcome (list (option R) * mem) :=
  let* r := build m e in
  let* v := levaluate (fst r) (snd r) in
  Ok (v, sweep (length m) None (fst r)).
(** auto h = e; h is the object the last operator returned, not a vector of values; auto h = x copies the point (Point.hpp:71-76). *)
Definition hold (m : mem) (e : ex) : outcome (mem * nat) :=
  match e with
  | Var x => let* o := look m x in Ok (m ++ [Some o], length m)
  | _ => let* r := build m e in Ok (sweep (length m) (Some (snd r)) (fst r), snd r)
  end.
(** Point<double> r = h; Point.hpp:78-89. *)
Definition use (m : mem) (h : nat) : outcome (list (option R)) := levaluate m h.
(** One step of the loops of operator=, += and so on: x[idx] = f(x[idx], b[idx]), reading [b] at that moment. Point.hpp:313-321, 388-394. *)
Definition store1 (f : option R -> option R -> option R) (m : mem) (x i : nat) (y : option R) : outcome mem :=
  let* o := look m x in
  match o with OVec v => let* v' := vupd i (fun old => f old y) v in vupd x (fun _ => Some (OVec v')) m | _ => UB end.
(** The loops over the coordinates: Point.hpp:316-318, 391-393 and likewise. *)
Fixpoint inplace (f : option R -> option R -> option R) (rd : mem -> nat -> outcome (option R)) (x : nat) (is : list nat) (m : mem) : outcome mem :=
  match is with
  | [] => Ok m
  | i :: r => let* y := rd m i in let* m1 := store1 f m x i y in inplace f rd x r m1
  end.
(** What is stored: the value itself (x = e, Point.hpp:313-321) or the result of an operation (x += e and so on, Point.hpp:364-482). *)
Definition upf (o : option bop) : option R -> option R -> option R :=
  match o with None => fun _ y => y | Some b => lift2 (bop_el b) end.
(** x = e and x += e, -=, *=, /= with an expression: equal sizes are asserted, then the coordinates are changed one after the other. Point.hpp:313-321, 388-394, 407-413, 441-447, 475-481. *)
Definition assign_e (o : option bop) (m : mem) (x : nat) (e : ex) : outcome mem :=
  let* r := build m e in
  let* n := lsize (S x) (fst r) x in
  let* k := lsize (S (snd r)) (fst r) (snd r) in
  if Nat.eqb n k then
    let* m1 := inplace (upf o) (fun m i => lidx (S (snd r)) m (snd r) i) x (seq 0 n) (fst r) in
    Ok (sweep (length m) None m1)
  else Abort.
(** x = s and x += s, -=, *=, /= with a number, passed by reference. Point.hpp:348-353, 372-377, 416-421, 450-455, 484-489. *)
Definition assign_n (o : option bop) (m : mem) (x : nat) (s : num) : outcome mem :=
  let* r := bnum m s in
  let* n := lsize (S x) (fst r) x in
  let* m1 := inplace (upf o) (fun m _ => nread m (snd r)) x (seq 0 n) (fst r) in
  Ok (sweep (length m) None m1).
