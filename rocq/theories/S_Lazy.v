(** Specification of the lazy expressions, by values only. *)
From Coq Require Import ZArith Bool List Reals.
From Verif Require Import Base M_Point S_Point M_Lazy.
Import ListNotations.
Local Open Scope nat_scope.

(** What the named points hold: values of coordinates, and indices. *)
Record names := mkNames { vals : nat -> list (option R); inds : nat -> list nat }.
(** Arithmetic on numbers, [None] for what is not one. *)
Definition two (o : bop) (x y : option R) : option R := match x, y with Some a, Some b => arith o a b | _, _ => None end.
Definition one (o : uop) (x : option R) : option R := match x with Some a => func o a | None => None end.
Definition nvalue (g : names) (s : num) : option R := match s with Lit v => v | Elem x i => nth i (vals g x) None end.
(** The value of an expression at coordinate [i]. *)
Fixpoint value (g : names) (e : ex) (i : nat) : option R :=
  match e with
  | Var x => nth i (vals g x) None
  | Bin o a b => two o (value g a i) (value g b i)
  | BinL o s b => two o (nvalue g s) (value g b i)
  | BinR o a s => two o (value g a i) (nvalue g s)
  | Un o a => one o (value g a i)
  | At x p => nth (nth i (inds g p) 0) (vals g x) None
  end.
(** A named point of [n] coordinates in the memory. *)
Definition point_at (m : mem) (g : names) (n x : nat) : Prop := nth_error m x = Some (Some (OVec (vals g x))) /\ length (vals g x) = n.
Definition number_ok (m : mem) (g : names) (s : num) : Prop :=
  match s with Lit _ => True | Elem x i => nth_error m x = Some (Some (OVec (vals g x))) /\ i < length (vals g x) end.
(** An expression on live points of [n] coordinates each; indices are in range. *)
Fixpoint sound (m : mem) (g : names) (n : nat) (e : ex) : Prop :=
  match e with
  | Var x => point_at m g n x
  | Bin _ a b => sound m g n a /\ sound m g n b
  | BinL _ s b => number_ok m g s /\ sound m g n b
  | BinR _ a s => sound m g n a /\ number_ok m g s
  | Un _ a => sound m g n a
  | At x p => nth_error m x = Some (Some (OVec (vals g x))) /\ nth_error m p = Some (Some (OIdx (inds g p))) /\ length (inds g p) = n /\ forall k, In k (inds g p) -> k < length (vals g x)
  end.
(** [x] is used in [e] only coordinate by coordinate: not as x[p], nor one of its coordinates as a number. *)
Fixpoint straight (x : nat) (e : ex) : Prop :=
  let num_ok s := match s with Lit _ => True | Elem y _ => y <> x end in
  match e with
  | Var _ => True
  | Bin _ a b => straight x a /\ straight x b
  | BinL _ s b => num_ok s /\ straight x b
  | BinR _ a s => straight x a /\ num_ok s
  | Un _ a => straight x a
  | At y _ => y <> x
  end.
(** The new value of a coordinate, after = or an operation with assignment. *)
Definition result (o : option bop) (old new : option R) : option R := match o with None => new | Some b => two b old new end.
(** Named objects are as before, but the point [x] has the values [v]. *)
Definition only_changed (m m' : mem) (x : nat) (v : list (option R)) : Prop :=
  nth_error m' x = Some (Some (OVec v)) /\ forall l, l < length m -> l <> x -> nth_error m' l = nth_error m l.
(** One operation on named points, with no temporary number. *)
Definition is_var (e : ex) : Prop := match e with Var _ => True | _ => False end.
Definition is_elem (s : num) : Prop := match s with Elem _ _ => True | Lit _ => False end.
Definition single (e : ex) : Prop :=
  match e with
  | Var _ => False
  | Bin _ a b => is_var a /\ is_var b
  | BinL _ s b => is_elem s /\ is_var b
  | BinR _ a s => is_var a /\ is_elem s
  | Un _ a => is_var a
  | At _ _ => True
  end.
(** A later state of the memory: more objects may have been made; vectors may hold other values, as many; what was destroyed stays so, and expressions stay as they are. *)
Definition later (m m' : mem) : Prop :=
  forall l o, nth_error m l = Some o -> match o with Some (OVec v) => exists v', nth_error m' l = Some (Some (OVec v')) /\ length v' = length v | _ => nth_error m' l = Some o end.
(** The expression [p] of M_Point.v, which has values in place of references, is the expression [e] with the points [env]. *)
Definition same_num (env : nat -> vec) (s : num) (r : R) : Prop := match s with Lit v => v = Some r | Elem x i => nth_error (env x) i = Some r end.
Fixpoint same (env : nat -> vec) (e : ex) (p : px) : Prop :=
  match e, p with
  | Var x, V v => v = env x
  | Bin o a b, B o' a' b' => o = o' /\ same env a a' /\ same env b b'
  | BinL o s b, B o' (Sc r) b' => o = o' /\ same_num env s r /\ same env b b'
  | BinR o a s, B o' a' (Sc r) => o = o' /\ same env a a' /\ same_num env s r
  | Un o a, U o' a' => o = o' /\ same env a a'
  | _, _ => False
  end.
