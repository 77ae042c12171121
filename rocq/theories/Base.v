(** Shared vocabulary of the model: outcomes, safe list access, C++ integer wrap-around.
    Nothing in this file models a particular function of /repo. *)
From Coq Require Import Decimal DecimalString.
From Coq Require Import ZArith Bool String List.
Import ListNotations.

(** Result of running a modelled C++ function.
    [UB]    : undefined behaviour (out-of-range access, uninitialised read, invalid iterator, ...).
    [Abort] : failed [assert], [exit(1)] or an exception nobody catches. *)
Inductive outcome (A : Type) : Type :=
| Ok (a : A)
| UB
| Abort.
Arguments Ok {A} a.
Arguments UB {A}.
Arguments Abort {A}.

Definition obind {A B : Type} (m : outcome A) (f : A -> outcome B) : outcome B :=
  match m with Ok a => f a | UB => UB | Abort => Abort end.

Declare Scope outcome_scope.
Delimit Scope outcome_scope with outcome.
Notation "'let*' x ':=' m 'in' f" := (obind m (fun x => f))
  (at level 200, x pattern, m at level 100, f at level 200, right associativity) : outcome_scope.
Open Scope outcome_scope.

(** [v[i]] on a [std::vector]: undefined outside the range. *)
Definition vget {A : Type} (l : list A) (i : nat) : outcome A :=
  match nth_error l i with Some a => Ok a | None => UB end.

Fixpoint upd {A : Type} (i : nat) (f : A -> A) (l : list A) : option (list A) :=
  match l, i with
  | [], _ => None
  | x :: l', O => Some (f x :: l')
  | x :: l', S i' => match upd i' f l' with Some r => Some (x :: r) | None => None end
  end.

(** [v[i] = f(v[i])]: undefined outside the range. *)
Definition vupd {A : Type} (i : nat) (f : A -> A) (l : list A) : outcome (list A) :=
  match upd i f l with Some r => Ok r | None => UB end.

(** [v.resize(n)] with value-initialised fill [d]. *)
Definition vresize {A : Type} (d : A) (n : nat) (l : list A) : list A :=
  firstn n l ++ repeat d (n - length l).

(** [v.erase(v.begin()+i)]. *)
Definition remove_at {A : Type} (i : nat) (l : list A) : list A := firstn i l ++ skipn (S i) l.

(** 64-bit [size_t] arithmetic. *)
Definition wrap64 (z : Z) : Z := Z.modulo z (2 ^ 64).

(** [std::to_string(int)]. *)
Definition string_of_Z (z : Z) : string := NilZero.string_of_int (Z.to_int z).

(** [std::find(l.begin(), l.end(), c) - l.begin()]: the length of [l] when [c] is absent. *)
Fixpoint find_pos (c : Z) (l : list Z) : nat :=
  match l with
  | [] => O
  | x :: l' => if Z.eqb x c then O else S (find_pos c l')
  end.

(** [std::sort] for a total order (result unique up to equal keys) and, being stable,
    [std::stable_sort] / insertion order of a [std::multimap]. *)
Section Sort.
  Context {A : Type} (leb : A -> A -> bool).
  Fixpoint insert_sorted (x : A) (l : list A) : list A :=
    match l with
    | [] => [x]
    | y :: l' => if leb x y then x :: l else y :: insert_sorted x l'
    end.
  (* elements are inserted from the last to the first, so an element precedes later equal ones *)
  Fixpoint isort (l : list A) : list A :=
    match l with [] => [] | x :: l' => insert_sorted x (isort l') end.
End Sort.
