(** Specification of the drawn lines by the decision function. *)
From Coq Require Import List Reals Arith.
From Verif Require Import Base M_Lines.
Import ListNotations.
Local Open Scope R_scope.

(** The decision function w.p + b; weights of features [p] does not give are left out. *)
Fixpoint score (w p : list R) (b : R) : R := match w, p with a :: w, c :: p => a * c + score w p b | _, _ => b end.
(** The point of [n] coordinates that has the values given for some features and 0 elsewhere. *)
Definition sparse (n : nat) (vs : list (nat * R)) : list R :=
  map (fun i => fold_right (fun iv r => if Nat.eqb i (fst iv) then snd iv else r) 0 vs) (seq 0 n).
(** A point of the plane is on a drawn line; of space, on a drawn plane. *)
Definition on_line (l : line2) (u v : R) : Prop := exists a b, slope l = Some a /\ intercept l = Some b /\ v = a * u + b.
Definition on_plane (p : plane) (u v t : R) : Prop := exists a b c, slope_x p = Some a /\ slope_y p = Some b /\ height p = Some c /\ t = a * u + b * v + c.
