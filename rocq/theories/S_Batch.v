(** Specification vocabulary for batches: one call after the other. *)
From Coq Require Import List Reals.
From Verif Require Import Base M_Data.
Import ListNotations.

(** [calls ev s pts t ys]: evaluating the points one after the other from state [s] answers [ys] and leaves [t]. *)
Inductive calls {L : Type} (ev : L -> point R -> outcome (L * R)) : L -> list (point R) -> L -> list R -> Prop :=
| calls_none s : calls ev s [] s []
| calls_more s p u y pts t ys : ev s p = Ok (u, y) -> calls ev u pts t ys -> calls ev s (p :: pts) t (y :: ys).
