(** Specification of reproducibility. *)
From Coq Require Import ZArith List.
From Verif Require Import M_Random.
Import ListNotations.
Local Open Scope Z_scope.
(** The seed of the last init of the history; 1 is the documented seed before any. *)
Fixpoint last_seed (cur : Z) (cs : list rcall) : Z :=
  match cs with [] => cur | RInit _ s :: r => last_seed s r | RInt _ _ :: r => last_seed cur r end.
Definition ranges (rs : list (Z * Z)) : list rcall := map (fun r => RInt (fst r) (snd r)) rs.
(** A distribution that returns values of its range. *)
Definition in_bounds {G} (uniform : Z -> Z -> G -> Z * G) : Prop := forall lo hi g, lo <= hi -> lo <= fst (uniform lo hi g) <= hi.
(** A toy generator, for the examples: a counter; the value is the state folded into the range. *)
Definition count_uniform (lo hi g : Z) : Z * Z := (lo + g mod (hi - lo + 1), g + 1).
