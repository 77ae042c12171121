(** Specification of the learning rates of the incremental margin algorithm. *)
From Coq Require Import List Reals.
Import ListNotations.
Local Open Scope R_scope.

(** The learning rate after successful calls that left the update counter at [cs]: 1 up to the second one, then the square root of the third count over that of the last. *)
Definition rate_after (cs : list nat) : R := match cs with _ :: _ :: c :: _ => sqrt (INR c) / sqrt (INR (last cs O)) | _ => 1 end.
(** The counts do not decrease. *)
Definition rising (cs : list nat) : Prop := forall i j, (i <= j < length cs)%nat -> (nth i cs O <= nth j cs O)%nat.
