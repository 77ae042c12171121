(** Histories of operations on one dataset: the public mutators of mltk::Data, as a step function. *)
From Coq Require Import ZArith Bool String Permutation List.
From Verif Require Import Base M_Data.
Import ListNotations.
Open Scope Z_scope.

Section Hist.
Context {T : Type}.

(** One call on the dataset. [ShuffleOp] carries the permutation std::shuffle happens to produce. The lines are given at each constructor, Data.hpp:1182-2008. *)
Inductive op : Type :=
| InsertOp (p : point T) (keepIndex : bool)        (* Data.hpp:1448-1487 *)
| RemoveOp (id : Z)                                (* Data.hpp:1182-1212 *)
| RemoveManyOp (ids : list Z)                      (* Data.hpp:1251-1294 *)
| ShuffleOp (perm : list nat)                      (* Data.hpp:1348-1356 *)
| RemoveFeaturesOp (feats : list Z)                (* Data.hpp:1367-1434 *)
| RelabelOp (i : nat) (v : Z)                      (* Data.hpp:1980-2008 *)
| RecountOp                                        (* Data.hpp:1842-1852 *)
| ResetIndexOp.                                    (* Data.hpp:1759-1762 *)

(** The functions of M_Data, Data.hpp:1182-2008. *)
Definition step (d : data T) (o : op) : outcome (data T) :=
  match o with
  | InsertOp p k => let* r := insertPoint d p k in Ok (fst r)
  | RemoveOp i => let* r := removePoint d i in Ok (fst r)
  | RemoveManyOp ids => let* r := removePoints d ids in Ok (fst r)
  | ShuffleOp perm => shuffle perm d
  | RemoveFeaturesOp fs => let* r := removeFeatures d fs in Ok (fst r)
  | RelabelOp i v => let* r := updatePointValue d i v in Ok (fst r)
  | RecountOp => computeClassesDistribution d
  | ResetIndexOp => Ok (resetIndex d)
  end.

(** A history of calls (Data.hpp:1182-2008). *)
Fixpoint run (d : data T) (ops : list op) : outcome (data T) :=
  match ops with [] => Ok d | o :: r => let* d' := step d o in run d' r end.

(** The calls for which the code is defined and keeps its bookkeeping (see the refutations for what
    happens outside):
    - removePoint: the dataset is not empty, and the id is above the last point's, not positive,
      or present;
    - removePoints: some point stays, and matching ids are positive;
    - removeFeatures: the dataset is not empty and no existing name is requested twice;
    - relabelling: to a label already listed. *)
(** Data.hpp:1182-2008. *)
Definition allowed (d : data T) (o : op) : Prop :=
  match o with
  | InsertOp _ _ => Z.of_nat (size d) + 1 < 2 ^ 63
  | RemoveOp i => d_points d <> [] /\ (i <= 0 \/ In i (map p_id (d_points d)) \/ (forall p, In p (d_points d) -> p_id p < i))
  | RemoveManyOp ids => (exists p, In p (d_points d) /\ ~ In (p_id p) ids) /\
                        (forall p, In p (d_points d) -> In (p_id p) ids -> 0 < p_id p)
  | ShuffleOp perm => Permutation perm (seq 0 (size d))
  | RemoveFeaturesOp fs => d_points d <> [] /\ NoDup (filter (fun f => existsb (Z.eqb f) (d_fnames d)) fs)
  | RelabelOp i v => (size d <= i)%nat \/ In v (d_classes d)
  | RecountOp => True
  | ResetIndexOp => True
  end.

(** The same for a history (Data.hpp:1182-2008). *)
Fixpoint allowed_run (d : data T) (ops : list op) : Prop :=
  match ops with
  | [] => True
  | o :: r => allowed d o /\ forall d', step d o = Ok d' -> allowed_run d' r
  end.
End Hist.
Arguments op : clear implicits.
