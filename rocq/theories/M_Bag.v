(** Model of the training of BaggingClassifier: /repo/subprojects/ufjfmltk-ensemble/include/ufjfmltk/ensemble/BaggingClassifier.hpp:18-53, on the heap of shared points
    (M_Heap, M_Sampling).

    Simplifications: [gen s] is the random stream of a generator seeded by [s], [devs] are the numbers std::random_device gives, in order; seeds are natural numbers without
    wraparound; a trained member is the function [fit]: [fit s v p] is the answer for point p of a copy of the estimator with seed s trained on v; the object was built by the
    second constructor, so that there are n_estimators members. *)
From Coq Require Import ZArith Bool List.
From Verif Require Import Base M_Data M_Heap Loop M_Sampling M_Ens.
Import ListNotations.
Local Open Scope nat_scope.

(** BaggingClassifier.hpp:32. *)
Definition bag_seed (devs : nat -> nat) (seed : nat) : nat := if Nat.eqb seed 0 then devs 0 else seed.
(** BaggingClassifier.hpp:36. *)
Definition bag_salt (devs : nat -> nat) (seed i : nat) : nat := if Nat.eqb seed 0 then devs (S i) else i.

Section Bag.
Context {T : Type}.
(** A member: its seed and its samples (Learner.hpp:145-150). *)
Definition member := (nat * hdata T)%type.
(** BaggingClassifier.hpp:35-40: member [i]; setSamples(const Data&) copies the sample (Learner.hpp:150). [None]: the sampling does not end. *)
Definition bag_member (gen : nat -> nat -> nat -> nat) (devs : nat -> nat) (seed m : nat) (src : hdata T) (acc : option (heap T * list member)) (i : nat)
  : outcome (option (heap T * list member)) :=
  match acc with
  | None => Ok None
  | Some (hp, ms) =>
      let s := seed + bag_salt devs seed i in
      let* r := sampling (gen s) 0 hp src m true in
      match r with
      | None => Ok None
      | Some (hp1, smp) => let* c := h_copy hp1 smp in Ok (Some (fst c, ms ++ [(s, snd c)]))
      end
  end.
(** BaggingClassifier.hpp:31-42: train(): the seed of the object afterwards, the heap and the members. *)
Definition bag_train (gen : nat -> nat -> nat -> nat) (devs : nat -> nat) (seed k : nat) (hp : heap T) (src : hdata T) : outcome (option (nat * heap T * list member)) :=
  let s := bag_seed devs seed in
  let* d := view hp src in
  if Nat.eqb k 0 then UB else
  let* r := ofold (bag_member gen devs s (size d / k) src) (seq 0 k) (Some (hp, [])) in
  match r with None => Ok None | Some (hp', ms) => Ok (Some (s, hp', ms)) end.
(** BaggingClassifier.hpp:44-53: evaluate(p). *)
Definition bag_evaluate (fit : nat -> data T -> point T -> Z) (hp : heap T) (src : hdata T) (ms : list member) (p : point T) : outcome Z :=
  let* d := view hp src in
  let* preds := map_outcome (fun m => let* v := view hp (snd m) in Ok (fit (fst m) v p)) ms in
  committee_evaluate (d_classes d) preds.
End Bag.
