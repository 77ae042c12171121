(** Model of the training of PerceptronCommittee: /repo/subprojects/ufjfmltk-ensemble/include/ufjfmltk/ensemble/PerceptronCommittee.hpp:15-46, with members as in M_Balanced.

    Simplifications as in M_Balanced: for member i the weights drawn are [ws i], the permutation of its shuffle is [perms i], its clock is [late i]. The members are default
    constructed, with learning rate 0.5 and seed 0 (Learner.hpp:23, 46): the seed of the committee and its parameter epslon are not used. The limits of 10^9 epochs and updates
    (Learner.hpp:39-40) are the arguments [max_epoch] and [max_up]. *)
From Coq Require Import ZArith Bool List Reals.
From Verif Require Import Base M_Data M_Point Loop M_Ens M_Balanced.
Import ListNotations.
Local Open Scope R_scope.

(** PerceptronCommittee.hpp:22-26: member [i]. All members have the committee's samples by pointer, and shuffle them (Perceptron.hpp:101). *)
Definition pcom_member (big : R) (max_epoch max_up : nat) (late : nat -> nat -> bool) (ws : nat -> vec) (perms : nat -> list nat) (acc : data R * list (vec * R)) (i : nat)
  : outcome (data R * list (vec * R)) :=
  let* r := bp_train big (1 / 2) max_epoch max_up (late i) (ws i) (perms i) (fst acc) in
  let* d' := shuffle (perms i) (fst acc) in
  Ok (d', snd acc ++ [fst (fst r)]).
(** PerceptronCommittee.hpp:20-28: train() with [n] members: the committee's samples afterwards, and weights and bias of every member. It answers true whatever the members answer. *)
Definition pcom_train (big : R) (n max_epoch max_up : nat) (late : nat -> nat -> bool) (ws : nat -> vec) (perms : nat -> list nat) (d : data R) : outcome (data R * list (vec * R)) :=
  ofold (pcom_member big max_epoch max_up late ws perms) (seq 0 n) (d, []).
(** PerceptronCommittee.hpp:30-46: evaluate. *)
Definition pcom_evaluate (d : data R) (ms : list (vec * R)) (p : point R) : outcome Z :=
  let* preds := map_outcome (fun m => bp_evaluate (fst m) (snd m) p) ms in
  committee_evaluate (d_classes d) preds.
