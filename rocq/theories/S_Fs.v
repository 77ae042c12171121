(** Specification of feature selection. *)
From Coq Require Import ZArith Bool List Reals Permutation Sorted.
From Verif Require Import M_Data S_Data L_Vec S_Stat.
Import ListNotations.
Local Open Scope R_scope.

(** [d'] is [d] with only the features whose name satisfies [keep], in the same order: same points, ids, labels, classes and counts. *)
Definition restricted (keep : Z -> bool) (d d' : data R) : Prop :=
  d_fnames d' = filter keep (d_fnames d) /\
  d_points d' = map (fun p => mkPoint (keep_features keep (d_fnames d) (p_x p)) (p_y p) (p_id p) (p_alpha p)) (d_points d) /\
  d_classes d' = d_classes d /\ d_dist d' = d_dist d /\ d_cnames d' = d_cnames d.
(** [d'] keeps [k] features of [d], and no feature left out has a higher score than one kept. *)
Definition best (score : nat -> R) (k : nat) (d d' : data R) : Prop :=
  exists keep, restricted keep d d' /\ length (d_fnames d') = k /\
    forall i j, (i < length (d_fnames d))%nat -> (j < length (d_fnames d))%nat ->
      keep (nth i (d_fnames d) 0%Z) = true -> keep (nth j (d_fnames d) 0%Z) = false -> score j <= score i.

(** Sample standard deviation of feature [j] over the points whose label satisfies [lab]. *)
Definition label_sd (d : data R) (lab : Z -> bool) (j : nat) : R :=
  sqrt (sumn (length (members d lab)) (fun i => Rsqr (nz (nth i (map p_x (members d lab)) []) j - label_mean d lab j)) / (INR (length (members d lab)) - 1)).
Definition neg (y : Z) : bool := Z.eqb y (-1).
Definition pos (y : Z) : bool := negb (neg y).
(** The two scores of feature [j]. *)
Definition golub (d : data R) (j : nat) : R := Rabs (label_mean d pos j - label_mean d neg j) / (label_sd d pos j + label_sd d neg j).
Definition fisher (d : data R) (j : nat) : R := Rsqr (label_mean d pos j - label_mean d neg j) / (label_sd d pos j + label_sd d neg j).
(** The scores are finite numbers: two points of each kind, and no feature is constant on both. *)
Definition scorable (d : data R) : Prop :=
  (2 <= length (members d pos))%nat /\ (2 <= length (members d neg))%nat /\
  forall j, (j < length (d_fnames d))%nat -> label_sd d pos j + label_sd d neg j <> 0.
(** What std::sort does with this comparison. *)
Definition sorts_by (key : R -> R) (srt : list (Z * R) -> list (Z * R)) : Prop :=
  forall l, Permutation (srt l) l /\ StronglySorted (fun a b => key (snd a) <= key (snd b)) (srt l).

(** Recursive elimination from [e], [level] features having been removed: train, drop the [jump] features of least absolute weight
    (fewer at the end, so as not to drop more than [depth]), and so on; the last training is on the result. *)
Inductive elim (train : nat -> data R -> option (list R)) (depth jump : nat) : nat -> nat -> data R -> data R -> Prop :=
| elim_end n e w : train n e = Some w -> elim train depth jump n depth e e
| elim_step n level e w e' r : (level < depth)%nat -> train n e = Some w ->
    best (fun i => Rabs (nz w i)) (length (d_fnames e) - Nat.min jump (depth - level)) e e' ->
    elim train depth jump (S n) (level + Nat.min jump (depth - level)) e' r -> elim train depth jump n level e r.
