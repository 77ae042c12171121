(** Property theorems: Property lemmas for the safety of automatic weighting: C142.
    Each is closed by the lemma of the same (lower-case) name in T_AwvSafe.v. *)
From Coq Require Import ZArith Bool List Reals Lra Lia Permutation.
From Verif Require Import Base ListLib L_Vec M_Data S_Data M_Point Loop L_Valid M_Valid T_Valid M_Knn L_Knn M_Ens S_Ens T_Ens M_Dsm T_Dsm M_Awv S_Awv T_Awv.
From Verif Require Import T_AwvSafe.
Import ListNotations.
Local Open Scope R_scope.

(** C142: training the automatic weighting never fails and never leaves defined behaviour once the samples are split, if the members answer classes of the training part; every vector of the population has one weight per member, and in the projected mode its weights are numbers, none negative. *)
Theorem C142_safe : forall (T : Type) gen dev seed m fit ri rr fuel np max_it (simplex : bool) (d tr te : data T),
  (forall t b, (ri t b <= b)%nat) -> (if simplex then 2 <= m else 1 <= m)%nat -> (0 < np)%nat -> split gen dev seed d = Ok (tr, te) ->
  (forall p, In p (d_points te) -> forall i, (i < m)%nat -> In (fit i tr p) (d_classes tr)) ->
  awv_train gen dev seed m fit ri rr fuel np max_it simplex d = Ok None \/
  exists s, awv_train gen dev seed m fit ri rr fuel np max_it simplex d = Ok (Some (tr, te, s)) /\ length (a_pop s) = np /\
    forall v, In v (a_pop s) -> length v = m /\ (simplex = true -> exists w, v = map Some w /\ Forall (fun x => 0 <= x) w).
Proof. exact c142_safe. Qed.
Print Assumptions C142_safe.

(** C142: with one member the projected mode stops on a failed assertion; so does either mode without members. *)
Theorem C142_one_refuted : forall (T : Type) gen dev seed m fit ri rr fuel np max_it (simplex : bool) (d tr te : data T),
  (0 < np)%nat -> split gen dev seed d = Ok (tr, te) -> (simplex = true /\ m < 2 \/ m = 0 /\ d_points te <> [])%nat -> awv_train gen dev seed m fit ri rr fuel np max_it simplex d = Abort.
Proof. exact c142_one_refuted. Qed.
Print Assumptions C142_one_refuted.

(** C142: the hypotheses hold of the split of C107, with two members. *)
Example C142_safe_ex : (forall t b, (rix t b <= b)%nat) /\ split genx 0 1 d10 = Ok (fst partsx, snd partsx) /\ (forall p, In p (d_points (snd partsx)) -> forall i, (i < 2)%nat -> In (fitx i (fst partsx) p) (d_classes (fst partsx))) /\ d_points (snd partsx) <> [].
Proof. exact c142_safe_ex. Qed.

