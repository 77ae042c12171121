(** Property theorems: Property lemmas for normalize: C15, C86.
    Each is closed by the lemma of the same (lower-case) name in T_Norm.v. *)
From Coq Require Import ZArith Bool String Sorted List Reals Lia Lra.
From Verif Require Import Base ListLib M_Data S_Data Loop L_Vec S_Ens T_Ens M_Norm S_Norm T_Data.
From Verif Require Import T_Norm.
Import ListNotations.
Local Open Scope nat_scope.

(** C15. *)
Theorem C15_normalize : forall p (d : data R), (0 < p)%R -> data_ok d -> exists d', normalize p d = Ok (Some d') /\ Forall2 (normalised p) (d_points d) (d_points d') /\ d_dim d' = S (d_dim d) /\ d_size d' = d_size d /\
  (exists f, d_fnames d' = d_fnames d ++ [f]) /\ d_classes d' = d_classes d /\ d_dist d' = d_dist d /\ d_cnames d' = d_cnames d /\ d_index d' = d_index d /\ d_normalized d' = true.
Proof. exact c15_normalize. Qed.
Print Assumptions C15_normalize.

(** C15 for p = 2 (the default): the squares of the coordinates of every point sum to one; for p = 1 the absolute values. *)
Theorem C15_euclid : forall (d : data R), data_ok d -> exists d', normalize 2 d = Ok (Some d') /\ forall q, In q (d_points d') -> sum (map (fun v => v * v)%R (p_x q)) = 1%R.
Proof. exact c15_euclid. Qed.
Print Assumptions C15_euclid.

Theorem C15_taxicab : forall (d : data R), data_ok d -> exists d', normalize 1 d = Ok (Some d') /\ forall q, In q (d_points d') -> sum (map Rabs (p_x q)) = 1%R.
Proof. exact c15_taxicab. Qed.
Print Assumptions C15_taxicab.

Example C15_normalize_ex : (0 < 3)%R /\ data_ok (nx [1; 2]%Z).
Proof. exact c15_normalize_ex. Qed.

Example C15_euclid_ex : data_ok (nx [1; 2]%Z).
Proof. exact c15_euclid_ex. Qed.

Theorem C86_well_formed : forall p (d : data R), (0 < p)%R -> data_ok d -> d_points d <> [] -> (forall f, In f (d_fnames d) -> (f <= Z.of_nat (d_dim d))%Z) -> exists d', normalize p d = Ok (Some d') /\ data_ok d'.
Proof. exact c86_well_formed. Qed.
Print Assumptions C86_well_formed.

Example C86_well_formed_ex : (0 < 2)%R /\ data_ok (nx [1; 2]%Z) /\ d_points (nx [1; 2]%Z) <> [] /\ (forall f, In f (d_fnames (nx [1; 2]%Z)) -> (f <= Z.of_nat (d_dim (nx [1; 2]%Z)))%Z).
Proof. exact c86_well_formed_ex. Qed.

(** C86 fails after features were removed: the new feature gets the name of one that exists. *)
Theorem C86_removed_refuted : forall p (d : data R), (0 < p)%R -> data_ok d -> d_points d <> [] -> In (Z.of_nat (S (d_dim d))) (d_fnames d) -> exists d', normalize p d = Ok (Some d') /\ ~ NoDup (d_fnames d').
Proof. exact c86_removed_refuted. Qed.
Print Assumptions C86_removed_refuted.

Example C86_removed_refuted_ex : (0 < 2)%R /\ data_ok (nx [2; 3]%Z) /\ d_points (nx [2; 3]%Z) <> [] /\ In (Z.of_nat (S (d_dim (nx [2; 3]%Z)))) (d_fnames (nx [2; 3]%Z)).
Proof. exact c86_removed_refuted_ex. Qed.

(** ... and for an empty dataset: the new feature is named 0. *)
Theorem C86_empty_refuted : forall p (d : data R), (0 < p)%R -> data_ok d -> d_points d = [] -> exists d', normalize p d = Ok (Some d') /\ d_points d' = [] /\ d_dim d' = 1 /\ d_fnames d' = [0%Z].
Proof. exact c86_empty_refuted. Qed.
Print Assumptions C86_empty_refuted.

