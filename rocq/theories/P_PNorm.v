(** Property theorems: Proofs about the norms of points.
    Each is closed by the lemma of the same (lower-case) name in T_PNorm.v. *)
From Coq Require Import ZArith Bool Reals Lia Lra List.
From Verif Require Import Base Loop M_Data M_Norm S_Norm S_Ens T_Norm M_Mod T_Mod M_PNorm S_PNorm.
From Verif Require Import T_PNorm.
Import ListNotations.
Local Open Scope R_scope.

(** C149: norm(n) is the n-norm. *)
Theorem C149_norm : forall (tiny : R) (n : nat) (x : list R), (1 <= n)%nat -> exists r, pnorm tiny (Z.of_nat n) x = Fin r /\ is_norm n x r.
Proof. exact c149_norm. Qed.
Print Assumptions C149_norm.

Example C149_norm_ex : is_norm 2 [3; -4] 5 /\ is_norm 1 [3; -4] 7 /\ (1 <= 2)%nat.
Proof. exact c149_norm_ex. Qed.

(** C149: for n at least 1 it is a norm: zero at the zero points only, homogeneous, and the triangle inequality holds. *)
Theorem C149_laws : forall (tiny : R) (n : nat) (c : R) (x y : list R), (1 <= n)%nat -> length x = length y ->
  exists rx ry rs rc, pnorm tiny (Z.of_nat n) x = Fin rx /\ pnorm tiny (Z.of_nat n) y = Fin ry /\ pnorm tiny (Z.of_nat n) (plus x y) = Fin rs /\ pnorm tiny (Z.of_nat n) (map (Rmult c) x) = Fin rc /\
    rs <= rx + ry /\ rc = Rabs c * rx /\ (rx = 0 <-> Forall (fun v => v = 0) x).
Proof. exact c149_laws. Qed.
Print Assumptions C149_laws.

Example C149_laws_ex : length [3; -4] = length [1; 0] /\ plus [3; -4] [1; 0] = [4; -4].
Proof. exact c149_laws_ex. Qed.

(** C149: the norms decrease with n, and are never below an absolute value of a coordinate. *)
Theorem C149_order : forall (tiny : R) (n m : nat) (x : list R), (1 <= n <= m)%nat ->
  exists r s, pnorm tiny (Z.of_nat n) x = Fin r /\ pnorm tiny (Z.of_nat m) x = Fin s /\ s <= r /\ forall v, In v x -> Rabs v <= s.
Proof. exact c149_order. Qed.
Print Assumptions C149_order.

Example C149_order_ex : (1 <= 1 <= 2)%nat /\ is_norm 1 [3; -4] 7 /\ is_norm 2 [3; -4] 5.
Proof. exact c149_order_ex. Qed.

(** C149: NORM_LINF (0) is the largest absolute value when some coordinate is at least the smallest normal double. *)
Theorem C149_max : forall (tiny : R) (x : list R), (exists v, In v x /\ tiny <= Rabs v) ->
  exists r, pnorm tiny 0 x = Fin r /\ (exists v, In v x /\ r = Rabs v) /\ forall v, In v x -> Rabs v <= r.
Proof. exact c149_max. Qed.
Print Assumptions C149_max.

Example C149_max_ex : exists v, In v [0; -2] /\ 1 / 1000 <= Rabs v.
Proof. exact c149_max_ex. Qed.

(** C149: otherwise it is that number: the zero point, and the point without coordinates, have a positive norm. *)
Theorem C149_max_refuted : forall (tiny : R) (x : list R), 0 < tiny -> (forall v, In v x -> Rabs v <= tiny) ->
  pnorm tiny 0 x = Fin tiny /\ (Forall (fun v => v = 0) x -> exists r, pnorm tiny 0 x = Fin r /\ 0 < r).
Proof. exact c149_max_refuted. Qed.
Print Assumptions C149_max_refuted.

Example C149_max_refuted_ex : forall v, In v [0; 0] -> Rabs v <= 1 / 1000.
Proof. exact c149_max_refuted_ex. Qed.

(** C149: with a negative order every point with a zero coordinate has norm 0, and the point without coordinates an infinite one. *)
Theorem C149_negative_refuted : forall (tiny : R) (p : Z) (x : list R), (p < 0)%Z -> In 0 x -> pnorm tiny p x = Fin 0 /\ pnorm tiny p [] = Inf.
Proof. exact c149_negative_refuted. Qed.
Print Assumptions C149_negative_refuted.

Example C149_negative_refuted_ex : (-1 < 0)%Z /\ In 0 [7; 0].
Proof. exact c149_negative_refuted_ex. Qed.

(** C149: normalize(x, q) scales every point other than zero to q-norm 1; given a vector it also writes the result there. *)
Theorem C149_normalize : forall (q : R) (x : list R), 0 < q -> (exists v, In v x /\ v <> 0) ->
  exists c, 0 < c /\ pnormalize_q q x = map Some (map (Rmult c) x) /\ vnormalize_q q x = (map Some (map (Rmult c) x), map Some (map (Rmult c) x)) /\ normp q (map (Rmult c) x) = 1.
Proof. exact c149_normalize. Qed.
Print Assumptions C149_normalize.

Example C149_normalize_ex : exists v, In v [0; 3] /\ v <> 0.
Proof. exact c149_normalize_ex. Qed.

(** C149: the zero point becomes a point whose coordinates are not numbers. *)
Theorem C149_zero_refuted : forall (q : R) (x : list R), 0 < q -> Forall (fun v => v = 0) x -> pnormalize_q q x = map (fun _ => None) x.
Proof. exact c149_zero_refuted. Qed.
Print Assumptions C149_zero_refuted.

Example C149_zero_refuted_ex : Forall (fun v => v = 0) [0; 0] /\ 0 < 2.
Proof. exact c149_zero_refuted_ex. Qed.

(** C149: an int point never gets norm 1 unless it had a single coordinate other than 0: with two or more it becomes the zero point, with one its sign is kept, and for the zero point it is undefined. *)
Theorem C149_int_refuted : forall (q : nat) (x : list Z), (1 <= q)%nat -> (zpower_sum q x <= 2 ^ 31 - 1)%Z ->
  ((2 <= nonzeros x)%nat -> inormalize q x = Ok (map (fun _ => 0%Z) x)) /\ (nonzeros x = 1%nat -> inormalize q x = Ok (map Z.sgn x)) /\ (nonzeros x = 0%nat -> x <> [] -> inormalize q x = UB).
Proof. exact c149_int_refuted. Qed.
Print Assumptions C149_int_refuted.

Example C149_int_refuted_ex : nonzeros [3; -4]%Z = 2%nat /\ nonzeros [0; -4]%Z = 1%nat /\ (zpower_sum 2 [3; -4]%Z <= 2 ^ 31 - 1)%Z.
Proof. exact c149_int_refuted_ex. Qed.

