(** Property theorems: Proofs about the operators of int points with a double.
    Each is closed by the lemma of the same (lower-case) name in T_IntArith.v. *)
From Coq Require Import ZArith Bool Reals Lia Lra List Psatz.
From Verif Require Import Base Loop M_Data M_Mod T_Mod M_IntStat T_IntStat M_IntArith.
From Verif Require Import T_IntArith.
Import ListNotations.
Local Open Scope Z_scope.

(** C151: with a double that is a whole number, the operators that give a new point and those that change it agree with the integers. *)
Theorem C151_whole : forall (p : list Z) (k : Z), (forall x, In x p -> Z.abs x <= 2 ^ 15) -> Z.abs k <= 2 ^ 15 ->
  iadd_d p (IZR k) = Ok (map (fun x => x + k) p) /\ imul_d p (IZR k) = Ok (map (fun x => x * k) p) /\ isub_d p (IZR k) = Ok (map (fun x => x - k) p) /\ isub_assign p (IZR k) = Ok (map (fun x => x - k) p) /\
  (k <> 0 -> idiv_d p (IZR k) = Ok (map (fun x => Z.quot x k) p) /\ idiv_assign p (IZR k) = Ok (map (fun x => Z.quot x k) p)).
Proof. exact c151_whole. Qed.
Print Assumptions C151_whole.

Example C151_whole_ex : forall x, In x [7; -7] -> Z.abs x <= 2 ^ 15.
Proof. exact c151_whole_ex. Qed.

(** C151: sums, products, and the operators that change the point compute with the double and cut each coordinate towards zero. *)
Theorem C151_cut : forall (p : list Z) (s : R),
  ((forall x, In x p -> Rabs (IZR x + s) < 2 ^ 31)%R -> exists r, iadd_d p s = Ok r /\ Forall2 (fun x y => (Rabs (IZR y - (IZR x + s)) < 1)%R /\ (Rabs (IZR y) <= Rabs (IZR x + s))%R) p r) /\
  ((forall x, In x p -> Rabs (IZR x * s) < 2 ^ 31)%R -> exists r, imul_d p s = Ok r /\ Forall2 (fun x y => (Rabs (IZR y - IZR x * s) < 1)%R /\ (Rabs (IZR y) <= Rabs (IZR x * s))%R) p r) /\
  ((forall x, In x p -> Rabs (IZR x - s) < 2 ^ 31)%R -> exists r, isub_assign p s = Ok r /\ Forall2 (fun x y => (Rabs (IZR y - (IZR x - s)) < 1)%R /\ (Rabs (IZR y) <= Rabs (IZR x - s))%R) p r) /\
  ((s <> 0)%R -> (forall x, In x p -> Rabs (IZR x / s) < 2 ^ 31)%R -> exists r, idiv_assign p s = Ok r /\ Forall2 (fun x y => (Rabs (IZR y - IZR x / s) < 1)%R /\ (Rabs (IZR y) <= Rabs (IZR x / s))%R) p r).
Proof. exact c151_cut. Qed.
Print Assumptions C151_cut.

Example C151_cut_ex : forall x, In x [7; -7] -> (Rabs (IZR x * (1 / 2)) < 2 ^ 31)%R.
Proof. exact c151_cut_ex. Qed.

(** C151: p - s cuts the number instead: for s between 0 and 1 it leaves the point as it is, where p -= s takes 1 off every positive coordinate. *)
Theorem C151_sub_refuted : forall (p : list Z) (s : R), (0 < s < 1)%R -> (forall x, In x p -> 1 <= x <= 2 ^ 31 - 1) -> isub_d p s = Ok p /\ isub_assign p s = Ok (map (fun x => x - 1) p).
Proof. exact c151_sub_refuted. Qed.
Print Assumptions C151_sub_refuted.

Example C151_sub_refuted_ex : (0 < 1 / 2 < 1)%R /\ forall x, In x [3; 4] -> 1 <= x <= 2 ^ 31 - 1.
Proof. exact c151_sub_refuted_ex. Qed.

(** C151: p / s likewise: it is undefined for every s between -1 and 1, where p /= s is not, and changes nothing for s from 1 to 2. *)
Theorem C151_div_refuted : forall (p : list Z) (s : R),
  (p <> [] -> (-1 < s < 1)%R -> idiv_d p s = UB) /\ ((forall x, In x p -> - 2 ^ 31 <= x <= 2 ^ 31 - 1) -> (1 <= s < 2)%R -> idiv_d p s = Ok p).
Proof. exact c151_div_refuted. Qed.
Print Assumptions C151_div_refuted.

Example C151_div_refuted_ex : (-1 < 1 / 2 < 1)%R /\ idiv_assign [3] (1 / 2)%R = Ok [6].
Proof. exact c151_div_refuted_ex. Qed.

(** C151: dividing by exactly 0 is undefined for every point with a coordinate, with / and with /=. *)
Theorem C151_zero_refuted : forall (p : list Z), p <> [] -> idiv_assign p 0 = UB /\ idiv_d p 0 = UB.
Proof. exact c151_zero_refuted. Qed.
Print Assumptions C151_zero_refuted.

Example C151_zero_refuted_ex : [3; -4] <> [] /\ idiv_assign [3; -4] 2%R = Ok [1; -2].
Proof. exact c151_zero_refuted_ex. Qed.

