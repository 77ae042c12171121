(** Property theorems: Proofs about the remainder of a point and a number.
    Each is closed by the lemma of the same (lower-case) name in T_Mod.v. *)
From Coq Require Import ZArith Bool Reals Lia Lra List.
From Verif Require Import Base Loop M_Data M_Mod.
From Verif Require Import T_Mod.
Import ListNotations.
Local Open Scope Z_scope.

(** C148: an int point and an int other than 0: the remainders have the sign of the coordinates. *)
Theorem C148_int : forall (p : list Z) (m : Z), m <> 0 -> (m = -1 -> ~ In (- 2 ^ 31) p) ->
  exists r, pmod_ii p m = Ok r /\ Forall2 (fun x y => (exists k, x = k * m + y) /\ Z.abs y < Z.abs m /\ (0 <= x -> 0 <= y) /\ (x <= 0 -> y <= 0)) p r.
Proof. exact c148_int. Qed.
Print Assumptions C148_int.

Example C148_int_ex : pmod_ii [7; -7; 6] 3 = Ok [1; -1; 0] /\ 3 <> 0.
Proof. exact c148_int_ex. Qed.

(** C148: so they are not all in [0, m) as soon as a coordinate is negative and not a multiple; and a divisor 0, or -1 with the least int, is undefined behaviour. *)
Theorem C148_int_refuted : forall (p : list Z) (m : Z),
  (forall r, pmod_ii p m = Ok r -> (exists x, In x p /\ x < 0 /\ ~ (m | x)) -> exists y, In y r /\ y < 0) /\
  (p <> [] -> pmod_ii p 0 = UB) /\ (In (- 2 ^ 31) p -> pmod_ii p (-1) = UB).
Proof. exact c148_int_refuted. Qed.
Print Assumptions C148_int_refuted.

Example C148_int_refuted_ex : pmod_ii [5; -7] 3 = Ok [2; -1].
Proof. exact c148_int_refuted_ex. Qed.

(** C148: a double point and an int: the remainders of fmod, not numbers for 0. *)
Theorem C148_double : forall (p : list R) (m : Z), m <> 0 ->
  Forall2 (fun x o => exists r, o = Some r /\ (exists k, x = IZR k * IZR m + r)%R /\ (Rabs r < Rabs (IZR m))%R /\ ((0 <= x)%R -> (0 <= r)%R) /\ ((x <= 0)%R -> (r <= 0)%R)) p (pmod_di p m) /\
  Forall (fun o => o = None) (pmod_di p 0).
Proof. exact c148_double. Qed.
Print Assumptions C148_double.

Example C148_double_ex : (2 <> 0) /\ pmod_di [7; - 7 / 2]%R 2 = [Some 1; Some (- 3 / 2)]%R.
Proof. exact c148_double_ex. Qed.

(** C148: an int point and a double: the remainder is cut to an int, so that it need not be one: for a modulus whose remainder is not an integer the result is off by less than 1. *)
Theorem C148_cut : forall (p : list Z) (m : R), (m <> 0)%R ->
  exists r, pmod_id p m = Ok r /\ Forall2 (fun x y => exists v k, (IZR x = IZR k * m + v)%R /\ (Rabs v < Rabs m)%R /\ (Rabs (v - IZR y) < 1)%R /\ (Rabs (IZR y) <= Rabs v)%R) p r.
Proof. exact c148_cut. Qed.
Print Assumptions C148_cut.

Example C148_cut_ex : (5 / 2 <> 0)%R /\ pmod_id [7] (5 / 2)%R = Ok [2].
Proof. exact c148_cut_ex. Qed.

(** C148: so the int remainder of 2 by 3/2 is 0 although 2 is not a multiple of 3/2; and 0 as modulus is undefined behaviour, as a value that is not a number is converted. *)
Theorem C148_cut_refuted : pmod_id [2] (3 / 2)%R = Ok [0] /\ (forall k, (IZR 2 <> IZR k * (3 / 2) + IZR 0)%R) /\ forall p, p <> [] -> pmod_id p 0%R = UB.
Proof. exact c148_cut_refuted. Qed.
Print Assumptions C148_cut_refuted.

