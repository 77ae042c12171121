(** Property theorems: Property lemmas for the random numbers: C61.
    Each is closed by the lemma of the same (lower-case) name in T_Random.v. *)
From Coq Require Import ZArith List Lia.
From Verif Require Import Base M_Random S_Random.
From Verif Require Import T_Random.
Import ListNotations.
Local Open Scope Z_scope.

(** C61, for a seed that is neither 0 nor the one already in force: whatever was done before in two runs, the values drawn after init(seed) are the same. *)
Theorem C61_reproducible : forall (G : Type) (seedg : Z -> G) next uniform dev1 dev2 cs1 cs2 s1 s2 vs1 vs2 d1 d2 seed rs,
  r_run seedg next uniform (r_start seedg dev1) cs1 = Ok (s1, vs1) -> r_run seedg next uniform (r_start seedg dev2) cs2 = Ok (s2, vs2) ->
  seed <> 0 -> last_seed 1 cs1 <> seed -> last_seed 1 cs2 <> seed -> (forall lo hi, In (lo, hi) rs -> lo <= hi) -> in_bounds uniform ->
  exists t1 t2 vs, r_run seedg next uniform s1 (RInit d1 seed :: ranges rs) = Ok (t1, seed :: vs) /\ r_run seedg next uniform s2 (RInit d2 seed :: ranges rs) = Ok (t2, seed :: vs) /\
    Forall2 (fun r v => fst r <= v <= snd r) rs vs /\ r_getSeed t1 = seed.
Proof. exact c61_reproducible. Qed.
Print Assumptions C61_reproducible.

Example C61_reproducible_ex : exists s1 s2 vs1 vs2, r_run (fun s : Z => s) Z.succ count_uniform (r_start (fun s => s) 77) [RInt 0 9; RInit 5 3; RInt 0 9] = Ok (s1, vs1) /\ r_run (fun s : Z => s) Z.succ count_uniform (r_start (fun s => s) 8) [] = Ok (s2, vs2) /\
  4 <> 0 /\ last_seed 1 [RInt 0 9; RInit 5 3; RInt 0 9] <> 4 /\ last_seed 1 [] <> 4 /\ (forall lo hi, In (lo, hi) [(0, 9); (-5, 5)] -> lo <= hi) /\ in_bounds count_uniform.
Proof. exact c61_reproducible_ex. Qed.

(** C61, for init(0), not called twice running: the seed taken from the device is returned, reported by getSeed, and calling init with it in another run gives the same values. *)
Theorem C61_device : forall (G : Type) (seedg : Z -> G) next uniform dev1 dev2 cs1 cs2 s1 s2 vs1 vs2 d1 d2 rs,
  r_run seedg next uniform (r_start seedg dev1) cs1 = Ok (s1, vs1) -> r_run seedg next uniform (r_start seedg dev2) cs2 = Ok (s2, vs2) ->
  last_seed 1 cs1 <> 0 -> d1 <> 0 -> last_seed 1 cs2 <> d1 -> (forall lo hi, In (lo, hi) rs -> lo <= hi) -> in_bounds uniform ->
  exists t1 t2 vs, r_run seedg next uniform s1 (RInit d1 0 :: ranges rs) = Ok (t1, d1 :: vs) /\ r_getSeed t1 = d1 /\ r_run seedg next uniform s2 (RInit d2 d1 :: ranges rs) = Ok (t2, d1 :: vs).
Proof. exact c61_device. Qed.
Print Assumptions C61_device.

Example C61_device_ex : exists s1 s2 vs1 vs2, r_run (fun s : Z => s) Z.succ count_uniform (r_start (fun s => s) 77) [RInt 0 9; RInit 5 3; RInt 0 9] = Ok (s1, vs1) /\ r_run (fun s : Z => s) Z.succ count_uniform (r_start (fun s => s) 8) [] = Ok (s2, vs2) /\
  last_seed 1 [RInt 0 9; RInit 5 3; RInt 0 9] <> 0 /\ last_seed 1 [] <> 1234.
Proof. exact c61_device_ex. Qed.

(** C61 fails for the seed already in force (1 at the start): init leaves the generator as it is. *)
Theorem C61_in_force_refuted : forall (G : Type) (seedg : Z -> G) next uniform dev cs s vs d seed, r_run seedg next uniform (r_start seedg dev) cs = Ok (s, vs) -> last_seed 1 cs = seed ->
  r_run seedg next uniform s [RInit d seed] = Ok (s, [r_getSeed s]).
Proof. exact c61_in_force_refuted. Qed.
Print Assumptions C61_in_force_refuted.

Example C61_in_force_refuted_ex : exists s vs, r_run (fun s : Z => s) Z.succ count_uniform (r_start (fun s => s) 77) [RInit 0 7; RInt 0 9] = Ok (s, vs) /\ last_seed 1 [RInit 0 7; RInt 0 9] = 7.
Proof. exact c61_in_force_refuted_ex. Qed.

(** Two programs that begin with init(1) and draw the same ranges can see different values; and init(7) a second time does not restart the sequence. *)
Theorem C61_first_refuted : exists (uniform : Z -> Z -> Z -> Z * Z) dev1 dev2 s1 s2 v1 v2, in_bounds uniform /\ v1 <> v2 /\
  r_run (fun s : Z => s) Z.succ uniform (r_start (fun s => s) dev1) [RInit 0 1; RInt 0 9] = Ok (s1, [1; v1]) /\ r_run (fun s : Z => s) Z.succ uniform (r_start (fun s => s) dev2) [RInit 0 1; RInt 0 9] = Ok (s2, [1; v2]).
Proof. exact c61_first_refuted. Qed.
Print Assumptions C61_first_refuted.

Theorem C61_again_refuted : exists (uniform : Z -> Z -> Z -> Z * Z) dev s v1 v2, in_bounds uniform /\ v1 <> v2 /\
  r_run (fun s : Z => s) Z.succ uniform (r_start (fun s => s) dev) [RInit 0 7; RInt 0 9; RInit 0 7; RInt 0 9] = Ok (s, [7; v1; 7; v2]).
Proof. exact c61_again_refuted. Qed.
Print Assumptions C61_again_refuted.

