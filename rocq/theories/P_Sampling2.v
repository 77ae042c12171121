(** Property theorems: Property lemmas for the draws of Data::sampling without replacement: C16.
    Each is closed by the lemma of the same (lower-case) name in T_Sampling2.v. *)
From Coq Require Import ZArith Bool List Permutation Lia.
From Verif Require Import Base ListLib M_Data S_Data L_Data L_Insert L_Split L_Valid Loop M_Heap L_Heap M_Sampling S_Sampling T_Data T_Heap T_Sampling.
From Verif Require Import T_Sampling2.
Import ListNotations.
Local Open Scope nat_scope.

(** C16: without replacement on one class, when the random stream gives every number again and again, the call returns,
    and the sample holds the points at the numbers of the stream in order, each taken when it first comes. *)
Theorem C16_fresh : forall (T : Type) rnd fuel (hp : heap T) src d m c, in_range rnd -> fair rnd (m - 1) fuel -> view hp src = Ok d -> data_ok d -> d_classes d = [c] -> 0 < m <= length (d_points d) ->
  exists hp' h v is, sampling rnd fuel hp src m false = Ok (Some (hp', h)) /\ view hp' h = Ok v /\ length is = m /\ fresh rnd (m - 1) [] 0 is /\
    map Some (map content (d_points v)) = map (nth_error (map content (d_points d))) is.
Proof. exact c16_fresh. Qed.
Print Assumptions C16_fresh.

Example C16_fresh_ex : in_range alternating /\ fair alternating (2 - 1) 2 /\ view (d_points two1) (mkH [0; 1] (strip two1)) = Ok two1 /\ data_ok two1 /\ d_classes two1 = [5%Z] /\ 0 < 2 <= length (d_points two1).
Proof. exact c16_fresh_ex. Qed.

