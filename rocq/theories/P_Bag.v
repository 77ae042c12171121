(** Property theorems: Property lemmas for bagging: C108.
    Each is closed by the lemma of the same (lower-case) name in T_Bag.v. *)
From Coq Require Import ZArith Bool List Permutation Reals Lia.
From Verif Require Import Base ListLib M_Data S_Data L_Data L_Insert L_Split L_Valid Loop M_Heap L_Heap M_Sampling S_Sampling T_Data T_Heap T_Sampling M_Ens S_Ens T_Ens M_Bag.
From Verif Require Import T_Bag.
Import ListNotations.
Local Open Scope nat_scope.

(** C108: training gives every member its own sample of n/k points, drawn by the generator seeded by the seed plus its number; the samples of the ensemble are unchanged and no two
    members share points with one another or with any dataset that existed before. *)
Theorem C108_train : forall (T : Type) (gen : nat -> nat -> nat -> nat) (devs : nat -> nat) seed k (hp : heap T) (src : hdata T) (d : data T) s, s = (if Nat.eqb seed 0 then devs 0 else seed) -> s <> 0 ->
  (forall s, in_range (gen s)) -> view hp src = Ok d -> data_ok d -> (forall c, In c (d_classes d) -> In c (labels (d_points d))) -> 1 <= k <= length (d_points d) ->
  exists hp' ms, bag_train gen devs seed k hp src = Ok (Some (s, hp', ms)) /\ length ms = k /\ view hp' src = Ok d /\
    (forall i, i < k -> exists h v, nth_error ms i = Some (s + i, h) /\ view hp' h = Ok v /\ data_ok v /\ sample_of (gen (s + i)) d (length (d_points d) / k) (map content (d_points v)) /\
       NoDup (h_refs h) /\ apart src h /\ (forall j h', nth_error (map snd ms) j = Some h' -> j <> i -> apart h h')).
Proof. exact c108_train. Qed.
Print Assumptions C108_train.

(** C108: the samples all come from the same n/k points, or one more per class: the rest of the data reaches no member, whatever the seed. *)
Theorem C108_reach_refuted : forall (T : Type) (d : data T) k, data_ok d -> (forall c, In c (d_classes d) -> In c (labels (d_points d))) -> 1 <= k <= length (d_points d) ->
  exists reached, length reached <= length (d_points d) / k + length (d_classes d) /\ incl reached (map content (d_points d)) /\
    forall (gen : nat -> nat -> nat -> nat) (devs : nat -> nat) seed (hp : heap T) (src : hdata T) s hp' ms m h v, s <> 0 -> (forall s, in_range (gen s)) -> view hp src = Ok d ->
      bag_train gen devs seed k hp src = Ok (Some (s, hp', ms)) -> In (m, h) ms -> view hp' h = Ok v -> incl (map content (d_points v)) reached.
Proof. exact c108_reach_refuted. Qed.
Print Assumptions C108_reach_refuted.

(** C108: ensembles of consecutive seeds share all samples but one. *)
Theorem C108_seeds_refuted : forall (T : Type) (gen : nat -> nat -> nat -> nat) (devs devs' : nat -> nat) seed k (hp hp' : heap T) (src src' : hdata T) (d : data T), seed <> 0 ->
  (forall s, in_range (gen s)) -> view hp src = Ok d -> view hp' src' = Ok d -> data_ok d -> (forall c, In c (d_classes d) -> In c (labels (d_points d))) -> 1 <= k <= length (d_points d) ->
  exists h1 ms h2 ms', bag_train gen devs seed k hp src = Ok (Some (seed, h1, ms)) /\ bag_train gen devs' (S seed) k hp' src' = Ok (Some (S seed, h2, ms')) /\
    forall i, S i < k -> exists a b u v, nth_error ms (S i) = Some a /\ nth_error ms' i = Some b /\ fst a = fst b /\ view h1 (snd a) = Ok u /\ view h2 (snd b) = Ok v /\ map content (d_points u) = map content (d_points v).
Proof. exact c108_seeds_refuted. Qed.
Print Assumptions C108_seeds_refuted.

(** C108: with no members, or with more members than points, training is undefined. *)
Theorem C108_sizes_refuted : forall (T : Type) (gen : nat -> nat -> nat -> nat) (devs : nat -> nat) seed k (hp : heap T) (src : hdata T) (d : data T), view hp src = Ok d -> data_ok d -> d_points d <> [] ->
  k = 0 \/ length (d_points d) < k -> bag_train gen devs seed k hp src = UB.
Proof. exact c108_sizes_refuted. Qed.
Print Assumptions C108_sizes_refuted.

(** C108: evaluation answers the first of the labels most members answer, if every member answers a label of its sample. *)
Theorem C108_evaluate : forall (T : Type) (gen : nat -> nat -> nat -> nat) (devs : nat -> nat) seed k (hp hp' : heap T) (src : hdata T) (d : data T) s ms (fit : nat -> data T -> point T -> Z) p, s <> 0 ->
  (forall s, in_range (gen s)) -> view hp src = Ok d -> data_ok d -> (forall c, In c (d_classes d) -> In c (labels (d_points d))) -> 1 <= k <= length (d_points d) ->
  bag_train gen devs seed k hp src = Ok (Some (s, hp', ms)) -> (forall n v, d_points v <> [] -> In (fit n v p) (labels (d_points v))) ->
  exists preds c, Forall2 (fun m y => exists v, view hp' (snd m) = Ok v /\ y = fit (fst m) v p) ms preds /\ bag_evaluate fit hp' src ms p = Ok c /\ first_largest (d_classes d) (fun x => INR (ballots preds x)) c.
Proof. exact c108_evaluate. Qed.
Print Assumptions C108_evaluate.

(** The hypotheses are met: three points of two classes, two members. *)
Example C108_train_ex : 7 = (if Nat.eqb 7 0 then 0 else 7) /\ (forall s : nat, in_range ((fun _ => all_zero) s)) /\ view hp3 h3 = Ok ex3 /\ data_ok ex3 /\ (forall c, In c (d_classes ex3) -> In c (labels (d_points ex3))) /\ 1 <= 2 <= length (d_points ex3).
Proof. exact c108_train_ex. Qed.

Example C108_sizes_refuted_ex : view hp3 h3 = Ok ex3 /\ data_ok ex3 /\ d_points ex3 <> [] /\ length (d_points ex3) < 4.
Proof. exact c108_sizes_refuted_ex. Qed.

Example C108_evaluate_ex : exists hp' ms, bag_train (fun _ => all_zero) (fun _ => 0) 7 2 hp3 h3 = Ok (Some (7, hp', ms)) /\ length ms = 2 /\ forall n (v : data Z), d_points v <> [] -> In ((fun (_ : nat) (w : data Z) => hd 0%Z (labels (d_points w))) n v) (labels (d_points v)).
Proof. exact c108_evaluate_ex. Qed.

