(** Property theorems: C127: the look-ahead of the admissible ordered search.
    Each is closed by the lemma of the same (lower-case) name in T_Look.v. *)
From Coq Require Import ZArith Bool List Reals Permutation Sorted Lia Lra.
From Verif Require Import Base ListLib Loop M_Data S_Data L_Data L_Data2 L_Feat L_Join M_Point L_Vec M_Kmeans S_Fs T_Fs M_Pq S_Pq L_Pq T_Pq T_Prune T_Vis M_Aos S_Aos L_Aos L_Aos2 M_Look S_Look L_Look T_Aos.
From Verif Require Import T_Look.
Import ListNotations.
Local Open Scope nat_scope.

(** C127: the look-ahead from all features, with trainings that succeed: how many features it takes, which ones, and what it leaves in the queue. Every training is on the sample with all its
    features, so that the margin of each node is not one of the features left to it; from the second turn on a weight is taken for that of the feature at its place among those left. *)
Theorem C127_root : forall (d : data R) (c : aos_cfg) (lad : nat) (primal : bool) (tr : nat -> data R -> bool * (list R * R)) (w sol : list R) (n dn : nat), data_ok d -> d_points d <> [] ->
  2 <= length (d_fnames d) -> a_depth c = Z.of_nat dn -> length w = length (d_fnames d) -> (forall m, fst (tr m d) = true /\ length (fst (snd (tr m d))) = length (d_fnames d)) ->
  1 <= a_len c -> look_turns lad (length (d_fnames d)) dn <= a_width c -> look_turns lad (length (d_fnames d)) dn <= a_cap c ->
  exists fs st tab q sol' log, look_ahead c lad primal tr d [] w 0 ([], vis_new (a_len c) (a_width c), pq_new (a_cap c), [], n, sol, []) =
      Ok (0%R, (st, tab, q, map (fun j => fst (snd (tr (n + j) d))) (seq 0 (length fs)), n + length fs, sol', log)) /\
    length fs = look_turns lad (length (d_fnames d)) dn /\ NoDup fs /\ incl fs (d_fnames d) /\
    (forall j, j < length fs -> exists i, nth j fs 0%Z = nth i (filter (without (firstn j fs)) (d_fnames d)) 0%Z /\ least_first (weights_at primal tr n d w j) (length (d_fnames d) - j) i) /\
    length st = length fs /\
    (forall j, j < length fs -> exists nd, nth_error st j = Some (Some nd) /\ look_node (firstn (S j) fs) (snd (snd (tr (n + j) d))) nd) /\
    (exists ps, holds q ps /\ Permutation ps (seq 0 (length fs))) /\
    log = map (fun j => (d, handed primal tr n d w fs (S j))) (seq 0 (length fs)).
Proof. exact c127_root. Qed.
Print Assumptions C127_root.

(** C127: without look-ahead the search is the one of C114 to C116. *)
Theorem C127_off : forall (fuel : nat) (c : aos_cfg) (primal : bool) srt tr (d : data R) (sol : list R), look_select fuel c 0 primal srt tr d sol = aos_select fuel c srt tr d.
Proof. exact c127_off. Qed.
Print Assumptions C127_off.

(** C127: with look-ahead the margin given for the pruning has no effect at all: any two are as good. *)
Theorem C127_margin_refuted : forall (fuel : nat) (c : aos_cfg) (g : R) (lad : nat) (primal : bool) srt tr (d : data R) (sol : list R), 0 < lad ->
  look_select fuel (with_gm c g) lad primal srt tr d sol = look_select fuel c lad primal srt tr d sol.
Proof. exact c127_margin_refuted. Qed.
Print Assumptions C127_margin_refuted.

(** C127: any look-ahead, whatever is in the queue and the table: it answers 0, trains at most as often as its depth says, and only on the sample it was given, with all the features of it; the nodes it
    adds lie below the one it starts from, and one that counts as trained has the margin of such a training. *)
Theorem C127_trained_refuted : forall (c : aos_cfg) (lad : nat) (primal : bool) tr (d : data R) (ofn : list Z) (w : list R) (level : nat) st tab q ws (n : nat) sol log a s', NoDup (d_fnames d) ->
  look_ahead c lad primal tr d ofn w level (st, tab, q, ws, n, sol, log) = Ok (a, s') ->
  a = 0%R /\ exists st' tab' q' ws' n' sol' new, s' = (st', tab', q', ws', n', sol', log ++ new) /\ length new <= lad /\ n' = n + length new /\ (forall x, In x new -> fst x = d) /\
    forall p nd, length st <= p -> nth_error st' p = Some (Some nd) -> level < n_level nd <= level + lad /\
      (n_rgamma nd = (-1)%R \/ exists m, n <= m < n' /\ fst (tr m d) = true /\ n_rgamma nd = snd (snd (tr m d))).
Proof. exact c127_trained_refuted. Qed.
Print Assumptions C127_trained_refuted.

(** C127: a primal classifier is handed the weights of earlier turns as well: from the second training on more than the node has features. *)
Theorem C127_start_refuted : forall (c : aos_cfg) (lad : nat) tr (d : data R) (ofn : list Z) (w : list R) (level : nat) st tab q ws (n : nat) sol log a st' tab' q' ws' n' sol' new j x, NoDup (d_fnames d) ->
  look_ahead c lad true tr d ofn w level (st, tab, q, ws, n, sol, log) = Ok (a, (st', tab', q', ws', n', sol', log ++ new)) -> 3 <= dim d -> 1 <= j -> nth_error new j = Some x ->
  dim d - S j < length (snd x).
Proof. exact c127_start_refuted. Qed.
Print Assumptions C127_start_refuted.

Example C127_root_ex : data_ok fx /\ d_points fx <> [] /\ 2 <= length (d_fnames fx) /\ a_depth look_cfg = Z.of_nat 2 /\ length [1; 2; 3]%R = length (d_fnames fx) /\
  (forall m, fst (even_train 1 m fx) = true /\ length (fst (snd (even_train 1 m fx))) = length (d_fnames fx)) /\ 1 <= a_len look_cfg /\ look_turns 2 (length (d_fnames fx)) 2 <= a_width look_cfg /\
  look_turns 2 (length (d_fnames fx)) 2 <= a_cap look_cfg /\ look_turns 2 (length (d_fnames fx)) 2 = 2.
Proof. exact c127_root_ex. Qed.

Example C127_margin_refuted_ex : 0 < 2 /\ a_gm (with_gm look_cfg 7) = 7%R /\ a_gm look_cfg = 0%R.
Proof. exact c127_margin_refuted_ex. Qed.

Example C127_trained_refuted_ex : exists st tab q ws sol log, NoDup (d_fnames fx) /\
  look_ahead look_cfg 2 true (even_train 1) fx [] [1; 2; 3]%R 0 ([], vis_new (a_len look_cfg) (a_width look_cfg), pq_new (a_cap look_cfg), [], 0, [], []) = Ok (0%R, (st, tab, q, ws, 2, sol, [] ++ log)) /\
  map fst log = [fx; fx] /\ exists nd, nth_error st 0 = Some (Some nd) /\ n_fnames nd = [1]%Z /\ n_rgamma nd = 1%R.
Proof. exact c127_trained_refuted_ex. Qed.

Example C127_start_refuted_ex : exists st tab q ws sol new x, NoDup (d_fnames fx) /\
  look_ahead look_cfg 2 true (even_train 1) fx [] [1; 2; 3]%R 0 ([], vis_new (a_len look_cfg) (a_width look_cfg), pq_new (a_cap look_cfg), [], 0, [], []) = Ok (0%R, (st, tab, q, ws, 2, sol, [] ++ new)) /\
  3 <= dim fx /\ nth_error new 1 = Some x.
Proof. exact c127_start_refuted_ex. Qed.

