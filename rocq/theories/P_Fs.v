(** Property theorems: Proofs about feature selection.
    Each is closed by the lemma of the same (lower-case) name in T_Fs.v. *)
From Coq Require Import String ZArith Bool Reals Lia Lra List Permutation Sorted.
From Verif Require Import Base ListLib Loop L_Vec M_Data S_Data L_Data L_Insert L_Feat L_Smo L_Knn M_Kmeans T_Kmeans S_Stat T_Stat M_Fs S_Fs.
From Verif Require Import T_Fs.
Import ListNotations.
Local Open Scope nat_scope.

(** C66: removal goes on until a training fails or the number of features asked for is reached (one always stays); whatever was removed scored no better than what stays.
    [ds k] is the dataset after [k] removals; the answer is the last one on which training succeeded (or the whole dataset). *)
Theorem C66_select : forall f srt train number (d : data R), data_ok d -> 0 < dim d -> scorable d -> sorts_by (fun x => x) srt -> number <= dim d ->
  exists k (ds : nat -> data R), k <= dim d - number /\ fs_select f srt train number d = Ok (Some (ds k)) /\ ds 0 = d /\
    (forall i, i <= dim d - number -> i <= S k -> data_ok (ds i) /\ best (if f then fisher d else golub d) (Nat.max 1 (dim d - i)) d (ds i)) /\
    (forall i, 0 < i <= k -> train i (ds i) = true) /\ (k < dim d - number -> train (S k) (ds (S k)) = false).
Proof. exact c66_select. Qed.
Print Assumptions C66_select.

(** C67: when no training fails, features of least absolute weight are removed level by level and exactly [depth] are gone in the end.
    The object's jump is 0 afterwards when it does not divide the depth. *)
Theorem C67_rfe : forall srt train depth jump (d : data R) fuel, sorts_by Rabs srt -> (forall n e, exists w, train n e = Some w /\ dim e <= length w) -> data_ok d -> 0 < depth < dim d -> 0 < jump -> depth < fuel ->
  exists r, rfe srt train depth d fuel jump = Ok (Some (if Nat.eqb (depth mod jump) 0 then jump else 0, r)) /\ elim train depth jump 0 0 d r /\ data_ok r /\ length (d_fnames r) = dim d - depth.
Proof. exact c67_rfe. Qed.
Print Assumptions C67_rfe.

(** C67: a depth that is not between 1 and the number of features minus 1 gives an empty dataset. *)
Theorem C67_invalid : forall srt train depth jump (d : data R) fuel, ~ (0 < depth < dim d) -> rfe srt train depth d fuel jump = Ok (Some (jump, data_empty)).
Proof. exact c67_invalid. Qed.
Print Assumptions C67_invalid.

(** C67, why trainings must not fail: when the one at some level fails, every feature of the dataset comes back, those already removed included. *)
Theorem C67_failure_refuted : forall srt train depth jump (d : data R) fuel k, sorts_by Rabs srt -> (forall n e w, train n e = Some w -> dim e <= length w) -> data_ok d -> 0 < depth < dim d -> 0 < jump -> depth < fuel ->
  k * jump < depth + jump -> (forall e, train k e = None) -> exists j, rfe srt train depth d fuel jump = Ok (Some (j, d)).
Proof. exact c67_failure_refuted. Qed.
Print Assumptions C67_failure_refuted.

Theorem C67_jump_refuted : forall srt train depth (d : data R) fuel, sorts_by Rabs srt -> (forall n e, exists w, train n e = Some w /\ dim e <= length w) -> data_ok d -> 0 < depth < dim d -> rfe srt train depth d fuel 0 = Ok None.
Proof. exact c67_jump_refuted. Qed.
Print Assumptions C67_jump_refuted.

(** C67: hence a second call on the same object never ends when the jump does not divide the depth. *)
Theorem C67_again_refuted : forall srt train train2 depth jump (d : data R) fuel, sorts_by Rabs srt -> (forall n e, exists w, train n e = Some w /\ dim e <= length w) -> (forall n e, exists w, train2 n e = Some w /\ dim e <= length w) ->
  data_ok d -> 0 < depth < dim d -> 0 < jump -> depth < fuel -> depth mod jump <> 0 ->
  exists j r, rfe srt train depth d fuel jump = Ok (Some (j, r)) /\ forall fuel, rfe srt train2 depth d fuel j = Ok None.
Proof. exact c67_again_refuted. Qed.
Print Assumptions C67_again_refuted.

(** C66: more features asked for than there are. *)
Theorem C66_too_many : forall f srt train number (d : data R), dim d < number -> fs_select f srt train number d = Abort.
Proof. exact c66_too_many. Qed.
Print Assumptions C66_too_many.

(** C66: when every training succeeds, exactly the number of features asked for, and the best ones. *)
Theorem C66_number : forall f srt train number (d : data R), data_ok d -> scorable d -> sorts_by (fun x => x) srt -> 1 <= number <= dim d -> (forall n e, train n e = true) ->
  exists d', fs_select f srt train number d = Ok (Some d') /\ data_ok d' /\ best (if f then fisher d else golub d) number d d'.
Proof. exact c66_number. Qed.
Print Assumptions C66_number.

(** C66, why at least one feature must be asked for: asking for none leaves one. *)
Theorem C66_zero_refuted : forall f srt train (d : data R), data_ok d -> 0 < dim d -> scorable d -> sorts_by (fun x => x) srt -> (forall n e, train n e = true) ->
  exists d', fs_select f srt train 0 d = Ok (Some d') /\ best (if f then fisher d else golub d) 1 d d'.
Proof. exact c66_zero_refuted. Qed.
Print Assumptions C66_zero_refuted.

Example C66_number_ex : data_ok fx /\ scorable fx /\ sorts_by (fun x => x) (fsort (fun x => x)) /\ 1 <= 2 <= dim fx.
Proof. exact c66_number_ex. Qed.

Example C67_rfe_ex : data_ok fx /\ 0 < 2 < dim fx /\ sorts_by Rabs (fsort Rabs) /\ (forall (n : nat) (e : data R), exists w, Some (repeat 1%R (dim e)) = Some w /\ dim e <= length w).
Proof. exact c67_rfe_ex. Qed.

(** Training fails after the first level: all three features come back. *)
Example C67_failure_refuted_ex : exists j, rfe (fsort Rabs) (fun n e => if Nat.eqb n 1 then None else Some (repeat 1%R (dim e))) 2 fx 3 1 = Ok (Some (j, fx)).
Proof. exact c67_failure_refuted_ex. Qed.

Example C67_again_refuted_ex : 0 < 2 < dim fx /\ 2 mod 3 <> 0.
Proof. exact c67_again_refuted_ex. Qed.

