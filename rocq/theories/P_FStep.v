(** Property theorems: C139: one update of the fixed-margin trainers.
    Each is closed by the lemma of the same (lower-case) name in T_FStep.v. *)
From Coq Require Import ZArith Bool List Lia Reals Lra.
From Verif Require Import Base ListLib M_Data M_Point L_Vec Loop M_Kernel S_Kernel L_Kernel M_Perc S_Perc L_Perc L_Knn L_Smo M_Fixed S_Fixed L_Fixed S_FStep.
From Verif Require Import T_FStep.
Import ListNotations.
Local Open Scope R_scope.

(** C139: in the formulations with a differentiable norm (1-norm, 2-norm and q-norms of the weights), an update moves every weight that is not 0 by
    rate (y x_j - gamma dN/dw_j), N the norm of the weights before; a weight that is 0 moves by rate y x_j. The norm kept afterwards is that of the new weights. *)
Theorem C139_gradient : forall (pw : R -> R -> R) (kind : qnorm) (pr : params) (gamma eps : R) (d : data R) (y : R) (x : list R) (s : fstate) (w' : list R) (nm lw : R) (nn : nat),
  length (f_w s) = dim d -> length x = dim d -> kind <> L1 -> (forall q, kind = Lp q -> 0 < q /\ power pw) -> f_norm s = norm_at pw kind (dim d) (nz (f_w s)) ->
  fm_step pw kind pr gamma eps d y x s = Ok (w', nm, lw, nn) ->
  nm = norm_at pw kind (dim d) (nz w') /\ forall j, (j < dim d)%nat ->
    (nz (f_w s) j = 0 -> nz w' j = rate pr * (y * nz x j)) /\
    (nz (f_w s) j <> 0 -> exists g, derivable_pt_lim (fun t => norm_at pw kind (dim d) (with_coord (f_w s) j t)) (nz (f_w s) j) g /\ nz w' j = nz (f_w s) j + rate pr * (y * nz x j - gamma * g)).
Proof. exact c139_gradient. Qed.
Print Assumptions C139_gradient.

(** C139: in the formulation with the largest absolute weight, the update of a weight is rate (y x_j - gamma sign(w_j) / n) when its size is within the tolerance of the largest one kept, or none is kept,
    and rate y x_j for the other weights. The norm kept afterwards is the old size of the first weight or the new size of another one, and up to the tolerance it bounds all of these; the number kept
    is one more than the number of later weights whose new size is within the tolerance of it. *)
Theorem C139_largest : forall (pw : R -> R -> R) (pr : params) (gamma eps : R) (d : data R) (y : R) (x : list R) (s : fstate) (w' : list R) (nm lw : R) (nn : nat),
  length (f_w s) = dim d -> length x = dim d -> 0 < eps -> fm_step pw L1 pr gamma eps d y x s = Ok (w', nm, lw, nn) ->
  (forall j, (j < dim d)%nat -> nz (f_w s) j <> 0 -> 0 < f_norm s -> f_lw s = 0 \/ within eps (f_lw s) (nz (f_w s) j) -> nz w' j = nz (f_w s) j + rate pr * (y * nz x j - gamma * (if Rlt_dec (nz (f_w s) j) 0 then -1 else 1) / INR (f_n s))) /\
  (forall j, (j < dim d)%nat -> nz (f_w s) j = 0 \/ f_norm s <= 0 \/ (f_lw s <> 0 /\ ~ within eps (f_lw s) (nz (f_w s) j)) -> nz w' j = nz (f_w s) j + rate pr * (y * nz x j)) /\
  lw = nm /\ Rabs (nz (f_w s) 0) <= nm /\ (forall j, (0 < j < dim d)%nat -> Rabs (nz w' j) <= (1 + eps) * nm) /\
  exists p js, (p < dim d)%nat /\ (p = 0%nat /\ nm = Rabs (nz (f_w s) 0) \/ (0 < p)%nat /\ nm = Rabs (nz w' p)) /\
    NoDup js /\ (forall j, In j js <-> (p < j < dim d)%nat /\ within eps nm (nz w' j)) /\ nn = S (length js).
Proof. exact c139_largest. Qed.
Print Assumptions C139_largest.

Example C139_gradient_ex : exists w' nm lw nn, fm_step Rpower L2 (mkParams 1 5 5) 1 (1 / 1000) step_data 1 [1; 2] (step_state 5 0) = Ok (w', nm, lw, nn) /\ 5 = norm_at Rpower L2 (dim step_data) (nz (f_w (step_state 5 0))) /\ dim step_data = 2%nat.
Proof. exact c139_gradient_ex. Qed.

Example C139_largest_ex : exists w' nm lw nn, fm_step Rpower L1 (mkParams 1 5 5) 1 (1 / 1000) step_data 1 [1; 2] (step_state 4 4) = Ok (w', nm, lw, nn) /\ within (1 / 1000) 4 4 /\ ~ within (1 / 1000) 4 3.
Proof. exact c139_largest_ex. Qed.

