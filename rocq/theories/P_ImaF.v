(** Property theorems: C131: the fixed-margin incremental margin classifier on its own.
    Each is closed by the lemma of the same (lower-case) name in T_ImaF.v. *)
From Coq Require Import ZArith Bool List Lia Reals Lra Psatz Permutation.
From Verif Require Import Base ListLib M_Data M_Point L_Vec Loop M_Kernel S_Kernel L_Kernel M_Perc S_Perc L_Perc T_Perc L_Knn L_Smo M_Fixed S_Fixed L_Fixed T_Fixed M_Ima S_Ima L_Ima T_Ima M_ImaF.
From Verif Require Import T_ImaF.
Import ListNotations.
Local Open Scope R_scope.

(** C131: with the flag set, training from any start ends without reading outside its vectors, stores one weight per feature, leaves the visiting index a
    permutation, and when it answers true every training point has y (w.x + b) > gamma * norm - alpha * flexible. *)
Theorem C131_train : forall (pw : R -> R -> R) (kind : qnorm) (pr : params) (gamma flex eps : R) (d : data R) (clk : nat -> bool) (f : option nat) (o : imaf),
  rect d -> index_perm d -> (kind = L1 -> (0 < dim d)%nat) -> q_flag o = Some f -> q_sw o = [] \/ length (q_sw o) = dim d ->
  exists o' al ix ans, imaf_train pw kind pr gamma flex eps d clk o = Ok (Some (o', al, ix, ans)) /\ length (q_sw o') = dim d /\ length al = size d /\
    Permutation ix (map Z.of_nat (seq 0 (size d))) /\ q_margin o' = q_margin o /\ q_flag o' = q_flag o /\
    (ans = true -> forall i, (i < size d)%nat -> gamma * q_norm o' - nz al i * flex < yf d (q_sw o') (q_b o') (pt d i)).
Proof. exact c131_train. Qed.
Print Assumptions C131_train.

(** C131: evaluate() answers by the side of the hyperplane, as no constructor and no training sets the margin it compares with; a point of another
    dimension gets 0. *)
Theorem C131_evaluate : forall (pw : R -> R -> R) (kind : qnorm) (pr : params) (gamma flex eps : R) (d : data R) (clk : nat -> bool) (f : option nat) (n : nat) (ini : option (vec * R * R)) (o' : imaf) (al : vec) (ix : list Z) (ans : bool) (p : point R),
  rect d -> index_perm d -> (kind = L1 -> (0 < dim d)%nat) -> imaf_train pw kind pr gamma flex eps d clk (imaf_flag f (imaf_make n ini)) = Ok (Some (o', al, ix, ans)) ->
  imaf_evaluate o' p = Ok (if negb (Nat.eqb (length (p_x p)) (dim d)) then 0%Z else if Rle_dec 0 (value d (q_sw o') (q_b o') p) then 1%Z else (-1)%Z).
Proof. exact c131_evaluate. Qed.
Print Assumptions C131_evaluate.

(** C131: after a training that answered true with zero flexibility, on labels 1 and -1, every training point is given its own label, from any start. *)
Theorem C131_answers : forall (pw : R -> R -> R) (kind : qnorm) (pr : params) (gamma eps : R) (d : data R) (clk : nat -> bool) (f : option nat) (n : nat) (ini : option (vec * R * R)) (o' : imaf) (al : vec) (ix : list Z) (p : point R),
  rect d -> index_perm d -> (kind = L1 -> (0 < dim d)%nat) -> (forall x q, 0 <= pw x q) -> 0 <= gamma -> binary d ->
  match ini with Some (_, _, norm) => 0 <= norm | None => True end ->
  imaf_train pw kind pr gamma 0 eps d clk (imaf_flag f (imaf_make n ini)) = Ok (Some (o', al, ix, true)) ->
  In p (d_points d) -> imaf_evaluate o' p = Ok (p_y p).
Proof. exact c131_answers. Qed.
Print Assumptions C131_answers.

(** C131: the distance: when the norm given at the start is the norm of the weights there, it is so at the end (all formulations but L1), so that a
    training that answers true with zero flexibility leaves y (w.x + b) > gamma * norm(w) at every training point. *)
Theorem C131_norm : forall (pw : R -> R -> R) (kind : qnorm) (pr : params) (gamma flex eps : R) (d : data R) (clk : nat -> bool) (f : option nat) (o o' : imaf) (al : vec) (ix : list Z) (ans : bool),
  rect d -> index_perm d -> kind <> L1 -> q_flag o = Some f -> q_sw o = [] \/ length (q_sw o) = dim d -> norm_of pw kind (dim d) (imaf_w d o) (q_norm o) ->
  imaf_train pw kind pr gamma flex eps d clk o = Ok (Some (o', al, ix, ans)) -> norm_of pw kind (dim d) (q_sw o') (q_norm o').
Proof. exact c131_norm. Qed.
Print Assumptions C131_norm.

(** C131: given weights that separate the points but a norm of 0 (a Solution whose norm was not filled in), training answers true after one pass and
    keeps the weights, whatever the fixed margin is. *)
Theorem C131_norm_refuted : forall (pw : R -> R -> R) (kind : qnorm) (pr : params) (gamma eps : R) (d : data R) (clk : nat -> bool) (w : vec) (b : R) (n : nat),
  rect d -> index_perm d -> (kind = L1 -> (0 < dim d)%nat) -> length w = dim d -> clk 0%nat = true -> (forall p, In p (d_points d) -> 0 < yf d w b p) ->
  exists o' al ix, imaf_train pw kind pr gamma 0 eps d clk (imaf_make n (Some (w, b, 0))) = Ok (Some (o', al, ix, true)) /\ q_sw o' = w /\ q_b o' = b /\ q_norm o' = 0.
Proof. exact c131_norm_refuted. Qed.
Print Assumptions C131_norm_refuted.

(** C131: a newly built object whose flag was not set reads it, uninitialised, on every non-empty dataset, as soon as there is time for a pass and neither
    limit is below what one pass takes: training is undefined behaviour. *)
Theorem C131_flag_refuted : forall (pw : R -> R -> R) (kind : qnorm) (pr : params) (gamma eps : R) (d : data R) (clk : nat -> bool),
  rect d -> index_perm d -> (kind = L1 -> (0 < dim d)%nat) -> clk 0%nat = true -> (0 < size d)%nat -> (1 <= max_it pr)%nat -> (size d <= max_up pr)%nat ->
  imaf_train pw kind pr gamma 0 eps d clk (imaf_make (dim d) None) = UB.
Proof. exact c131_flag_refuted. Qed.
Print Assumptions C131_flag_refuted.

Example C131_train_ex : exists al ix', imaf_train (fun _ _ => 0) L2 (lim 1 1) 0 0 (1/1000) ix (fun _ => true) (imaf_flag None (imaf_make 1 None)) =
  Ok (Some (mkImaf [1] [1] 1 1 0 (Some None) 2 1 0 0, al, ix', true)) /\ rect ix /\ index_perm ix /\ size ix = 2%nat.
Proof. exact c131_train_ex. Qed.

Example C131_evaluate_ex : imaf_evaluate (mkImaf [1] [1] 1 1 0 (Some None) 2 1 0 0) (mkPoint [-2] 1%Z 1%Z 0) = Ok (-1)%Z /\ imaf_evaluate (mkImaf [1] [1] 1 1 0 (Some None) 2 1 0 0) (mkPoint [-2; 5] 1%Z 1%Z 0) = Ok 0%Z.
Proof. exact c131_evaluate_ex. Qed.

Example C131_answers_ex : exists o' al ix', imaf_train (fun _ _ => 0) L2 (lim 1 1) 0 0 (1/1000) ix (fun _ => true) (imaf_flag None (imaf_make 1 None)) = Ok (Some (o', al, ix', true)) /\ rect ix /\ index_perm ix /\ binary ix /\
  (forall x q : R, 0 <= (fun _ _ => 0) x q) /\ In (mkPoint [-4] (-1)%Z 2%Z 0) (d_points ix).
Proof. exact c131_answers_ex. Qed.

Example C131_norm_ex : norm_of (fun _ _ => 0) L2 (dim ix) (imaf_w ix (imaf_flag None (imaf_make 1 None))) 0 /\ norm_of (fun _ _ => 0) L2 (dim ix) [1] 1.
Proof. exact c131_norm_ex. Qed.

(** The margin 5 is claimed, the points are at distances 1 and 4 of the hyperplane x = 0. *)
Example C131_norm_refuted_ex : rect ix /\ index_perm ix /\ (forall p, In p (d_points ix) -> 0 < yf ix [1] 0 p) /\ euclid (dim ix) [1] = 1 /\ yf ix [1] 0 (mkPoint [1] 1%Z 1%Z 0) < 5 * euclid (dim ix) [1].
Proof. exact c131_norm_refuted_ex. Qed.

Example C131_flag_refuted_ex : imaf_train (fun _ _ => 0) L2 (lim 1 5) 0 0 (1/1000) ix (fun _ => true) (imaf_make (dim ix) None) = UB.
Proof. exact c131_flag_refuted_ex. Qed.

