(** Property theorems: C138: training of the primal perceptron in double precision, on whole numbers.
    Each is closed by the lemma of the same (lower-case) name in T_F64c.v. *)
From Coq Require Import ZArith Bool List Reals Lia Lra Permutation.
From Flocq Require Import Core BinarySingleNaN.
From Verif Require Import Base ListLib M_Data L_Vec Loop S_Kernel L_Kernel M_Perc S_Perc L_Perc T_Perc M_F64 S_F64 L_F64 T_F64 T_F64b.
From Verif Require Import T_F64c.
Import ListNotations.
Local Open Scope R_scope.

(** C138: on data whose coordinates are integers of absolute value at most M, with an integer learning rate r, and as long as (MAX_UP + number of points) r (1 + dim M M) is less than 2^53, no operation
    on weights or decision values is rounded: training from scratch in doubles makes the same updates as in exact arithmetic and ends with the same weights, bias, counters and answer. *)
Theorem C138_exact : forall (pr : fparams) (d : data b64) (M r : Z) (clk : nat -> bool) (st0 ct0 : nat), even64 d -> all_once d -> two_labels d -> whole_data M d -> (0 <= M)%Z ->
  fin (f_rate pr) -> rv (f_rate pr) = IZR r -> (0 < r)%Z -> (Z.of_nat (f_max_up pr + size d) * r * (1 + Z.of_nat (dim d) * M * M) < 2 ^ 53)%Z ->
  exists s t st b, ftrain pr d clk [] st0 ct0 = Ok (Some (s, st, b)) /\ ptrain (mkParams (rv (f_rate pr)) (f_max_it pr) (f_max_up pr)) (in_reals d) clk [] st0 ct0 = Ok (Some (t, st, b)) /\ agree s t.
Proof. exact c138_exact. Qed.
Print Assumptions C138_exact.

Example C138_exact_ex : even64 fx2 /\ all_once fx2 /\ two_labels fx2 /\ whole_data 2 fx2 /\ fin (fofZ 1) /\ rv (fofZ 1) = IZR 1 /\ (Z.of_nat (10 + size fx2) * 1 * (1 + Z.of_nat (dim fx2) * 2 * 2) < 2 ^ 53)%Z.
Proof. exact c138_exact_ex. Qed.

(** C138: hence the convergence theorem holds for the program itself on such data: when some hyperplane (u, bu) separates the points with margin g and the limits allow B updates, with B at least r2 |u, bu|^2 / g^2,
    training in doubles answers true after at most B updates and evaluate() in doubles gives every training point its own label. *)
Theorem C138_converges : forall (pr : fparams) (d : data b64) (M r : Z) (clk : nat -> bool) (st0 ct0 : nat) (u : list R) (bu g r2 : R) (B : nat), even64 d -> all_once d -> two_labels d -> whole_data M d -> (0 <= M)%Z ->
  fin (f_rate pr) -> rv (f_rate pr) = IZR r -> (0 < r)%Z -> (Z.of_nat (f_max_up pr + size d) * r * (1 + Z.of_nat (dim d) * M * M) < 2 ^ 53)%Z ->
  0 < g -> 0 <= r2 -> (forall p, In p (d_points d) -> g <= IZR (p_y p) * (sumn (dim d) (fun j => nz u j * at64 (p_x p) j) + bu)) ->
  (forall p, In p (d_points d) -> sumn (dim d) (fun j => at64 (p_x p) j * at64 (p_x p) j) + 1 <= r2) -> r2 * (inner (dim d) u u + bu * bu) <= INR B * (g * g) ->
  (forall k, clk k = true) -> (ct0 + B <= f_max_up pr)%nat -> (st0 + B <= f_max_it pr)%nat ->
  exists s st, ftrain pr d clk [] st0 ct0 = Ok (Some (s, st, true)) /\ (fs_ctot s <= ct0 + B)%nat /\ forall p, In p (d_points d) -> fevaluate (fs_w s) (fs_b s) (p_x p) = Ok (p_y p).
Proof. exact c138_converges. Qed.
Print Assumptions C138_converges.

Example C138_converges_ex : (forall p, In p (d_points fx2) -> 1 <= IZR (p_y p) * (sumn (dim fx2) (fun j => nz [1] j * at64 (p_x p) j) + 0)) /\
  (forall p, In p (d_points fx2) -> sumn (dim fx2) (fun j => at64 (p_x p) j * at64 (p_x p) j) + 1 <= 5) /\ 5 * (inner (dim fx2) [1] [1] + 0 * 0) <= INR 5 * (1 * 1) /\ (0 + 5 <= 10)%nat.
Proof. exact c138_converges_ex. Qed.

