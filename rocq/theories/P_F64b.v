(** Property theorems: C137: training of the primal perceptron in double precision.
    Each is closed by the lemma of the same (lower-case) name in T_F64b.v. *)
From Coq Require Import ZArith Bool List Reals Lia Lra Permutation.
From Flocq Require Import Core BinarySingleNaN.
From Verif Require Import Base ListLib M_Data L_Vec Loop S_Kernel L_Kernel M_Perc S_Perc L_Perc T_Perc M_F64 S_F64 L_F64 T_F64.
From Verif Require Import T_F64b.
Import ListNotations.
Local Open Scope R_scope.

(** C137: when training in doubles answers true (the clock having let it start), every training point is given its own label by evaluate(), but for points whose decision value
    is not a number, which are given -1. Nothing is assumed on the numbers. *)
Theorem C137_true : forall (pr : fparams) (d : data b64) (clk : nat -> bool) (w0 : list b64) (st0 ct0 : nat) (s : fstate) (st : nat), even64 d -> all_once d -> two_labels d ->
  w0 = [] \/ length w0 = dim d -> clk O = true -> ftrain pr d clk w0 st0 ct0 = Ok (Some (s, st, true)) ->
  forall p, In p (d_points d) -> exists f, fdecision (dim d) (fs_w s) (p_x p) (fs_b s) = Ok f /\
    (fevaluate (fs_w s) (fs_b s) (p_x p) = Ok (p_y p) \/ (is_nan f = true /\ fevaluate (fs_w s) (fs_b s) (p_x p) = Ok (-1)%Z)).
Proof. exact c137_true. Qed.
Print Assumptions C137_true.

Theorem C137_infinite_refuted : forall (pr : fparams) (d : data b64) (clk : nat -> bool) (st0 ct0 : nat), even64 d -> all_once d -> clk O = true ->
  (forall p, In p (d_points d) -> exists x, In x (p_x p) /\ ~ fin x) ->
  exists s, ftrain pr d clk [] st0 ct0 = Ok (Some (s, S st0, true)) /\ fs_w s = repeat fzero (dim d) /\ forall p, In p (d_points d) -> fevaluate (fs_w s) (fs_b s) (p_x p) = Ok (-1)%Z.
Proof. exact c137_infinite_refuted. Qed.
Print Assumptions C137_infinite_refuted.

Example C137_infinite_refuted_ex : let d := mkData [mkPoint [B754_infinity false] 1%Z 1%Z fzero] [] [0%Z] [] [] [] 1 1 false false false true : data b64 in
  even64 d /\ all_once d /\ two_labels d /\ forall p, In p (d_points d) -> exists x, In x (p_x p) /\ ~ fin x.
Proof. exact c137_infinite_refuted_ex. Qed.

Example C137_true_ex : exists s st, even64 fx2 /\ all_once fx2 /\ two_labels fx2 /\ ftrain (mkFparams (fofZ 1) 10 10) fx2 (fun _ => true) [] 0 0 = Ok (Some (s, st, true)).
Proof. exact c137_true_ex. Qed.

