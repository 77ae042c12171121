(** Property theorems: Reading .data files of the expected shape.
    Each is closed by the lemma of the same (lower-case) name in T_Load2.v. *)
From Coq Require Import ZArith QArith Ascii Bool String List Lia.
From Verif Require Import Base ListLib M_Data S_Data M_Str S_Str L_Str2 L_Str3 T_Str M_Load S_Load L_Load L_Load2 L_Load3 L_Load4 L_Load5 T_Load.
From Verif Require Import T_Load2.
Import ListNotations.
Local Open Scope nat_scope.

(** C77: a .data file of that shape is read within bounds, or stops in std::stoi on a class that does not fit; what is read has rectangular points, as many
    feature names, ids 1, 2, ..., and every label is listed and counted. *)
Theorem C77_data_shape : forall file, (Z.of_nat (List.length (lines file)) < 2 ^ 63)%Z -> Forall data_shape (lines file) ->
  load_data fresh file <> UB /\
  forall d', load_data fresh file = Ok (d', true) -> class_ok d' /\ d_size d' = List.length (d_points d') /\ List.length (d_points d') = List.length (lines file) /\
    Forall (fun p => List.length (p_x p) = d_dim d') (d_points d') /\ List.length (d_fnames d') = d_dim d' /\ map p_id (d_points d') = iota 1 (d_size d').
Proof. exact c77_data_shape. Qed.
Print Assumptions C77_data_shape.

Example C77_data_shape_ex : Forall data_shape (lines (txt "a 1:x 3:2.5" ++ newline :: txt "b 1:1 3:" ++ [newline])) /\
  exists d', load_data fresh (txt "a 1:x 3:2.5" ++ newline :: txt "b 1:1 3:" ++ [newline]) = Ok (d', true) /\ map p_x (d_points d') = [[25#10; 0]; [1; 0]]%Q /\ d_fnames d' = [1; 3]%Z.
Proof. exact c77_data_shape_ex. Qed.

