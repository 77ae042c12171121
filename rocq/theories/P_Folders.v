(** Property theorems: Property lemmas: plot folders.
    Each is closed by the lemma of the same (lower-case) name in T_Folders.v. *)
From Coq Require Import Bool List Arith Lia.
From Verif Require Import Base ListLib M_Folders S_Folders L_Folders L_Folders2.
From Verif Require Import T_Folders.
Import ListNotations.
Local Open Scope nat_scope.

(** C119: the folder a new plot object or new samples go to did not exist before; making a plot object changes no other folder and saves nothing. *)
Theorem C119_fresh : forall (A : Type) (dk : disk A) t k c, exists dk1 n, vstep dk (Open t k c) = Ok dk1 /\ dget (dirs dk) n = None /\
  shows dk1 (length (objs dk)) = Some (Some c) /\ saved dk1 = saved dk /\
  forall m, dget (dirs dk1) m = if Nat.eqb m n then Some c else dget (dirs dk) m.
Proof. exact c119_fresh. Qed.
Print Assumptions C119_fresh.

Example C119_fresh_ex : forall c d : list nat, exists dk1, vstep (mkDisk [(0, c)] [] (fun _ => 0) []) (Open 3 true d) = Ok dk1 /\ dirs dk1 = [(0, c); (1, d)].
Proof. exact c119_fresh_ex. Qed.

(** C119: in a program that uses one element type, alone in its directory, every plot object has a folder of its own: at any moment it holds what
    the object was last given, there is no other folder, and what was saved are the contents that objects with keep_temp_files gave up, in order. *)
Theorem C119_own : forall (A : Type) t (ops : list (vop A)) s, Forall (of_type t) ops -> prun (mkP [] []) ops = Some s ->
  exists dk, vrun disk0 ops = Ok dk /\ (forall i, shows dk i = match nth_error (p_live s) i with Some (Some x) => Some (snd x) | _ => None end) /\
    length (dirs dk) = showing (p_live s) /\ map snd (saved dk) = p_saved s.
Proof. exact c119_own. Qed.
Print Assumptions C119_own.

Example C119_own_ex : forall a b c : list nat, let ops := [Open 0 false a; OpenEmpty 0 true; SetSample 1 b 0; SetSample 1 c 1; Close 0 1] in
  Forall (of_type 0) ops /\ prun (mkP [] []) ops = Some (mkP [None; Some (true, Some c)] [b]).
Proof. exact c119_own_ex. Qed.

(** C119 fails next to folders of somebody else: every existing folder whose number was tried before a free one was found is deleted with the plot
    object, though it never wrote to it. *)
Theorem C119_others_refuted : forall (A : Type) (dk : disk A) t k c st m, counters dk t <= m -> (forall j, counters dk t <= j <= m -> dget (dirs dk) j <> None) ->
  exists dk1 dk2, vstep dk (Open t k c) = Ok dk1 /\ vstep dk1 (Close (length (objs dk)) st) = Ok dk2 /\
    dget (dirs dk1) m = dget (dirs dk) m /\ dget (dirs dk2) m = None /\ forall n, sget (saved dk) (m, n) = None -> sget (saved dk2) (m, n) = None.
Proof. exact c119_others_refuted. Qed.
Print Assumptions C119_others_refuted.

Example C119_others_refuted_ex : forall a b : list nat, let dk := mkDisk [(0, a); (1, b)] [] (fun _ => 0) [] in
  counters dk 7 <= 1 /\ forall j, counters dk 7 <= j <= 1 -> dget (dirs dk) j <> None.
Proof. exact c119_others_refuted_ex. Qed.

(** C119 fails for plot objects of two element types in one program: destroying the second deletes the folder of the first, which is still in use. *)
Theorem C119_types_refuted : forall (A : Type) t u k1 k2 (a b : A) st, t <> u ->
  exists dk1 dk2, vrun disk0 [Open t k1 a; Open u k2 b] = Ok dk1 /\ vstep dk1 (Close 1 st) = Ok dk2 /\
    shows dk1 0 = Some (Some a) /\ shows dk2 0 = Some None /\ forall n, sget (saved dk2) (0, n) = None.
Proof. exact c119_types_refuted. Qed.
Print Assumptions C119_types_refuted.

Example C119_types_refuted_ex : 0 <> 1.
Proof. exact c119_types_refuted_ex. Qed.

(** C119 fails for keep_temp_files when a saved folder with the same number and time stamp is there already: the files are lost. *)
Theorem C119_keep_refuted : forall (A : Type) (dk : disk A) i v n c st, vobj dk i = Ok v -> v_keep v = true -> v_folder v = Some n -> In n (v_folders v) ->
  dget (dirs dk) n = Some c -> sget (saved dk) (n, st) <> None ->
  exists dk1, vstep dk (Close i st) = Ok dk1 /\ dget (dirs dk1) n = None /\ saved dk1 = saved dk.
Proof. exact c119_keep_refuted. Qed.
Print Assumptions C119_keep_refuted.

Example C119_keep_refuted_ex : forall a b : list nat, exists dk v, vrun (mkDisk [] [((0, 5), a)] (fun _ => 0) []) [Open 0 true b] = Ok dk /\
  vobj dk 0 = Ok v /\ v_keep v = true /\ v_folder v = Some 0 /\ In 0 (v_folders v) /\ dget (dirs dk) 0 = Some b /\ sget (saved dk) (0, 5) = Some a.
Proof. exact c119_keep_refuted_ex. Qed.

