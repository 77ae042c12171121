(** Property theorems: C129, C130: theorems about the temporary files and the search for the program.
    Each is closed by the lemma of the same (lower-case) name in T_GpFiles.v. *)
From Coq Require Import Ascii String ZArith List Bool Arith Lia Permutation.
From Verif Require Import Base Loop M_Str M_Data M_Gp M_GpFiles S_GpFiles L_GpFiles.
From Verif Require Import T_GpFiles.
Import ListNotations.
Local Open Scope nat_scope.

Theorem C129_contents (nm : nat -> str) (p : proc) (k : nat) (l : list str) (cols : grid) :
  nth_error (p_tmp p) k = Some (Some l) -> columns cols -> p_num p <> 63%Z ->
  exists rows p', lines_of cols rows /\ fstep nm p (Data k cols) = Ok (p', true) /\ p_disk p' = p_disk p ++ [(nm (p_made p), rows)] /\
    nth_error (p_tmp p') k = Some (Some (l ++ [nm (p_made p)])) /\ (forall j, j <> k -> nth_error (p_tmp p') j = nth_error (p_tmp p) j).
Proof. exact (@c129_contents nm p k l cols). Qed.
Print Assumptions C129_contents.

Theorem C129_reject (nm : nat -> str) (p : proc) (k : nat) (cols : grid) :
  opened p k -> cols <> [] -> ~ columns cols -> fstep nm p (Data k cols) = Ok (p, false).
Proof. exact (@c129_reject nm p k cols). Qed.
Print Assumptions C129_reject.

Theorem C129_pixels (nm num : nat -> str) (p : proc) (k w h : nat) (buf : list str) :
  opened p k -> p_num p <> 63%Z ->
  (w * h <= List.length buf -> exists rows p', fstep nm p (Pixels k w h buf num) = Ok (p', true) /\ p_disk p' = p_disk p ++ [(nm (p_made p), rows)] /\
     List.length rows = w * h /\
     forall x y, x < w -> y < h -> exists v, nth_error buf (y * w + x) = Some v /\ nth_error rows (y * w + x) = Some [num x; num y; v]) /\
  (List.length buf < w * h -> fstep nm p (Pixels k w h buf num) = UB).
Proof. exact (@c129_pixels nm num p k w h buf). Qed.
Print Assumptions C129_pixels.

Theorem C129_limit (nm : nat -> str) (cs : list fcall) (p : proc) (bs : list bool) (k : nat) (cols : grid) :
  (forall i j, nm i = nm j -> i = j) -> no_remove cs -> frun nm proc0 cs = Ok (p, bs) -> opened p k -> columns cols ->
  List.length (p_disk p) = made cs bs /\ made cs bs <= 63 /\
  (made cs bs < 63 -> exists p', fstep nm p (Data k cols) = Ok (p', true)) /\ (made cs bs = 63 -> fstep nm p (Data k cols) = Ok (p, false)).
Proof. exact (@c129_limit nm cs p bs k cols). Qed.
Print Assumptions C129_limit.

Theorem C129_closed_refuted (nm : nat -> str) (cols : grid) : columns cols ->
  exists p bs, frun nm proc0 (one_by_one cols 63 ++ [New; Data 63 cols]) = Ok (p, bs ++ [true; false]) /\ Forall (fun b => b = true) bs /\
    (forall k, opened p k -> k = 63) /\ nth_error (p_tmp p) 63 = Some (Some []).
Proof. exact (@c129_closed_refuted nm cols). Qed.
Print Assumptions C129_closed_refuted.

Theorem C129_remove (nm : nat -> str) (cs : list fcall) (p : proc) (bs : list bool) (ks : list nat) :
  (forall i j, nm i = nm j -> i = j) -> no_remove cs -> frun nm proc0 cs = Ok (p, bs) -> NoDup ks -> (forall k, In k ks -> opened p k) ->
  exists q ts, frun nm p (map Remove ks) = Ok (q, ts) /\ p_num q = Z.of_nat (List.length (p_disk q)) /\ forall f, In f (p_disk q) <-> In f (p_disk p) /\ ~ file_of p ks f.
Proof. exact (@c129_remove nm cs p bs ks). Qed.
Print Assumptions C129_remove.

Theorem C129_twice_refuted (nm : nat -> str) (cs : list fcall) (p : proc) (bs : list bool) (k : nat) (l : list str) :
  (forall i j, nm i = nm j -> i = j) -> no_remove cs -> frun nm proc0 cs = Ok (p, bs) -> nth_error (p_tmp p) k = Some (Some l) ->
  exists q, frun nm p [Remove k; Remove k] = Ok (q, [true; true]) /\ p_num q = (Z.of_nat (List.length (p_disk q)) - Z.of_nat (List.length l))%Z.
Proof. exact (@c129_twice_refuted nm cs p bs k l). Qed.
Print Assumptions C129_twice_refuted.

Theorem C130_entries (d : ascii) (m : nat) (f : str) (l : spaced) (n : nat) :
  entry d f -> Forall (fun x => entry d (snd x)) l -> stringtok d (joined_by d m f l n) = f :: map snd l.
Proof. exact (@c130_entries d m f l n). Qed.
Print Assumptions C130_entries.

Theorem C130_delims (d : ascii) (n : nat) : stringtok d (repeat d n) = [].
Proof. exact (@c130_delims d n). Qed.
Print Assumptions C130_delims.

Theorem C130_search (exe : str -> bool) (dir : str) (m n : nat) (f : str) (l : spaced) :
  entry ":"%char f -> Forall (fun x => entry ":"%char (snd x)) l ->
  (forall x, first_with (fun d => exe (d ++ t# "/gnuplot") = true) (dir :: f :: map snd l) x ->
     get_program_path exe (Some (joined_by ":"%char m f l n)) dir = (x, true) /\ get_program_path exe (Some (joined_by ":"%char m f l n)) x = (x, true)) /\
  ((forall x, In x (dir :: f :: map snd l) -> exe (x ++ t# "/gnuplot") = false) -> get_program_path exe (Some (joined_by ":"%char m f l n)) dir = (dir, false)).
Proof. exact (@c130_search exe dir m n f l). Qed.
Print Assumptions C130_search.

Theorem C130_unset (exe : str -> bool) (dir : str) : get_program_path exe None dir = (dir, exe (dir ++ t# "/gnuplot")).
Proof. exact (@c130_unset exe dir). Qed.
Print Assumptions C130_unset.

Theorem C130_set (exe : str -> bool) (d : str) : exe (d ++ t# "/gnuplot") = true -> set_path exe d = (d, true) /\ forall path, get_program_path exe path (fst (set_path exe d)) = (d, true).
Proof. exact (@c130_set exe d). Qed.
Print Assumptions C130_set.

Theorem C130_set_refuted (exe : str -> bool) (dir d : str) : exe (dir ++ t# "/gnuplot") = true -> exe (d ++ t# "/gnuplot") = false -> exe t# "/gnuplot" = false ->
  set_path exe d = ([], false) /\ get_program_path exe None dir = (dir, true) /\ get_program_path exe None (fst (set_path exe d)) = ([], false).
Proof. exact (@c130_set_refuted exe dir d). Qed.
Print Assumptions C130_set_refuted.

Example C129_contents_ex : columns two_cols /\ exists p, frun name_n proc0 [New; Data 0 two_cols] = Ok (p, [true; true]) /\
  p_disk p = [(t# "/tmp/gnuploti", [[t# "1"; t# "4"]; [t# "2"; t# "5"]; [t# "3"; t# "6"]])].
Proof. exact c129_contents_ex. Qed.

Example C129_reject_ex : ~ columns [[t# "1"]; []] /\ exists p, frun name_n proc0 [New; Data 0 [[t# "1"]; []]] = Ok (p, [true; false]).
Proof. exact c129_reject_ex. Qed.

Example C129_pixels_ex : exists p, frun name_n proc0 [New; Pixels 0 2 1 [t# "7"; t# "9"] (fun n => repeat "i"%char n)] = Ok (p, [true; true]) /\
  p_disk p = [(t# "/tmp/gnuploti", [[[]; []; t# "7"]; [t# "i"; []; t# "9"]])].
Proof. exact c129_pixels_ex. Qed.

Example C129_limit_ex : (forall i j, name_n i = name_n j -> i = j) /\ no_remove [New; Data 0 two_cols] /\ exists p, frun name_n proc0 [New; Data 0 two_cols] = Ok (p, [true; true]) /\ opened p 0.
Proof. exact c129_limit_ex. Qed.

Example C129_closed_refuted_ex : columns two_cols /\ List.length (one_by_one two_cols 63) = 189.
Proof. exact c129_closed_refuted_ex. Qed.

Example C129_remove_ex : no_remove [New; New; Data 0 two_cols; Data 1 two_cols] /\ exists p q, frun name_n proc0 [New; New; Data 0 two_cols; Data 1 two_cols] = Ok (p, [true; true; true; true]) /\
  opened p 1 /\ frun name_n p (map Remove [1]) = Ok (q, [true]) /\ map fst (p_disk q) = [t# "/tmp/gnuploti"] /\ p_num q = 1%Z.
Proof. exact c129_remove_ex. Qed.

Example C129_twice_refuted_ex : exists p q, frun name_n proc0 [New; Data 0 two_cols] = Ok (p, [true; true]) /\ frun name_n p [Remove 0; Remove 0] = Ok (q, [true; true]) /\ p_num q = (-1)%Z /\ p_disk q = [].
Proof. exact c129_twice_refuted_ex. Qed.

Example C130_entries_ex : entry ":"%char t# "/bin" /\ stringtok ":"%char t# "::/bin:/usr/bin::" = [t# "/bin"; t# "/usr/bin"] /\ joined_by ":"%char 2 t# "/bin" [(0, t# "/usr/bin")] 2 = t# "::/bin:/usr/bin::".
Proof. exact c130_entries_ex. Qed.

Example C130_search_ex : let exe := fun f => if list_eq_dec ascii_dec f t# "/usr/bin/gnuplot" then true else false in
  get_program_path exe (Some t# "/bin:/usr/bin") t# "/usr/local/bin/" = (t# "/usr/bin", true).
Proof. exact c130_search_ex. Qed.

Example C130_set_refuted_ex : let exe := fun f => if list_eq_dec ascii_dec f t# "/usr/local/bin//gnuplot" then true else false in
  exe (t# "/usr/local/bin/" ++ t# "/gnuplot") = true /\ exe (t# "/opt" ++ t# "/gnuplot") = false /\ exe t# "/gnuplot" = false.
Proof. exact c130_set_refuted_ex. Qed.

