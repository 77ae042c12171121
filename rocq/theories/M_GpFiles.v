(** Model of the temporary files of the gnuplot sessions of a process, and of the search for the gnuplot program.
    /repo/subprojects/ufjfmltk-visual/include/ufjfmltk/visual/gnuplot_i.hpp, /repo/subprojects/ufjfmltk-visual/src/gnuplot_i.cpp.

    Numbers are the texts the stream writes for them. A file is its lines, a line its numbers. mkstemp is an oracle: [nm n] is the name of the
    [n]-th temporary file made. Failures of mkstemp and of opening the file are left out. *)
From Coq Require Import Ascii String ZArith List Bool Arith.
From Verif Require Import Base Loop M_Str M_Data M_Gp.
Import ListNotations.
Local Open Scope nat_scope.

(** tmpfile_num (gnuplot_i.cpp:38, one for all sessions), the files, and for every session ever opened its tmpfile_list, [None] once destroyed
    (gnuplot_i.hpp:71-117). [p_made]: the temporary files made so far, for the oracle. *)
Record proc := mkP { p_num : Z; p_disk : list (str * list (list str)); p_tmp : list (option (list str)); p_made : nat }.
(** A process with no session (gnuplot_i.cpp:38). *)
Definition proc0 : proc := mkP 0 [] [] 0.

(** The list with its entry [k] replaced (gnuplot_i.cpp:1193). *)
Fixpoint put {A : Type} (k : nat) (x : A) (l : list A) : list A :=
  match l, k with [], _ => [] | _ :: r, 0 => x :: r | y :: r, S k' => y :: put k' x r end.
(** Is [n] one of the names of [l] (gnuplot_i.cpp:1202-1203)? *)
Definition named (l : list str) (n : str) : bool := existsb (fun m => if list_eq_dec ascii_dec m n then true else false) l.
(** create_tmpfile (gnuplot_i.cpp:1133-1197) for session [k], whose list is [l], and the writing of [rows]; [None]: it throws. GP_MAX_TMP_FILES is 64 (gnuplot_i.hpp:53). *)
Definition make_file (nm : nat -> str) (p : proc) (k : nat) (l : list str) (rows : list (list str)) : option proc :=
  if Z.eqb (p_num p) 63 then None
  else let name := nm (p_made p) in
    Some (mkP (p_num p + 1) (p_disk p ++ [(name, rows)]) (put k (Some (l ++ [name])) (p_tmp p)) (S (p_made p))).

(** The line [i] of the columns [cols]; an absent entry is an access beyond the end of a vector (gnuplot_i.hpp:495-496, 539-540, 585-586, 633-634). *)
Definition row (cols : list (list str)) (i : nat) : outcome (list str) :=
  map_outcome (fun c => match nth_error c i with Some x => Ok x | None => UB end) cols.
(** The lines plot_image writes: for each row of the picture, for each column, the two indices and the next value of the buffer, whose index runs on
    (gnuplot_i.cpp:849-858). *)
Definition pixels (num : nat -> str) (buf : list str) (w h : nat) : outcome (list (list str)) :=
  let* r := ofold (fun s y => ofold (fun t x => match nth_error buf (fst t) with
                                              | Some v => Ok (S (fst t), snd t ++ [[num x; num y; v]])
                                              | None => UB
                                              end) (seq 0 w) s) (seq 0 h) (0, []) in
  Ok (snd r).
(** Calls: a new session, the end of session [k], plot_x / plot_xy / plot_xy_err / plot_xyz on [k] with the columns given, plot_image, remove_tmpfiles. *)
Inductive fcall := New | Close (k : nat) | Data (k : nat) (cols : list (list str)) | Pixels (k w h : nat) (buf : list str) (num : nat -> str) | Remove (k : nat).

(** The checks before a file is made: no column is empty and all have the length of the first (gnuplot_i.hpp:481-485, 517-528, 564-575, 611-622). *)
Definition checks (cols : list (list str)) : bool :=
  forallb (fun c => negb (Nat.eqb (List.length c) 0)) cols && forallb (fun c => Nat.eqb (List.length c) (List.length (hd [] cols))) cols.

(** One call; [true]: it returned, [false]: it threw. *)
Definition fstep (nm : nat -> str) (p : proc) (c : fcall) : outcome (proc * bool) :=
  match c with
  | New => Ok (mkP (p_num p) (p_disk p) (p_tmp p ++ [Some []]) (p_made p), true)                   (* gnuplot_i.cpp:60-66 *)
  | Close k =>                                                                                     (* gnuplot_i.cpp:192-205: remove_tmpfiles is commented out *)
      match nth_error (p_tmp p) k with Some (Some _) => Ok (mkP (p_num p) (p_disk p) (put k None (p_tmp p)) (p_made p), true) | _ => UB end
  | Data k cols =>                                                                                 (* gnuplot_i.hpp:480-505, 515-549, 560-596, 607-643 *)
      match nth_error (p_tmp p) k with
      | Some (Some l) =>
          if checks cols then
            let* rows := map_outcome (row cols) (seq 0 (List.length (hd [] cols))) in
            Ok (match make_file nm p k l rows with Some p' => (p', true) | None => (p, false) end)
          else Ok (p, false)
      | _ => UB
      end
  | Pixels k w h buf num =>                                                                        (* gnuplot_i.cpp:836-861; [num]: the text of an index *)
      match nth_error (p_tmp p) k with
      | Some (Some l) =>
          if Z.eqb (p_num p) 63 then Ok (p, false) else
          let* rows := pixels num buf w h in
          Ok (match make_file nm p k l rows with Some p' => (p', true) | None => (p, false) end)
      | _ => UB
      end
  | Remove k =>                                                                                    (* gnuplot_i.cpp:1199-1207: the list is kept *)
      match nth_error (p_tmp p) k with
      | Some (Some l) => Ok (mkP (p_num p - Z.of_nat (List.length l))
                                 (filter (fun f => negb (named l (fst f))) (p_disk p)) (p_tmp p) (p_made p), true)
      | _ => UB
      end
  end.
(** A sequence of calls, with what each did. *)
Fixpoint frun (nm : nat -> str) (p : proc) (cs : list fcall) : outcome (proc * list bool) :=
  match cs with
  | [] => Ok (p, [])
  | c :: cs' => let* r := fstep nm p c in let* q := frun nm (fst r) cs' in Ok (fst q, snd r :: snd q)
  end.

(** stringtok with one delimiter (gnuplot_i.hpp:709-742): [cur] is the token being read, reversed. *)
Fixpoint toks (d : ascii) (cur : str) (s : str) : list str :=
  match s with
  | [] => match cur with [] => [] | _ => [rev cur] end
  | c :: s' => if Ascii.eqb c d then match cur with [] => toks d [] s' | _ => rev cur :: toks d [] s' end else toks d (c :: cur) s'
  end.
(** gnuplot_i.hpp:709-742. *)
Definition stringtok (d : ascii) (s : str) : list str := toks d [] s.

(** The program in a directory (gnuplot_i.cpp:1005-1006, 1044). *)
Definition prog (dir : str) : str := dir ++ t# "/gnuplot".
(** get_program_path (gnuplot_i.cpp:1002-1068): the directory kept in m_sGNUPlotPath afterwards, and whether the program was found; otherwise it throws. [exe]: which
    files can be executed; [path]: the variable PATH. *)
Definition get_program_path (exe : str -> bool) (path : option str) (dir : str) : str * bool :=
  if exe (prog dir) then (dir, true) else
  match path with
  | None => (dir, false)
  | Some p => match List.find (fun d => exe (prog d)) (stringtok ":"%char p) with Some d => (d, true) | None => (dir, false) end
  end.
(** set_GNUPlotPath (gnuplot_i.cpp:140-161). *)
Definition set_path (exe : str -> bool) (d : str) : str * bool := if exe (prog d) then (d, true) else ([], false).
