(** Model of the files Visualization writes for gnuplot, and of the titles it gives them.
    /repo/subprojects/ufjfmltk-visual/include/ufjfmltk/visual/Visualization.hpp.

    One folder is modelled, a file in it is known by its name. A std::ofstream opened on a file empties it and keeps its own writing
    position (no append mode), so two streams on one file write over each other. A name with a '/' names a file in a folder that is not
    there and cannot be opened. The text of a number is an arbitrary function [show].

    Simplifications: the disk is never full; names are short enough and free of the null character; an operator<< chain that ends a word is one
    write. *)
From Coq Require Import ZArith Ascii Bool String List Arith.
From Verif Require Import Base M_Str.
Import ListNotations.
Local Open Scope nat_scope.

(** Equality of std::string (used at lines 452, 945-964). *)
Definition str_eqb (a b : str) : bool := if list_eq_dec ascii_dec a b then true else false.
(** std::find(v.begin(), v.end(), s) - v.begin() (lines 945-964). *)
Fixpoint name_pos (s : str) (l : list str) : nat :=
  match l with [] => 0 | x :: r => if str_eqb x s then 0 else S (name_pos s r) end.

(** The files of a folder, by name (Visualization.hpp:388-433, 466-480). *)
Definition folder := list (str * str).
(** Looking a file up (Visualization.hpp:471). *)
Fixpoint fget (d : folder) (n : str) : option str :=
  match d with [] => None | (m, c) :: r => if str_eqb m n then Some c else fget r n end.
(** Making or replacing a file (Visualization.hpp:395, 421). *)
Fixpoint fset (d : folder) (n c : str) : folder :=
  match d with [] => [(n, c)] | (m, x) :: r => if str_eqb m n then (m, c) :: r else (m, x) :: fset r n c end.

(** An std::ofstream: closed, or open on a file with its writing position (Visualization.hpp:391). *)
Definition stream := option (str * nat).
(** std::ofstream::open (Visualization.hpp:395, 421, 887): the file is emptied. *)
Definition open_out (d : folder) (n : str) : folder * stream :=
  if existsb (Ascii.eqb "/") n then (d, None) else (fset d n [], Some (n, 0)).
(** Bytes written over what is there from a position on (Visualization.hpp:409-411). *)
Definition overlay (c : str) (off : nat) (t : str) : str := firstn off c ++ t ++ skipn (off + List.length t) c.
(** operator<< on a stream; nothing happens on a closed one (Visualization.hpp:409-411). *)
Definition put (d : folder) (s : stream) (t : str) : folder * stream :=
  match s with
  | None => (d, None)
  | Some (n, off) =>
      match fget d n with
      | Some c => (fset d n (overlay c off t), Some (n, off + List.length t))
      | None => (d, s)
      end
  end.
(** operator<< on one of the streams of a vector (Visualization.hpp:409-411). *)
Definition put_at (st : folder * list stream) (k : nat) (t : str) : outcome (folder * list stream) :=
  let* s := vget (snd st) k in
  let '(d, s') := put (fst st) s t in
  let* l := vupd k (fun _ => s') (snd st) in
  Ok (d, l).

(** File endings and separators (Visualization.hpp:394, 421, 431). *)
Definition plt : str := list_ascii_of_string ".plt".
(** Visualization.hpp:409, 425. *)
Definition sp : str := [" "%char].
(** std::endl (Visualization.hpp:411, 427). *)
Definition nl : str := [ascii_of_nat 10].

(** Visualization.hpp:393-401: the streams, and the names of the files that could be opened. *)
Fixpoint open_all (path : str) (d : folder) (names : list str) : folder * list stream * list str :=
  match names with
  | [] => (d, [], [])
  | n :: r =>
      let '(d1, s) := open_out d (n ++ plt) in
      let '(d2, ss, fs) := open_all path d1 r in
      (d2, s :: ss, (match s with Some _ => [path ++ n ++ plt] | None => [] end) ++ fs)
  end.

(** Visualization.hpp:406-414: [idx] counts the coordinates, [n] is the dimension of the point. *)
Fixpoint put_coords {A} (show : A -> str) (n k : nat) (xs : list A) (idx : nat) (st : folder * list stream) : outcome (folder * list stream) :=
  match xs with
  | [] => Ok st
  | x :: r =>
      let* st1 := put_at st k (show x ++ (if Nat.ltb idx (n - 1) then sp else nl)) in
      put_coords show n k r (S idx) st1
  end.
(** Visualization.hpp:402-415; [class_names[class_pos]] is out of range when the label is not there. *)
Fixpoint put_points {A} (show : A -> str) (names : list str) (classes : list Z) (pts : list (list A * Z)) (st : folder * list stream) :
    outcome (folder * list stream) :=
  match pts with
  | [] => Ok st
  | p :: r =>
      let pos := find_pos (snd p) classes in
      let* _ := vget names pos in
      let* st1 := put_coords show (List.length (fst p)) pos (fst p) 0 st in
      put_points show names classes r st1
  end.
(** Visualization.hpp:388-419, createTempFiles on classification data: the files, and the names it returns. *)
Definition create_cls {A} (show : A -> str) (path : str) (names : list str) (classes : list Z) (pts : list (list A * Z)) (d : folder) :
    outcome (folder * list str) :=
  let '(d1, ss, fs) := open_all path d names in
  let* st := put_points show names classes pts (d1, ss) in
  Ok (fst st, fs).

(** Visualization.hpp:424-426: [X()[j]] for [j < dim]. *)
Fixpoint reg_coords {A} (show : A -> str) (x : list A) (j n : nat) : outcome str :=
  match n with
  | O => Ok []
  | S m => let* a := vget x j in let* r := reg_coords show x (S j) m in Ok (show a ++ sp ++ r)
  end.
(** Visualization.hpp:423-428. *)
Fixpoint reg_lines {A} (show : A -> str) (dim : nat) (pts : list (list A * A)) : outcome str :=
  match pts with
  | [] => Ok []
  | p :: r =>
      let* t := reg_coords show (fst p) 0 dim in
      let* u := reg_lines show dim r in
      Ok (t ++ show (snd p) ++ nl ++ u)
  end.
(** "samples.plt" (Visualization.hpp:421, 431). *)
Definition samples_plt : str := list_ascii_of_string "samples.plt".
(** Visualization.hpp:420-433, createTempFiles on other data; [dname] is the name of the dataset. *)
Definition create_reg {A} (show : A -> str) (path dname : str) (dim : nat) (pts : list (list A * A)) (d : folder) : outcome (folder * list str) :=
  let* t := reg_lines show dim pts in
  Ok (fset d samples_plt t, [path ++ (match dname with [] => samples_plt | _ => dname ++ plt end)]).

(** Visualization.hpp:446-450: what follows the last '.'. *)
Fixpoint ext_back (rf : str) : str :=
  match rf with [] => [] | c :: r => if Ascii.eqb c "." then [] else ext_back r ++ [c] end.
(** Visualization.hpp:438-457. *)
Definition valid_file (f : str) : bool :=
  if Nat.ltb (List.length f) 4 then false else existsb (fun t => str_eqb t (ext_back (rev f))) types.
(** Visualization.hpp:460-474, with the path in front: [ls] is what readdir gives, in its order. *)
Definition temp_files (path : str) (ls : list str) : list str := map (fun f => path ++ f) (filter valid_file ls).

(** utils::tokenize(s, c)[i] (Visualization.hpp:942-945). *)
Definition token (s : str) (c : ascii) (i : nat) : outcome str :=
  match tokenize s c with Some l => vget l i | None => UB end.
(** Visualization.hpp:940-947: the title of a file; [dec]: type == "decision". *)
Definition title_of (dec : bool) (path : str) : outcome str :=
  let* a := token path (if dec then "_" else ".")%char 0 in token a "/" 1.

(** [classes[pos]] on a Point<int>: asserted (Visualization.hpp:951, Point.hpp:247-250). *)
Definition class_at (classes : list Z) (pos : nat) : outcome Z :=
  match nth_error classes pos with Some c => Ok c | None => Abort end.
(** Visualization.hpp:948-952. *)
Definition name_lt (names : list str) (classes : list Z) (a b : str) : outcome bool :=
  let* u := class_at classes (name_pos a names) in
  let* v := class_at classes (name_pos b names) in
  Ok (Z.ltb u v).
(** Visualization.hpp:953-967. *)
Definition file_lt (dec : bool) (names : list str) (classes : list Z) (a b : str) : outcome bool :=
  let* ta := title_of dec a in
  let* tb := title_of dec b in
  name_lt names classes ta tb.

(** std::sort (Visualization.hpp:948, 953) as an insertion sort: every element is compared at least once when there are two, and with
    distinct keys every sorting algorithm gives the same list. *)
Fixpoint oinsert {A} (lt : A -> A -> outcome bool) (x : A) (l : list A) : outcome (list A) :=
  match l with
  | [] => Ok [x]
  | y :: r => let* b := lt y x in if b then (let* t := oinsert lt x r in Ok (y :: t)) else Ok (x :: l)
  end.
(** Visualization.hpp:948, 953. *)
Fixpoint osort {A} (lt : A -> A -> outcome bool) (l : list A) : outcome (list A) :=
  match l with [] => Ok [] | x :: r => let* t := osort lt r in oinsert lt x t end.
(** std::transform with a function that may fail (Visualization.hpp:940-947). *)
Fixpoint omap {A B} (f : A -> outcome B) (l : list A) : outcome (list B) :=
  match l with [] => Ok [] | x :: r => let* y := f x in let* t := omap f r in Ok (y :: t) end.
(** Visualization.hpp:936-969, sortLabels: the sorted files and the titles. *)
Definition sort_labels (dec : bool) (names : list str) (classes : list Z) (files : list str) : outcome (list str * list str) :=
  let* ts := omap (title_of dec) files in
  let* ts' := osort (name_lt names classes) ts in
  let* fs' := osort (file_lt dec names classes) files in
  Ok (fs', ts').

(** The entries of a plot command: files with their titles, the loop over [i < n - 1] and the entry after it (Visualization.hpp:615-618,
    and 689-694, 768-771, 833-836 with [n] the number of class names). [n - 1] wraps around for [n = 0]: the loop goes on until it reads out of range. *)
Definition entries (n : nat) (files titles : list str) : outcome (list (str * str)) :=
  match n with
  | O => UB
  | _ => omap (fun i => let* f := vget files i in let* t := vget titles i in Ok (f, t)) (seq 0 n)
  end.
(** plot2D (Visualization.hpp:613-618): [ls] is the listing of the folder. *)
Definition plot2D (path : str) (names : list str) (classes : list Z) (ls : list str) : outcome (list (str * str)) :=
  let* r := sort_labels false names classes (temp_files path ls) in
  entries (List.length (fst r)) (fst r) (snd r).
(** plot3D (Visualization.hpp:766-771) and the data in plot2DwithHyperplane (687-694) and plot3DwithHyperplane (831-836): the loop runs over the class names. *)
Definition plot_by_class (path : str) (names : list str) (classes : list Z) (ls : list str) : outcome (list (str * str)) :=
  let* r := sort_labels false names classes (temp_files path ls) in
  entries (List.length names) (fst r) (snd r).

(** Visualization.hpp:885-893: one file per class in the order of the classes; [None]: a file could not be opened, the function returns "". *)
Fixpoint open_dec (path ts : str) (names : list str) (i n : nat) (d : folder) : outcome (folder * option (list stream * list str)) :=
  match n with
  | O => Ok (d, Some ([], []))
  | S m =>
      let* nm := vget names i in
      let f := nm ++ list_ascii_of_string "_data" ++ ts ++ list_ascii_of_string ".dat" in
      let '(d1, s) := open_out d f in
      match s with
      | None => Ok (d1, None)
      | Some _ =>
          let* r := open_dec path ts names (S i) m d1 in
          match r with
          | (d2, Some (ss, fs)) => Ok (d2, Some (s :: ss, (path ++ f) :: fs))
          | (d2, None) => Ok (d2, None)
          end
      end
  end.
(** [data_copy(i)[j]] is asserted (Visualization.hpp:897, Point.hpp:247-250). *)
Definition coord {A} (x : list A) (j : nat) : outcome A := match nth_error x j with Some a => Ok a | None => Abort end.
(** Visualization.hpp:895-898; [showy] is the text of a label. *)
Fixpoint put_dec {A} (show : A -> str) (showy : Z -> str) (classes : list Z) (pts : list (list A * Z)) (st : folder * list stream) :
    outcome (folder * list stream) :=
  match pts with
  | [] => Ok st
  | p :: r =>
      let* a := coord (fst p) 0 in
      let* b := coord (fst p) 1 in
      let* st1 := put_at st (find_pos (snd p) classes) (show a ++ sp ++ show b ++ sp ++ showy (snd p) ++ nl) in
      put_dec show showy classes r st1
  end.
(** Visualization.hpp:880-909: the files of the classes and the entries of the command; [pts] are the two selected features. *)
Definition plot_decision {A} (show : A -> str) (showy : Z -> str) (path ts : str) (names : list str) (classes : list Z) (pts : list (list A * Z))
    (d : folder) : outcome (folder * option (list (str * str))) :=
  let* r := open_dec path ts names 0 (List.length classes) d in
  match r with
  | (d1, None) => Ok (d1, None)
  | (d1, Some (ss, fs)) =>
      let* st := put_dec show showy classes pts (d1, ss) in
      let* q := sort_labels true names classes fs in
      let* e := omap (fun i => let* f := vget (fst q) i in let* t := vget (snd q) i in Ok (f, t)) (seq 0 (List.length (fst q))) in
      Ok (fst st, Some e)
  end.
