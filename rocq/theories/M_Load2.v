(** Model of the readers of .arff and .txt files and of load: Data.hpp:628-679, 933-1135
    (/repo/subprojects/ufjfmltk-core/include/ufjfmltk/core/Data.hpp). Conventions of M_Load.v: a file is the list of its characters, features are
    rationals, the dataset is one of classification. *)
From Coq Require Import ZArith QArith Ascii Bool String List.
From Verif Require Import Base M_Data M_Str M_Load M_Eq.
Import ListNotations.
Local Open Scope nat_scope.

(** Data.hpp:958-978: the items of a line that are counted: one that is no number but already the name of a class is not.
    What is decided about the place of the class (967-976) is not used. *)
Definition arff_count (names : list string) (l : str) : Z :=
  Z.of_nat (List.length (filter (fun p => is_number (fst p) || Nat.eqb (find_name (string_of_list_ascii (fst p)) names) (List.length names))
                                (pieces "," [] l))).
(** Data.hpp:1017-1034: one line; [k] is _dim. With the class not at the end it is taken from the second column. *)
Fixpoint arff_row (atEnd : bool) (items : list (str * bool)) (k : Z) (x : list Q) (y : Z) (s : cstate) : outcome (list Q * Z * cstate) :=
  match items with
  | [] => Ok (x, y, s)
  | (item, eof) :: r =>
      if (if atEnd then negb eof else negb (Z.eqb k 0)) then
        let* x' := (if is_number item then zset x (k + 1)%Z (atod item) else Ok x) in
        arff_row atEnd r (k + 1) x' y s
      else
        let* (c, s') := process_class s item in
        arff_row atEnd r (k + 1) x c s'
  end.
(** Data.hpp:1007-1039. *)
Fixpoint arff_rows (atEnd : bool) (dm : nat) (ls : list str) (id : Z) (s : cstate) : outcome (list (point Q) * cstate) :=
  match ls with
  | [] => Ok ([], s)
  | l :: r =>
      let* (x, y, s1) := arff_row atEnd (pieces "," [] l) (-1) (repeat 0%Q dm) y_default s in
      let* t := arff_rows atEnd dm r (id + 1) s1 in
      Ok (mkPoint x y id 0%Q :: fst t, snd t)
  end.
(** Data.hpp:933-1045. A file without items makes fnames.assign(-1, 0) throw. *)
Definition load_arff (atEnd : bool) (d : data Q) (file : str) : outcome (data Q * bool) :=
  let ls := lines file in
  match check_dims (map (arff_count (d_cnames d)) ls) 0%Z with
  | None => Ok (d, false)
  | Some c =>
      if Z.eqb c 0 then Abort
      else
        let n := Z.to_nat (c - 1) in
        let* r := arff_rows atEnd n ls 1 (cstate_of d) in
        Ok (loaded d n (iota 1 n) (fst r) (snd r), true)
  end.

(** Data.hpp:1063-1085: the first pass; [None] when two lines differ in dimension. *)
Fixpoint txt_dims (counts : list nat) (first : bool) (d : nat) : option nat :=
  match counts with
  | [] => Some d
  | c :: r => if negb first && negb (Nat.eqb c d) then None else txt_dims r false c
  end.
(** Data.hpp:1112-1123: one line; the id read at 1118-1120 is overwritten at 1126. *)
Fixpoint txt_row (items : list (str * bool)) (n : Z) (x : list Q) (y : Z) : outcome (list Q * Z) :=
  match items with
  | [] => Ok (x, y)
  | (item, _) :: r =>
      if Z.leb 2 n then
        let* x' := (if is_number item then zset x (n - 2)%Z (atod item) else Ok x) in
        txt_row r (n + 1) x' 0%Z
      else txt_row r (n + 1) x y
  end.
(** Data.hpp:1102-1128. *)
Fixpoint txt_rows (dm : nat) (ls : list str) (id : Z) : outcome (list (point Q)) :=
  match ls with
  | [] => Ok []
  | l :: r =>
      let* (x, y) := txt_row (pieces " " [] l) 0 (repeat 0%Q dm) y_default in
      let* t := txt_rows dm r (id + 1) in
      Ok (mkPoint x y id 0%Q :: t)
  end.
(** Data.hpp:1047-1133. *)
Definition load_txt (d : data Q) (file : str) : outcome (data Q * bool) :=
  let ls := lines file in
  match txt_dims (map (fun l => List.length (pieces " " [] l) - 2) ls) true 0 with
  | None => Ok (d, false)
  | Some n =>
      let* pts := txt_rows n ls 1 in
      Ok (loaded d n (iota 1 n) pts (cstate_of d), true)
  end.

(** Data.hpp:629-632, 656-659: cdist_computed is set whatever comes of the reading. *)
Definition counted (d : data Q) : data Q :=
  mkData (d_points d) (d_fnames d) (d_index d) (d_cnames d) (d_classes d) (d_dist d) (d_size d) (d_dim d) (d_isempty d) (d_normalized d) true (d_class d).
(** Data.hpp:628-679: load(file) ([atEnd] is [None]) and load(file, atEnd); [text] is the content of the file. The result carries dataset_name. *)
Definition load (atEnd : option bool) (d : data Q) (path text : str) : outcome (data Q * str * bool) :=
  let* t := identifyFileType path in
  let* name := dataset_name path in
  let d0 := counted d in
  let last := match atEnd with Some b => b | None => match t with TYPE_ARFF => true | _ => false end end in
  let* (d', ok) := match t with
                   | TYPE_ARFF => load_arff last d0 text
                   | TYPE_CSV => load_csv last d0 text
                   | TYPE_DATA => load_data d0 text
                   | TYPE_TXT => load_txt d0 text
                   | TYPE_INVALID => Ok (d0, false)
                   end in
  Ok (d', name, ok).
(** Data.hpp:1227-1232: one line of a .plt file. *)
Definition plt_line (dm : nat) (p : point decimal) : outcome str :=
  let* y := fmt_label (p_y p) in
  match dm with
  | O => UB
  | S j =>
      let* fs := map_outcome (fun i => let* v := vget (p_x p) i in fmt_g v) (seq 0 j) in
      let* v := vget (p_x p) j in
      let* f := fmt_g v in
      Ok (y ++ " "%char :: concat (map (fun t => t ++ [" "%char]) fs) ++ f ++ [newline])
  end.
(** Data.hpp:1214-1249: write(fname, ext): the path of the file and its content; with another extension the file is empty. *)
Definition write (d : data decimal) (fname ext : str) : outcome (str * str) :=
  let* text := (if String.eqb (string_of_list_ascii ext) "plt" then
                  let* ls := map_outcome (fun i => let* p := vget (d_points d) i in plt_line (dim d) p) (seq 0 (d_size d)) in Ok (concat ls)
                else if String.eqb (string_of_list_ascii ext) "data" then write_data d
                else if String.eqb (string_of_list_ascii ext) "csv" then write_csv d
                else Ok []) in
  Ok (fname ++ "."%char :: ext, text).
