(** Model of reading and writing datasets: Data<T>::process_class, load_csv, load_data and write (load_txt and load_arff are in M_Load2.v)
    (/repo/subprojects/ufjfmltk-core/include/ufjfmltk/core/Data.hpp).

    A file is the list of its characters (opening it does not fail). Features are read as rationals (the rounding of atod to double is left out) and written as
    exact decimals. Only classification data are covered: the label of a regression file is a double, which the integer
    label of the model cannot hold. Console output, dataset_name, pos_class and neg_class (which do not change the result) are left out. *)
From Coq Require Import ZArith QArith Ascii Bool String List.
From Verif Require Import Base M_Data M_Str Loop.
Import ListNotations.
Local Open Scope nat_scope.

(** std::getline(stream, item, c) until it fails: each piece with eof() after reading it (the end was met before a delimiter). Data.hpp:718, 772, 826, 888. *)
Fixpoint pieces (c : ascii) (cur s : str) : list (str * bool) :=
  match s with
  | [] => match cur with [] => [] | _ => [(cur, true)] end
  | x :: r => if Ascii.eqb x c then (cur, false) :: pieces c [] r else pieces c (cur ++ [x]) r
  end.
(** The delimiter of std::getline(input, str), Data.hpp:699, 761. *)
Definition newline : ascii := ascii_of_nat 10.
(** Data.hpp:699-700, 761-762, 819-820, 878-879. *)
Definition lines (s : str) : list str := map (fun p => trim (fst p)) (pieces newline [] s).

(** std::find on class_names: the length when absent. Data.hpp:1137-1180. *)
Fixpoint find_name (n : string) (l : list string) : nat :=
  match l with [] => O | x :: r => if String.eqb x n then O else S (find_name n r) end.

(** std::stoi: throws when there are no digits or the value is not an int. Data.hpp:1137-1180. *)
Definition stoi (s : str) : outcome Z :=
  let s0 := from_first (fun c => negb (isspace c)) s in
  let neg := match s0 with c :: _ => Ascii.eqb c "-" | [] => false end in
  let s1 := match s0 with c :: r => if Ascii.eqb c "+" || Ascii.eqb c "-" then r else s0 | [] => [] end in
  match s1 with
  | c :: _ =>
      if isdigit c then
        let v := fst (fst (digits false s1 0%Z 1%positive)) in
        let z := if neg then (- v)%Z else v in
        if int_ok z then Ok z else Abort
      else Abort
  | [] => Abort
  end.

(** Class bookkeeping: class_names, m_classes, class_distribution. Data.hpp:78-108. *)
Record cstate := mkCs { cs_names : list string; cs_classes : list Z; cs_dist : list Z }.

(** Data.hpp:1137-1180. numeric_limits<int>::infinity() is 0. *)
Definition process_class (s : cstate) (item : str) : outcome (Z * cstate) :=
  let pos := find_name (string_of_list_ascii item) (cs_names s) in
  let it := filter (fun c => negb (isspace c)) item in
  let name := string_of_list_ascii it in
  match it with
  | [] => Ok (0%Z, s)
  | _ =>
      let* (c, names) :=
        (if Nat.eqb pos (List.length (cs_names s)) then
          let names := cs_names s ++ [name] in
          let* c := (if Nat.eqb (find_name "-1" names) (List.length names) then
                       if is_number it then stoi it else Ok (Z.of_nat (find_name name names) + 1)%Z
                     else Ok 1%Z) in
          Ok (if String.eqb name "-1" then (-1)%Z else c, names)
        else
          let* c := (if is_number it then stoi it else Ok (Z.of_nat pos + 1)%Z) in
          Ok (c, cs_names s)) in
      let known := Nat.ltb (find_pos c (cs_classes s)) (List.length (cs_classes s)) in
      let classes := if known then cs_classes s else cs_classes s ++ [c] in
      let dist := if known then cs_dist s else cs_dist s ++ [0%Z] in
      let* dist' := vupd (find_pos c classes) (fun k => wrap64 (k + 1)) dist in
      Ok (c, mkCs names classes dist')
  end.

(** Point.hpp:47: the label of a new point is -DBL_MAX. *)
Definition y_default : Z := (- (2 ^ 1024 - 2 ^ 971))%Z.

(** The fields set by every reader once the points are read (Data.hpp:747-759, 799 and the like); [load] sets
    cdist_computed (632). *)
Definition loaded (d : data Q) (dm : nat) (fn : list Z) (pts : list (point Q)) (s : cstate) : data Q :=
  mkData pts fn (iota 0 (List.length pts)) (cs_names s) (cs_classes s) (cs_dist s) (List.length pts) dm false (d_normalized d) true (d_class d).
(** Data.hpp:78-108. *)
Definition cstate_of (d : data Q) : cstate := mkCs (d_cnames d) (d_classes d) (d_dist d).

(** [v[i] = a] where the index is an int. Data.hpp:780, 907, 911. *)
Definition zset {A} (v : list A) (i : Z) (a : A) : outcome (list A) :=
  if Z.ltb i 0 then UB else vupd (Z.to_nat i) (fun _ => a) v.

(** The first pass of load_csv, Data.hpp:699-742: [None] when the dimensions differ. *)
Fixpoint check_dims (counts : list Z) (ldim : Z) : option Z :=
  match counts with
  | [] => Some ldim
  | c :: r => if negb (Z.eqb ldim c) && negb (Z.eqb ldim 0) then None else check_dims r c
  end.
(** Data.hpp:706-716: the delimiter is the first ',' or ';' of the first line. *)
Fixpoint delimiter (s : str) : ascii :=
  match s with [] => ","%char | c :: r => if Ascii.eqb c "," then ","%char else if Ascii.eqb c ";" then ";"%char else delimiter r end.

(** Data.hpp:772-792: one line of load_csv; [k] is _dim. *)
Fixpoint csv_row (atEnd : bool) (items : list (str * bool)) (k : Z) (x : list Q) (y : Z) (s : cstate) : outcome (list Q * Z * cstate) :=
  match items with
  | [] => Ok (x, y, s)
  | (item, eof) :: r =>
      if (if atEnd then negb eof else negb (Z.eqb k (-1))) then
        let* x' := (if is_number item then zset x (if atEnd then k + 1 else k)%Z (atod item) else Ok x) in
        csv_row atEnd r (k + 1) x' y s
      else
        let* (c, s') := process_class s item in
        csv_row atEnd r (k + 1) x c s'
  end.
(** Data.hpp:761-797. *)
Fixpoint csv_rows (atEnd : bool) (deli : ascii) (dm : nat) (ls : list str) (id : Z) (s : cstate) : outcome (list (point Q) * cstate) :=
  match ls with
  | [] => Ok ([], s)
  | l :: r =>
      let* (x, y, s1) := csv_row atEnd (pieces deli [] l) (-1) (repeat 0%Q dm) y_default s in
      let* t := csv_rows atEnd deli dm r (id + 1) s1 in
      Ok (mkPoint x y id 0%Q :: fst t, snd t)
  end.
(** Data.hpp:682-802. A negative dimension (an empty line) makes fnames.assign throw. *)
Definition load_csv (atEnd : bool) (d : data Q) (file : str) : outcome (data Q * bool) :=
  let ls := lines file in
  let deli := match ls with [] => ","%char | l :: _ => delimiter l end in
  match check_dims (map (fun l => Z.of_nat (List.length (pieces deli [] l)) - 1)%Z ls) 0%Z with
  | None => Ok (d, false)
  | Some dm =>
      if Z.ltb dm 0 then Abort
      else
        let n := Z.to_nat dm in
        let* r := csv_rows atEnd deli n ls 1 (cstate_of d) in
        Ok (loaded d n (iota 1 n) (fst r) (snd r), true)
  end.

(** Data.hpp:889-916: name and value pieces of one item "name:value" of a .data line. *)
Fixpoint data_item (ps : list (str * bool)) (value : bool) (k : Z) (x : list Q) (fn : list Z) : outcome (Z * list Q * list Z) :=
  match ps with
  | [] => Ok (k, x, fn)
  | (p, _) :: r =>
      let p' := filter (fun c => negb (Ascii.eqb c (ascii_of_nat 13))) p in
      if value then
        if is_number p' then let* x' := zset x k (atod p') in data_item r false (k + 1) x' fn
        else data_item r false k x fn
      else
        let* f := stoin p' in
        let* fn' := zset fn k f in
        data_item r true k x fn'
  end.
(** Data.hpp:880-919: one line of load_data; an item without ':' is a class (also an empty one, between two blanks). *)
Fixpoint data_row (items : list str) (k : Z) (x : list Q) (y : Z) (fn : list Z) (s : cstate) : outcome (list Q * Z * list Z * cstate) :=
  match items with
  | [] => Ok (x, y, fn, s)
  | it :: r =>
      let item := trim it in
      if existsb (Ascii.eqb ":") item then
        let* (k', x', fn') := data_item (pieces ":" [] item) false k x fn in
        data_row r k' x' y fn' s
      else
        let* (c, s') := process_class s item in
        data_row r k x c fn s'
  end.
(** Data.hpp:878-920. *)
Fixpoint data_rows (dm : nat) (ls : list str) (id : Z) (fn : list Z) (s : cstate) : outcome (list (point Q) * list Z * cstate) :=
  match ls with
  | [] => Ok ([], fn, s)
  | l :: r =>
      let* (x, y, fn1, s1) := data_row (map fst (pieces " " [] l)) 0 (repeat 0%Q dm) y_default fn s in
      let* (pts, fn2, s2) := data_rows dm r (id + 1) fn1 s1 in
      Ok (mkPoint x y id 0%Q :: pts, fn2, s2)
  end.
(** Data.hpp:805-931. The type is set to "BinClassification" or "MultiClassification" at the end; before that the
    value of the last item of the second line decides between classification and regression: this function covers files where it is
    classification; M_Regr.v has the others. *)
Definition load_data (d : data Q) (file : str) : outcome (data Q * bool) :=
  let ls := lines file in
  match check_dims (map (fun l => Z.of_nat (List.length (filter (fun p => match fst p with [] => false | _ => true end) (pieces " " [] l))) - 1)%Z ls) 0%Z with
  | None => Ok (d, false)
  | Some dm =>
      if Z.ltb dm 0 then Abort
      else
        let n := Z.to_nat dm in
        let* (pts, fn, s) := data_rows n ls 1 (iota 1 n) (cstate_of d) in
        Ok (loaded d n fn pts s, true)
  end.

(** ** Writing *)

(** [m / 10^k]: every double is such a decimal. *)
Record decimal := mkDec { mant : Z; scale : nat }.
(** The value of a decimal, the reading of what Data.hpp:1214-1249 writes. *)
Definition dec_Q (v : decimal) : Q := (inject_Z (mant v) / inject_Z (10 ^ Z.of_nat (scale v)))%Q.

(** The digits of operator<< for numbers (Data.hpp:1214-1249). *)
Definition int_digits (a : Z) : outcome str := let* r := itos_digits (S (Z.to_nat (Z.log2 a))) a in Ok (rev r).
(** Part of the %g format (Data.hpp:1214-1249). *)
Fixpoint drop_zeros (s : str) : str := match s with c :: r => if Ascii.eqb c "0" then drop_zeros r else s | [] => [] end.
(** Part of the %g format: trailing zeros are dropped (Data.hpp:1214-1249). *)
Definition strip_zeros (s : str) : str := rev (drop_zeros (rev s)).
(** operator<<(ostream&, double) with the default format: %g with six significant digits. Data.hpp:1226-1246. *)
Definition fmt_g (v : decimal) : outcome str :=
  if Z.eqb (mant v) 0 then Ok ["0"%char]
  else
    let a := Z.abs (mant v) in
    let sg := if Z.ltb (mant v) 0 then ["-"%char] else [] in
    let* ds := int_digits a in
    let e := (List.length ds - 6)%nat in
    let p := (10 ^ Z.of_nat e)%Z in
    let q := (a / p)%Z in
    let r := (a mod p)%Z in
    let q' := if Z.ltb p (2 * r) || (Z.eqb (2 * r) p && Z.odd q) then (q + 1)%Z else q in
    let* ds1 := int_digits q' in
    let x := (Z.of_nat (List.length ds1) - 1 + Z.of_nat e - Z.of_nat (scale v))%Z in
    let sig := strip_zeros ds1 in
    if Z.leb (-4) x && Z.ltb x 6 then
      if Z.leb 0 x then
        let j := S (Z.to_nat x) in
        let fp := skipn j sig in
        Ok (sg ++ firstn j (sig ++ repeat "0"%char j) ++ (match fp with [] => [] | _ => "."%char :: fp end))
      else Ok (sg ++ ["0"; "."]%char ++ repeat "0"%char (Z.to_nat (- x - 1)) ++ sig)
    else
      let* ex := int_digits (Z.abs x) in
      Ok (sg ++ firstn 1 sig ++ (match skipn 1 sig with [] => [] | f => "."%char :: f end) ++
          ["e"%char; if Z.ltb x 0 then "-"%char else "+"%char] ++ repeat "0"%char (2 - List.length ex) ++ ex).
(** operator<<(ostream&, int). Data.hpp:1236, 1238. *)
Definition fmt_int (z : Z) : outcome str :=
  if Z.eqb z 0 then Ok ["0"%char] else let* ds := int_digits (Z.abs z) in Ok ((if Z.ltb z 0 then ["-"%char] else []) ++ ds).
(** The label, a double. Data.hpp:1228, 1234, 1240. *)
Definition fmt_label (y : Z) : outcome str := fmt_g (mkDec y 0).

(** Data.hpp:1239-1245: one line of a .csv file. With no features m_dim-1 wraps around and the values are read out of bounds. *)
Definition csv_line (dm : nat) (p : point decimal) : outcome str :=
  let* y := fmt_label (p_y p) in
  match dm with
  | O => UB
  | S j =>
      let* fs := map_outcome (fun i => let* v := vget (p_x p) i in fmt_g v) (seq 0 j) in
      let* v := vget (p_x p) j in
      let* f := fmt_g v in
      Ok (y ++ ","%char :: concat (map (fun t => t ++ [","%char]) fs) ++ f ++ [newline])
  end.
(** Data.hpp:1233-1238: one line of a .data file. *)
Definition data_line (dm : nat) (fn : list Z) (p : point decimal) : outcome str :=
  let* y := fmt_label (p_y p) in
  let item := fun i => let* f := vget fn i in let* v := vget (p_x p) i in let* n := fmt_int f in let* t := fmt_g v in
                       Ok (n ++ ":"%char :: t) in
  match dm with
  | O => UB
  | S j =>
      let* fs := map_outcome item (seq 0 j) in
      let* t := item j in
      Ok (y ++ " "%char :: concat (map (fun t => t ++ [" "%char]) fs) ++ t ++ [newline])
  end.
(** Data.hpp:1214-1249. *)
Definition write_csv (d : data decimal) : outcome str :=
  let* ls := map_outcome (fun i => let* p := vget (d_points d) i in csv_line (dim d) p) (seq 0 (d_size d)) in Ok (concat ls).
(** Data.hpp:1214-1249 with the extension data. *)
Definition write_data (d : data decimal) : outcome str :=
  let* ls := map_outcome (fun i => let* p := vget (d_points d) i in data_line (dim d) (d_fnames d) p) (seq 0 (d_size d)) in Ok (concat ls).
