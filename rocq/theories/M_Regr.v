(** Model of the readers for datasets whose labels are real numbers (type "Regression"): /repo/subprojects/ufjfmltk-core/include/ufjfmltk/core/Data.hpp:682-1045.
    M_Load.v and M_Load2.v have the same readers for classes. A point is the pair of its features and its label, both rationals; a file is the list of its characters.
    [None]: the reader returns false. *)
From Coq Require Import ZArith QArith Ascii Bool String List.
From Verif Require Import Base M_Data M_Str M_Load M_Load2.
Import ListNotations.
Local Open Scope nat_scope.

(** Data.hpp:198: isClassification. *)
Definition isClassification (type : string) : bool := String.eqb type "Classification" || String.eqb type "MultiClassification" || String.eqb type "BinClassification".

(** Data.hpp:772-792 with a type that is not of classification: the label is the number of the item (787). *)
Fixpoint rcsv_row (atEnd : bool) (items : list (str * bool)) (k : Z) (x : list Q) (y : Q) : outcome (list Q * Q) :=
  match items with
  | [] => Ok (x, y)
  | (item, eof) :: r =>
      if (if atEnd then negb eof else negb (Z.eqb k (-1))) then
        let* x' := (if is_number item then zset x (if atEnd then k + 1 else k)%Z (atod item) else Ok x) in
        rcsv_row atEnd r (k + 1) x' y
      else rcsv_row atEnd r (k + 1) x (atod item)
  end.
(** Data.hpp:682-802. The label of a new point is -DBL_MAX (Point.hpp:47). *)
Definition rload_csv (atEnd : bool) (file : str) : outcome (option (list (list Q * Q))) :=
  let ls := lines file in
  let deli := match ls with [] => ","%char | l :: _ => delimiter l end in
  match check_dims (map (fun l => Z.of_nat (List.length (pieces deli [] l)) - 1)%Z ls) 0%Z with
  | None => Ok None
  | Some dm =>
      if Z.ltb dm 0 then Abort
      else let* r := map_outcome (fun l => rcsv_row atEnd (pieces deli [] l) (-1) (repeat 0%Q (Z.to_nat dm)) (inject_Z y_default)) ls in Ok (Some r)
  end.

(** Data.hpp:1017-1034: without classes the label is the variable c, which is never set (938, 945, 1029-1032). *)
Fixpoint rarff_row (atEnd : bool) (items : list (str * bool)) (k : Z) (x : list Q) (y : Q) : outcome (list Q * Q) :=
  match items with
  | [] => Ok (x, y)
  | (item, eof) :: r =>
      if (if atEnd then negb eof else negb (Z.eqb k 0)) then
        let* x' := (if is_number item then zset x (k + 1)%Z (atod item) else Ok x) in
        rarff_row atEnd r (k + 1) x' y
      else rarff_row atEnd r (k + 1) x 0%Q
  end.
(** Data.hpp:933-1045, for a dataset without class names. *)
Definition rload_arff (atEnd : bool) (file : str) : outcome (option (list (list Q * Q))) :=
  let ls := lines file in
  match check_dims (map (arff_count []) ls) 0%Z with
  | None => Ok None
  | Some c =>
      if Z.eqb c 0 then Abort
      else let* r := map_outcome (fun l => rarff_row atEnd (pieces "," [] l) (-1) (repeat 0%Q (Z.to_nat (c - 1))) (inject_Z y_default)) ls in Ok (Some r)
  end.

(** Data.hpp:826-830: the items of a line that are counted. *)
Definition data_items (l : str) : list str := filter (fun p => match p with [] => false | _ => true end) (map fst (pieces " " [] l)).
(** Data.hpp:822, 830: _dim after a line. *)
Definition data_dim (l : str) : Z := (Z.of_nat (List.length (data_items l)) - 1)%Z.
(** Data.hpp:836-846: on a line after the first, the item at the place of the last item of the line before; [true]: its part before ':' has a point. *)
Definition line_type (ldim : Z) (l : str) : option bool :=
  if Z.ltb ldim 0 then None
  else match nth_error (data_items l) (Z.to_nat ldim) with
  | None => None
  | Some it => match pieces ":" [] (trim it) with [] => None | (p, _) :: _ => Some (existsb (Ascii.eqb ".") p) end
  end.
(** Data.hpp:820-859: type_detect, over the lines after the first. *)
Fixpoint detect (ldim : Z) (ls : list str) : option bool :=
  match ls with
  | [] => None
  | l :: r => match line_type ldim l with Some b => Some b | None => detect (data_dim l) r end
  end.
(** Data.hpp:839-846: is the type "Regression" after the first pass? [before]: the type given is not one of classification. *)
Definition data_regression (before : bool) (ls : list str) : bool :=
  match ls with
  | [] => before
  | l :: r => match detect (data_dim l) r with Some b => b | None => before end
  end.
(** Data.hpp:886-919. *)
Fixpoint rdata_row (regr : bool) (items : list str) (k : Z) (x : list Q) (y : Q) (fn : list Z) (s : cstate) : outcome (list Q * Q * list Z * cstate) :=
  match items with
  | [] => Ok (x, y, fn, s)
  | it :: r =>
      let item := trim it in
      if existsb (Ascii.eqb ":") item then
        let* (k', x', fn') := data_item (pieces ":" [] item) false k x fn in
        rdata_row regr r k' x' y fn' s
      else if regr then rdata_row regr r k x (atod item) fn s
      else
        let* (c, s') := process_class s item in
        rdata_row regr r k x (inject_Z c) fn s'
  end.
(** Data.hpp:876-920. *)
Fixpoint rdata_rows (regr : bool) (dm : nat) (ls : list str) (fn : list Z) (s : cstate) : outcome (list (list Q * Q) * list Z * cstate) :=
  match ls with
  | [] => Ok ([], fn, s)
  | l :: r =>
      let* (x, y, fn1, s1) := rdata_row regr (map fst (pieces " " [] l)) 0 (repeat 0%Q dm) (inject_Z y_default) fn s in
      let* (pts, fn2, s2) := rdata_rows regr dm r fn1 s1 in
      Ok ((x, y) :: pts, fn2, s2)
  end.
(** What the reader leaves in the dataset. Data.hpp:78-108. *)
Record rdata := mkRd { rd_points : list (list Q * Q); rd_fnames : list Z; rd_classes : cstate; rd_type : string }.
(** Data.hpp:805-931: at the end the type is set again (922-926). *)
Definition rload_data (before : bool) (s0 : cstate) (file : str) : outcome (option rdata) :=
  let ls := lines file in
  match check_dims (map data_dim ls) 0%Z with
  | None => Ok None
  | Some dm =>
      if Z.ltb dm 0 then Abort
      else
        let n := Z.to_nat dm in
        let* (pts, fn, s) := rdata_rows (data_regression before ls) n ls (iota 1 n) s0 in
        Ok (Some (mkRd pts fn s (if Nat.eqb (List.length (cs_classes s)) 2 then "BinClassification" else "MultiClassification")%string))
  end.
