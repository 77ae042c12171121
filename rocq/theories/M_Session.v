(** Model of the settings a plot is drawn with: the configuration kept by a Visualization object, the commands it sends, and the gnuplot session
    that receives them. /repo/subprojects/ufjfmltk-visual/include/ufjfmltk/visual/Visualization.hpp.

    The session is the list of its settings: "set k v" changes setting [k] until it is set again (gnuplot's own behaviour). Texts are
    strings; the data and functions of a plot command are one arbitrary text. An empty configuration entry is "". *)
From Coq Require Import Ascii String List Bool.
From Verif Require Import Base M_Str.
Import ListNotations.

(** The gnuplot settings used (Visualization.hpp:988-1017, 912-916; [Surface]: pm3d, cbrange, cbtics and palette, set together). *)
Inductive key := Terminal | Output | Title | XRange | YRange | ZRange | XLabel | YLabel | ZLabel | Surface.
(** Equality of settings (Visualization.hpp:988-1017). *)
Definition key_eqb (a b : key) : bool :=
  match a, b with
  | Terminal, Terminal | Output, Output | Title, Title | XRange, XRange | YRange, YRange | ZRange, ZRange
  | XLabel, XLabel | YLabel, YLabel | ZLabel, ZLabel | Surface, Surface => true
  | _, _ => false
  end.
(** A session (Visualization.hpp:1126-1131): [None] is gnuplot's default. *)
Definition session := key -> option str.
(** A fresh gnuplot process (Visualization.hpp:1129). *)
Definition fresh : session := fun _ => None.
(** "set k v" (Visualization.hpp:988-1017). *)
Definition set1 (s : session) (kv : key * str) : session := fun k => if key_eqb (fst kv) k then Some (snd kv) else s k.
(** The set commands of one text, in order (Visualization.hpp:1127). *)
Definition sets (s : session) (l : list (key * str)) : session := fold_left set1 l s.

(** The member configs (Visualization.hpp:44, 973-982). *)
Record config := mkC { c_save : bool; c_name : str; c_format : str; c_term : str; c_title : str;
  c_xr : str; c_yr : str; c_zr : str; c_xl : str; c_yl : str; c_zl : str }.
(** Visualization.hpp:328, 340: a new object. *)
Definition config0 : config := mkC false [] [] (list_ascii_of_string "wxt") [] [] [] [] [] [] [].
(** Visualization.hpp:105. *)
Definition setTerminal (c : config) (t : str) : config :=
  mkC (c_save c) (c_name c) (c_format c) t (c_title c) (c_xr c) (c_yr c) (c_zr c) (c_xl c) (c_yl c) (c_zl c).
(** Visualization.hpp:370-372. *)
Definition setTitle (c : config) (t : str) : config :=
  mkC (c_save c) (c_name c) (c_format c) (c_term c) t (c_xr c) (c_yr c) (c_zr c) (c_xl c) (c_yl c) (c_zl c).

(** What the caller of a plot function gives, with the ranges configureRange computes for it ([]: that axis has no range; Visualization.hpp:1055-1115). *)
Record options := mkO { o_save : bool; o_name : str; o_format : str; o_title : str; o_xl : str; o_yl : str; o_zl : str;
  o_xr : str; o_yr : str; o_zr : str }.
(** Visualization.hpp:973-982. *)
Definition configurePlot (c : config) (o : options) : config :=
  mkC (o_save o) (o_name o) (o_format o) (c_term c) (o_title o) (c_xr c) (c_yr c) (c_zr c) (o_xl o) (o_yl o) (o_zl o).
(** An entry is only written when there is a value (Visualization.hpp:1058-1080, 1089-1112). *)
Definition keep_or (old new : str) : str := match new with [] => old | _ => new end.
(** Visualization.hpp:1055-1115, the entries it writes. *)
Definition configureRange (c : config) (o : options) : config :=
  mkC (c_save c) (c_name c) (c_format c) (c_term c) (c_title c) (keep_or (c_xr c) (o_xr o)) (keep_or (c_yr c) (o_yr o)) (keep_or (c_zr c) (o_zr o))
      (c_xl c) (c_yl c) (c_zl c).

(** One setting, when the entry is not empty (Visualization.hpp:995-1018). *)
Definition unless_empty (k : key) (v : str) : list (key * str) := match v with [] => [] | _ => [(k, v)] end.
(** Visualization.hpp:985-1019: the commands, and the configuration without its ranges. *)
Definition fetchConfigs (c : config) : list (key * str) * config :=
  ((if c_save c then [(Terminal, c_format c); (Output, c_name c ++ "."%char :: c_format c)]
    else match c_term c with [] => [(Terminal, list_ascii_of_string "x11")] | t => [(Terminal, t)] end)
   ++ unless_empty Title (c_title c) ++ unless_empty XRange (c_xr c) ++ unless_empty YRange (c_yr c) ++ unless_empty ZRange (c_zr c)
   ++ unless_empty XLabel (c_xl c) ++ unless_empty YLabel (c_yl c) ++ unless_empty ZLabel (c_zl c),
   mkC (c_save c) (c_name c) (c_format c) (c_term c) (c_title c) [] [] [] (c_xl c) (c_yl c) (c_zl c)).

(** A text sent to gnuplot, or returned: settings, then the plot itself (Visualization.hpp:1124). *)
Record command := mkCmd { set_part : list (key * str); draw_part : str }.

(** The plot functions, by what they do with the configuration: [Plain] (plot2D, plot3D, plot2DwithHyperplane, the regression plots;
    Visualization.hpp:545-806), [Twice] (plot1DRegresionHyperplane, 569-596), [Bare] (plot3DwithHyperplane, 809-842: the configuration is sent but not
    returned) and [Contour] (plotDecisionSurface2D, 846-922); a contour fails when a file cannot be opened. *)
Inductive style := Plain | Twice | Bare | Contour (palette : str) (fails : bool).

(** execute_command: the session the text goes to, when one is shared (Visualization.hpp:1123-1139). *)
Record state := mkS { st_conf : config; st_sess : session }.

(** One plot: the state after it, the settings it is drawn with and the script returned ([None]: it failed and returned "").
    Visualization.hpp:545-922, 973-1019, 1117-1139. *)
Definition plot (shared : bool) (st : state) (o : options) (y : style) (draw : str) : state * option (session * command) :=
  let c1 := configureRange (configurePlot (st_conf st) o) o in
  let base := if shared then st_sess st else fresh in
  let send (c : config) (l : list (key * str)) (returned : list (key * str)) :=
    let s := sets base l in
    (mkS c (if shared then s else st_sess st), Some (s, mkCmd returned draw)) in
  match y with
  | Plain => let (l, c2) := fetchConfigs c1 in send c2 l l
  | Twice =>
      let (l, c2) := fetchConfigs c1 in
      let (l', c3) := fetchConfigs c2 in
      send c3 (l' ++ l) (l' ++ l)
  | Bare => let (l, c2) := fetchConfigs c1 in send c2 l []
  | Contour p true => (mkS c1 (st_sess st), None)
  | Contour p false => let (l, c2) := fetchConfigs c1 in send c2 (l ++ [(Surface, p)]) (l ++ [(Surface, p)])
  end.

(** What a program does with one object: plots, and the setters (Visualization.hpp:105, 370-372). *)
Inductive sop := DoPlot (o : options) (y : style) (draw : str) | DoTerminal (t : str) | DoTitle (t : str).
(** One step (Visualization.hpp:105, 370-372, 545-922). *)
Definition sstep (shared : bool) (st : state) (op : sop) : state :=
  match op with
  | DoPlot o y draw => fst (plot shared st o y draw)
  | DoTerminal t => mkS (setTerminal (st_conf st) t) (st_sess st)
  | DoTitle t => mkS (setTitle (st_conf st) t) (st_sess st)
  end.
(** A program on a new object (Visualization.hpp:320-345). *)
Definition srun (shared : bool) (ops : list sop) : state := fold_left (sstep shared) ops (mkS config0 fresh).

(** prepareScript (Visualization.hpp:1117-1120). *)
Definition prepareScript (s : str) : str := map (fun c => if Ascii.eqb c ";" then ascii_of_nat 10 else c) s.
