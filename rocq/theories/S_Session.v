(** Specification: what a plot should be drawn with. *)
From Coq Require Import Ascii String List Bool.
From Verif Require Import Base M_Str M_Session.
Import ListNotations.

(** A text that was given; "" is none. *)
Definition given (v : str) : option str := match v with [] => None | _ => Some v end.
(** The settings asked for by the call, on a screen terminal [t]. *)
Definition wanted (t : str) (o : options) (y : style) (k : key) : option str :=
  match k with
  | Terminal => Some (if o_save o then o_format o else match t with [] => list_ascii_of_string "x11" | _ => t end)
  | Output => if o_save o then Some (o_name o ++ "."%char :: o_format o) else None
  | Title => given (o_title o)
  | XRange => given (o_xr o) | YRange => given (o_yr o) | ZRange => given (o_zr o)
  | XLabel => given (o_xl o) | YLabel => given (o_yl o) | ZLabel => given (o_zl o)
  | Surface => match y with Contour p _ => Some p | _ => None end
  end.
Definition failed (y : style) : bool := match y with Contour _ b => b | _ => false end.
(** The terminal after a program: the last one set, or "wxt". *)
Fixpoint terminal_from (t : str) (ops : list sop) : str :=
  match ops with
  | [] => t
  | DoTerminal t' :: r => terminal_from t' r
  | _ :: r => terminal_from t r
  end.
Definition terminal (ops : list sop) : str := terminal_from (list_ascii_of_string "wxt") ops.
(** The last plot of a program, if there is one, was drawn. *)
Fixpoint drawn_last (before : bool) (ops : list sop) : Prop :=
  match ops with
  | [] => before = true
  | DoPlot _ y _ :: r => drawn_last (negb (failed y)) r
  | _ :: r => drawn_last before r
  end.
Definition settled (ops : list sop) : Prop := drawn_last true ops.
(** All of them were. *)
Definition all_drawn (ops : list sop) : Prop := forall o y d, In (DoPlot o y d) ops -> failed y = false.
(** The last value asked for a setting by the plots of a program, if any. *)
Definition or_else (a b : option str) : option str := match a with Some _ => a | None => b end.
Fixpoint latest_from (t : str) (old : option str) (ops : list sop) (k : key) : option str :=
  match ops with
  | [] => old
  | DoPlot o y _ :: r => latest_from t (or_else (wanted t o y k) old) r k
  | DoTerminal t' :: r => latest_from t' old r k
  | DoTitle _ :: r => latest_from t old r k
  end.
Definition latest (ops : list sop) (k : key) : option str := latest_from (list_ascii_of_string "wxt") None ops k.
(** What a script shows in a gnuplot of its own. *)
Definition replay (c : command) : session := fold_left set1 (set_part c) (fun _ => None).
(** Statements, each ended by a separator but the last. *)
Fixpoint joined (sep : ascii) (ss : list str) : str :=
  match ss with [] => [] | [s] => s | s :: r => s ++ sep :: joined sep r end.
