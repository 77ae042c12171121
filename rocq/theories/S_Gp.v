(** Specification of the gnuplot session calls: what gnuplot draws from the commands it receives, and what the caller expects to see. *)
From Coq Require Import Ascii String List Bool Arith.
From Verif Require Import Base M_Str M_Gp.
Import ListNotations.

(** [w] is a part of [s]. *)
Definition inside (w s : str) : Prop := exists a b, s = a ++ w ++ b.
(** [s] is [w] followed by the result. *)
Fixpoint strip (w s : str) : option str :=
  match w, s with
  | [], _ => Some s
  | a :: w', b :: s' => if Ascii.eqb a b then strip w' s' else None
  | _ :: _, [] => None
  end.

(** What gnuplot shows: nothing yet, the curves of a 2-D or ([three]) 3-D picture, or an error (replot before any plot). *)
Inductive screen := Blank | Pic (three : bool) (curves : list str) | Failed.
(** gnuplot on one command: "plot c" and "splot c" start a picture, "replot c" adds [c] to the last one, "replot" draws it again, and any other
    command adds and removes no curve. *)
Definition draw (s : screen) (t : str) : screen :=
  match strip t# "plot " t, strip t# "splot " t, strip t# "replot" t with
  | Some c, _, _ => match s with Failed => Failed | _ => Pic false [c] end
  | _, Some c, _ => match s with Failed => Failed | _ => Pic true [c] end
  | _, _, Some r => match s with
                    | Pic d l => match strip t# " " r with Some c => Pic d (l ++ [c]) | None => Pic d l end
                    | _ => Failed
                    end
  | _, _, _ => s
  end.
(** gnuplot on all that came through the pipe. *)
Definition watch (sent : list str) : screen := fold_left draw sent Blank.

(** What a caller reckons with: the picture, whether the next curve of the same kind joins it, the style and the smoothing in force. *)
Record view := mkV { shown : screen; joins : bool; v_style : str; v_smooth : str }.
(** The styles and the smoothings the documentation lists; any text containing one is taken. *)
Definition styles : list str :=
  [t# "lines"; t# "points"; t# "linespoints"; t# "impulses"; t# "dots"; t# "steps"; t# "fsteps"; t# "histeps"; t# "boxes"; t# "filledcurves"; t# "histograms"].
Definition smooths : list str := [t# "unique"; t# "frequency"; t# "csplines"; t# "acsplines"; t# "bezier"; t# "sbezier"].
Definition style_of (s : str) : str := if existsb (fun w => has w s) styles then s else t# "points".
Definition smooth_of (s : str) : str := if existsb (fun w => has w s) smooths then s else [].

(** The curve a call asks for ([true]: in 3-D); [None]: the call is not for drawing, or its file is not readable. *)
Definition curve (avail : str -> bool) (style smooth : str) (c : call) : option (bool * str) :=
  let named title := match title with [] => t# " notitle " | _ => t# " title """ ++ title ++ t# """ " end in
  let drawn := match smooth with [] => t# "with " ++ style | _ => t# "smooth " ++ smooth end in
  let fn e title dflt := e ++ t# " title """ ++ (match title with [] => dflt | _ => title end) ++ t# """ with " ++ style in
  let file f := t# """" ++ f ++ t# """ using " in
  match c with
  | Slope a b title => Some (false, fn (a ++ t# " * x + " ++ b) title (t# "f(x) = " ++ a ++ t# " * x + " ++ b))
  | Equation e title => Some (false, fn e title (t# "f(x) = " ++ e))
  | Equation3d e title => Some (true, fn e title (t# "f(x,y) = " ++ e))
  | FileX f c title => if avail f then Some (false, file f ++ c ++ named title ++ drawn) else None
  | FileXY f cx cy title => if avail f then Some (false, file f ++ cx ++ t# ":" ++ cy ++ named title ++ drawn) else None
  | FileErr f cx cy cd title =>
      if avail f then Some (false, file f ++ cx ++ t# ":" ++ cy ++ t# ":" ++ cd ++ t# " with errorbars " ++ named title) else None
  | FileXYZ f cx cy cz title =>
      if avail f then Some (true, file f ++ cx ++ t# ":" ++ cy ++ t# ":" ++ cz
                                 ++ (match title with [] => t# " notitle" | _ => t# " title """ ++ title ++ t# """" end) ++ t# " with " ++ style)
      else None
  | Image n title =>
      Some (false, t# """" ++ n ++ t# """" ++ (match title with [] => [] | _ => t# " title """ ++ title ++ t# """" end) ++ t# " with image")
  | _ => None
  end.
(** What one call is to change. *)
Definition view_step (avail : str -> bool) (v : view) (c : call) : view :=
  match c with
  | Style s => mkV (shown v) (joins v) (style_of s) (v_smooth v)
  | Smooth s => mkV (shown v) (joins v) (v_style v) (smooth_of s)
  | ResetPlot => mkV (shown v) false (v_style v) (v_smooth v)
  | ResetAll => mkV (shown v) false t# "points" []
  | _ => match curve avail (v_style v) (v_smooth v) c with
         | Some (three, t) =>
             mkV (match shown v with
                  | Pic d l => if joins v && Bool.eqb d three then Pic three (l ++ [t]) else Pic three [t]
                  | _ => Pic three [t]
                  end) true (v_style v) (v_smooth v)
         | None => v
         end
  end.
(** What a history of calls is to leave. *)
Definition view_run (avail : str -> bool) (style : str) (l : list call) : view :=
  fold_left (view_step avail) l (mkV Blank false (style_of style) []).

(** A text that names none of the three plot commands, and one that may only name "plot". *)
Definition silent (t : str) : Prop := ~ inside t# "plot" t.
Definition quiet (t : str) : Prop := ~ inside t# "splot" t /\ ~ inside t# "replot" t.
(** The texts given to a call name no plot command. *)
Definition calm (c : call) : Prop :=
  match c with
  | Cmd t | Label _ t | Title t | Legend t | Contour t | Save t | PointSize t | Samples t | IsoSamples t | Log _ t => silent t
  | Range a x y => silent a /\ silent x /\ silent y
  | Style s | Smooth s => quiet s
  | Flag f => f <> Multiplot /\ f <> NoMultiplot
  | Slope a b t => quiet a /\ quiet b /\ quiet t
  | Equation e t | Equation3d e t | Image e t => quiet e /\ quiet t
  | FileX f c t => quiet f /\ quiet c /\ quiet t
  | FileXY f c d t => quiet f /\ quiet c /\ quiet d /\ quiet t
  | FileErr f c d e t | FileXYZ f c d e t => quiet f /\ quiet c /\ quiet d /\ quiet e /\ quiet t
  | Auto _ | Replot | ResetPlot | ResetAll | Screen => True
  end.
