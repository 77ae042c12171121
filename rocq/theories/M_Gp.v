(** Model of the gnuplot session class: the commands it sends, and the two members it keeps to choose between "plot", "splot" and "replot".
    /repo/subprojects/ufjfmltk-visual/src/gnuplot_i.cpp, /repo/subprojects/ufjfmltk-visual/include/ufjfmltk/visual/gnuplot_i.hpp.

    Texts are lists of characters. Numbers given to a call (slopes, ranges, columns) are the texts the stream writes for them.
    A session object only exists when init succeeded, so the member valid is true and left out. The pipe is the list of the commands sent,
    without their ends of line. *)
From Coq Require Import Ascii String List Bool Arith.
From Verif Require Import Base M_Str.
Import ListNotations.

(** A literal of the source (gnuplot_i.cpp:245-940). *)
Definition tx (s : string) : str := list_ascii_of_string s.
Notation "'t#' s" := (tx s%string) (at level 0, s at level 0).

(** [s] starts with [w] (part of std::string::find, gnuplot_i.cpp:912-925). *)
Fixpoint begins (w s : str) : bool :=
  match w, s with
  | [], _ => true
  | a :: w', b :: s' => Ascii.eqb a b && begins w' s'
  | _ :: _, [] => false
  end.
(** std::string::find(w) != npos (gnuplot_i.cpp:247-257, 293-298, 442-444, 912-925). *)
Fixpoint has (w s : str) : bool :=
  begins w s || match s with [] => false | _ :: s' => has w s' end.

(** The members two_dim, nplots, pstyle, smooth, and what went through the pipe (gnuplot_i.hpp:71-117). *)
Record gp := mkG { two_dim : bool; nplots : nat; pstyle : str; smooth : str; sent : list str }.

(** gnuplot_i.cpp:891-931. *)
Definition cmd (g : gp) (t : str) : gp :=
  let sent' := sent g ++ [t] in
  if has t# "replot" t then mkG (two_dim g) (nplots g) (pstyle g) (smooth g) sent'
  else if has t# "splot" t then mkG false (S (nplots g)) (pstyle g) (smooth g) sent'
  else if has t# "plot" t then mkG true (S (nplots g)) (pstyle g) (smooth g) sent'
  else mkG (two_dim g) (nplots g) (pstyle g) (smooth g) sent'.

(** gnuplot_i.cpp:245-285. *)
Definition set_style (g : gp) (s : str) : gp :=
  let ok := has t# "lines" s || has t# "points" s || has t# "linespoints" s || has t# "impulses" s || has t# "dots" s || has t# "steps" s
            || has t# "fsteps" s || has t# "histeps" s || has t# "boxes" s || has t# "filledcurves" s || has t# "histograms" s in
  mkG (two_dim g) (nplots g) (if ok then s else t# "points") (smooth g) (sent g).
(** gnuplot_i.cpp:291-309; gnuplot_i.hpp:256: unset_smooth. *)
Definition set_smooth (g : gp) (s : str) : gp :=
  let ok := has t# "unique" s || has t# "frequency" s || has t# "csplines" s || has t# "acsplines" s || has t# "bezier" s || has t# "sbezier" s in
  mkG (two_dim g) (nplots g) (pstyle g) (if ok then s else []) (sent g).
(** gnuplot_i.cpp:315-321, with terminal_std ([term], gnuplot_i.cpp:49-53). *)
Definition showonscreen (term : str) (g : gp) : gp := cmd (cmd g t# "set output") (t# "set terminal " ++ term).

(** The inline calls with a fixed text (gnuplot_i.hpp:267-358, 445-463). *)
Inductive flag := Grid | NoGrid | Multiplot | NoMultiplot | Hidden | NoHidden | NoContour | Surf | NoSurf | NoKey | NoLog (axis : ascii).
(** gnuplot_i.hpp:267-358, 445-463. *)
Definition flag_text (f : flag) : str :=
  match f with
  | Grid => t# "set grid" | NoGrid => t# "unset grid"
  | Multiplot => t# "set multiplot" | NoMultiplot => t# "unset multiplot"
  | Hidden => t# "set hidden3d" | NoHidden => t# "unset hidden3d"
  | NoContour => t# "unset contour"
  | Surf => t# "set surface" | NoSurf => t# "unset surface"
  | NoKey => t# "unset key"
  | NoLog a => t# "unset logscale " ++ [a]
  end.

(** The public calls on a session (gnuplot_i.hpp:149-700). [FileX] to [FileXYZ]: plotfile_x, plotfile_xy, plotfile_xy_err, plotfile_xyz;
    [Image n title]: plot_image, its data already written to the temporary file [n]. *)
Inductive call :=
| Cmd (t : str) | Style (s : str) | Smooth (s : str)
| Flag (f : flag) | Auto (axis : ascii)
| Label (axis : ascii) (t : str) | Title (t : str) | Legend (t : str) | Contour (t : str) | Save (t : str)
| Range (axis a b : str) | Log (axis : ascii) (b : str) | PointSize (a : str) | Samples (a : str) | IsoSamples (a : str)
| Slope (a b title : str) | Equation (e title : str) | Equation3d (e title : str)
| FileX (f c title : str) | FileXY (f cx cy title : str) | FileErr (f cx cy cd title : str) | FileXYZ (f cx cy cz title : str)
| Image (n title : str)
| Replot | ResetPlot | ResetAll | Screen.

(** The double quote (gnuplot_i.cpp:562-880). *)
Definition qt : str := t# """".
(** `title "..."` or notitle of plotfile_x and plotfile_xy (gnuplot_i.cpp:684-687, 730-733, 777-780). *)
Definition opt_title (title : str) : str :=
  match title with [] => t# " notitle " | _ => t# " title " ++ qt ++ title ++ qt ++ t# " " end.
(** gnuplot_i.cpp:689-692, 735-738. *)
Definition how (g : gp) : str :=
  match smooth g with [] => t# "with " ++ pstyle g | _ => t# "smooth " ++ smooth g end.
(** The title of a function, with its default (gnuplot_i.cpp:575-580, 608-613, 641-646). *)
Definition fun_title (title dflt : str) : str := match title with [] => dflt | _ => title end.
(** The first word of a 2-D plot (gnuplot_i.cpp:568-571, 601-604, 677-680, 722-725, 766-769, 868-871). *)
Definition word2 (g : gp) : str := if (0 <? nplots g) && two_dim g then t# "replot " else t# "plot ".
(** The first word of a 3-D plot (gnuplot_i.cpp:634-637, 808-811). *)
Definition word3 (g : gp) : str := if (0 <? nplots g) && negb (two_dim g) then t# "replot " else t# "splot ".

(** One call; [None]: it throws (file_available, gnuplot_i.cpp:1109-1125; [avail]: which files exist and can be read). *)
Definition step (avail : str -> bool) (term : str) (g : gp) (c : call) : option gp :=
  match c with
  | Cmd t => Some (cmd g t)                                                       (* gnuplot_i.cpp:891, gnuplot_i.hpp:220-224 *)
  | Style s => Some (set_style g s)
  | Smooth s => Some (set_smooth g s)
  | Flag f => Some (cmd g (flag_text f))
  | Auto a => Some (cmd (cmd g (t# "set " ++ [a] ++ t# "range restore")) (t# "set autoscale " ++ [a]))   (* gnuplot_i.hpp:410-428 *)
  | Label a t => Some (cmd g (t# "set " ++ [a] ++ t# "label " ++ qt ++ t ++ qt))                       (* gnuplot_i.cpp:461-496 *)
  | Title t => Some (cmd g (t# "set title " ++ qt ++ t ++ qt))                                         (* gnuplot_i.hpp:367-375 *)
  | Legend t => Some (cmd g (t# "set key " ++ t))                                                      (* gnuplot_i.cpp:342-350 *)
  | Contour t => Some (cmd g (if has t# "base" t || has t# "surface" t || has t# "both" t
                              then t# "set contour " ++ t else t# "set contour base"))                 (* gnuplot_i.cpp:440-455 *)
  | Save t => Some (cmd (cmd g t# "set terminal postscript color")
                        (t# "set output " ++ qt ++ t ++ t# ".ps" ++ qt))                               (* gnuplot_i.cpp:327-336 *)
  | Range a x y => Some (cmd g (t# "set " ++ a ++ t# "range[" ++ x ++ t# ":" ++ y ++ t# "]"))            (* gnuplot_i.cpp:502-555 *)
  | Log a b => Some (cmd g (t# "set logscale " ++ [a] ++ t# " " ++ b))                                  (* gnuplot_i.cpp:356-392 *)
  | PointSize a => Some (cmd g (t# "set pointsize " ++ a))                                             (* gnuplot_i.cpp:398-405 *)
  | Samples a => Some (cmd g (t# "set samples " ++ a))                                                 (* gnuplot_i.cpp:411-418 *)
  | IsoSamples a => Some (cmd g (t# "set isosamples " ++ a))                                           (* gnuplot_i.cpp:425-432 *)
  | Slope a b title =>                                                                                (* gnuplot_i.cpp:561-589 *)
      Some (cmd g (word2 g ++ a ++ t# " * x + " ++ b ++ t# " title " ++ qt ++ fun_title title (t# "f(x) = " ++ a ++ t# " * x + " ++ b)
                   ++ qt ++ t# " with " ++ pstyle g))
  | Equation e title =>                                                                               (* gnuplot_i.cpp:595-622 *)
      Some (cmd g (word2 g ++ e ++ t# " title " ++ qt ++ fun_title title (t# "f(x) = " ++ e) ++ qt ++ t# " with " ++ pstyle g))
  | Equation3d e title =>                                                                             (* gnuplot_i.cpp:628-655 *)
      Some (cmd g (word3 g ++ e ++ t# " title " ++ qt ++ fun_title title (t# "f(x,y) = " ++ e) ++ qt ++ t# " with " ++ pstyle g))
  | FileX f c title =>                                                                                (* gnuplot_i.cpp:662-700 *)
      if avail f then Some (cmd g (word2 g ++ qt ++ f ++ qt ++ t# " using " ++ c ++ opt_title title ++ how g)) else None
  | FileXY f cx cy title =>                                                                           (* gnuplot_i.cpp:707-746 *)
      if avail f then Some (cmd g (word2 g ++ qt ++ f ++ qt ++ t# " using " ++ cx ++ t# ":" ++ cy ++ opt_title title ++ how g)) else None
  | FileErr f cx cy cd title =>                                                                       (* gnuplot_i.cpp:752-788 *)
      if avail f then Some (cmd g (word2 g ++ qt ++ f ++ qt ++ t# " using " ++ cx ++ t# ":" ++ cy ++ t# ":" ++ cd ++ t# " with errorbars "
                                   ++ opt_title title)) else None
  | FileXYZ f cx cy cz title =>                                                                       (* gnuplot_i.cpp:794-828 *)
      if avail f then Some (cmd g (word3 g ++ qt ++ f ++ qt ++ t# " using " ++ cx ++ t# ":" ++ cy ++ t# ":" ++ cz
                                   ++ match title with [] => t# " notitle with " ++ pstyle g
                                                     | _ => t# " title " ++ qt ++ title ++ qt ++ t# " with " ++ pstyle g end)) else None
  | Image n title =>                                                                                  (* gnuplot_i.cpp:863-882 *)
      Some (cmd g (word2 g ++ match title with [] => qt ++ n ++ qt ++ t# " with image"
                                             | _ => qt ++ n ++ qt ++ t# " title " ++ qt ++ title ++ qt ++ t# " with image" end))
  | Replot => Some (if 0 <? nplots g then cmd g t# "replot" else g)                                    (* gnuplot_i.hpp:687 *)
  | ResetPlot => Some (mkG (two_dim g) 0 (pstyle g) (smooth g) (sent g))                              (* gnuplot_i.cpp:212-219 *)
  | ResetAll =>                                                                                       (* gnuplot_i.cpp:226-238 *)
      let g1 := cmd (cmd (mkG (two_dim g) 0 (pstyle g) (smooth g) (sent g)) t# "reset") t# "clear" in
      Some (showonscreen term (mkG (two_dim g1) (nplots g1) t# "points" [] (sent g1)))
  | Screen => Some (showonscreen term g)                                                              (* gnuplot_i.cpp:315-321 *)
  end.

(** A call whose exception the caller catches leaves the session as it is (gnuplot_i.cpp:1109-1125: it is thrown before anything is sent). *)
Definition after (avail : str -> bool) (term : str) (g : gp) (c : call) : gp :=
  match step avail term g c with Some g' => g' | None => g end.
(** A new session (gnuplot_i.cpp:60-66, 986-993). *)
Definition gp_new (term style : str) : gp := set_style (showonscreen term (mkG false 0 [] [] [])) style.
(** A history of calls on a new session (gnuplot_i.hpp:149-700). *)
Definition gp_run (avail : str -> bool) (term style : str) (l : list call) : gp := fold_left (after avail term) l (gp_new term style).
