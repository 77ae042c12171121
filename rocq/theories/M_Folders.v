(** Model of the plot folders of Visualization: which folders an object makes, and which it deletes.
    /repo/subprojects/ufjfmltk-visual/include/ufjfmltk/visual/Visualization.hpp.

    The folders "plottemp<N>/" are known by their number N, what a folder holds is an arbitrary value. The static counter n_plots is one per
    element type, so it is kept per type. Folders renamed by keep_temp_files have the number and the time stamp in their name (to the second; Utils.cpp:212-219).

    Simplifications: creating, writing and deleting succeed; renaming fails when the source is missing or the target is there (the saved folders are
    not empty); closedir on a folder that could not be opened returns an error, as in glibc (line 480); numbers do not wrap around. The files
    in a folder and the titles of the plots are in M_Plot.v. *)
From Coq Require Import Bool List Arith.
From Verif Require Import Base.
Import ListNotations.
Local Open Scope nat_scope.

(** Visualization.hpp:43-50: the element type (for n_plots), keep_temp_files, plot_folder ([None] when empty) and plot_folders. *)
Record vis := mkVis { v_type : nat; v_keep : bool; v_folder : option nat; v_folders : list nat }.

(** The disk with the folders and the saved folders, the counters n_plots (line 50, 320) by element type, and the objects of the program;
    [None] is a destroyed object. Visualization.hpp:43-50. *)
Record disk (A : Type) := mkDisk {
  dirs : list (nat * A); saved : list ((nat * nat) * A); counters : nat -> nat; objs : list (option vis) }.
Arguments mkDisk {A}.
Arguments dirs {A}.
Arguments saved {A}.
Arguments counters {A}.
Arguments objs {A}.

(** What happens: a Visualization of samples is constructed (lines 332-344), or one without (321-330); setSample (925-933); destruction
    (1022-1045); and another program, or the user, makes or deletes a folder. The time stamps are given. *)
Inductive vop (A : Type) :=
| Open (t : nat) (keep : bool) (c : A)
| OpenEmpty (t : nat) (keep : bool)
| SetSample (i : nat) (c : A) (stamp : nat)
| Close (i : nat) (stamp : nat)
| Foreign (n : nat) (c : option A).
Arguments Open {A}.
Arguments OpenEmpty {A}.
Arguments SetSample {A}.
Arguments Close {A}.
Arguments Foreign {A}.

Section Folders.
Context {A : Type}.

(** fs::exists and what is in the folder, Visualization.hpp:354, 533. *)
Definition dget (d : list (nat * A)) (n : nat) : option A := option_map snd (find (fun p => Nat.eqb (fst p) n) d).
(** fs::remove_all, Visualization.hpp:533, 1031. *)
Definition drem (d : list (nat * A)) (n : nat) : list (nat * A) := filter (fun p => negb (Nat.eqb (fst p) n)) d.
(** fs::create_directory and createTempFiles, Visualization.hpp:356, 380-435. *)
Definition dput (d : list (nat * A)) (n : nat) (c : A) : list (nat * A) := d ++ [(n, c)].
(** The saved folder with this name, Visualization.hpp:510. *)
Definition sget (d : list ((nat * nat) * A)) (n : nat * nat) : option A :=
  option_map snd (find (fun p => Nat.eqb (fst (fst p)) (fst n) && Nat.eqb (snd (fst p)) (snd n)) d).

(** Visualization.hpp:348-354: each number tried is remembered in plot_folders, whether the folder exists or not. [fuel] is the number of folders:
    after that many the next number is free. *)
Fixpoint free_from (fuel : nat) (d : list (nat * A)) (n : nat) (fs : list nat) : nat * list nat :=
  let fs1 := if existsb (Nat.eqb n) fs then fs else fs ++ [n] in
  match fuel with
  | 0 => (n, fs1)
  | S f => match dget d n with Some _ => free_from f d (S n) fs1 | None => (n, fs1) end
  end.

(** Visualization.hpp:503-542: removeTempFiles; with keep_temp_files the folder is renamed. *)
Definition remove_temp (dk : disk A) (v : vis) (stamp : nat) : list (nat * A) * list ((nat * nat) * A) :=
  match v_folder v with
  | None => (dirs dk, saved dk)
  | Some n =>
      if v_keep v then
        match dget (dirs dk) n, sget (saved dk) (n, stamp) with
        | Some c, None => (drem (dirs dk) n, saved dk ++ [((n, stamp), c)])
        | _, _ => (dirs dk, saved dk)
        end
      else (drem (dirs dk) n, saved dk)
  end.

(** Visualization.hpp:347-367 with the files of the samples (380-435): the object after create_plotfolder, the disk and the counter. *)
Definition create (d : list (nat * A)) (cnt : nat -> nat) (v : vis) (c : A) : vis * list (nat * A) * (nat -> nat) :=
  let r := free_from (length d) d (cnt (v_type v)) (v_folders v) in
  (mkVis (v_type v) (v_keep v) (Some (fst r)) (snd r), dput d (fst r) c,
   fun t => if Nat.eqb t (v_type v) then S (fst r) else cnt t).

(** The object, when it is there (no counterpart in /repo: the meaning of a call at Visualization.hpp:926). *)
Definition vobj (dk : disk A) (i : nat) : outcome vis := match nth_error (objs dk) i with Some (Some v) => Ok v | _ => UB end.

(** One event; the citations are with [vop] (Visualization.hpp:321-344, 925-933, 1022-1045). *)
Definition vstep (dk : disk A) (o : vop A) : outcome (disk A) :=
  match o with
  | Open t k c =>
      let '(v, d, cnt) := create (dirs dk) (counters dk) (mkVis t k None []) c in
      Ok (mkDisk d (saved dk) cnt (objs dk ++ [Some v]))
  | OpenEmpty t k => Ok (mkDisk (dirs dk) (saved dk) (counters dk) (objs dk ++ [Some (mkVis t k None [])]))
  | SetSample i c stamp =>
      let* v := vobj dk i in
      let there := match v_folder v with Some n => match dget (dirs dk) n with Some _ => true | None => false end | None => false end in
      let r := if there then remove_temp dk v stamp else (dirs dk, saved dk) in
      let '(v1, d, cnt) := create (fst r) (counters dk) v c in
      let* os := vupd i (fun _ => Some v1) (objs dk) in
      Ok (mkDisk d (snd r) cnt os)
  | Close i stamp =>
      let* v := vobj dk i in
      let r := remove_temp dk v stamp in
      let* os := vupd i (fun _ => None) (objs dk) in
      Ok (mkDisk (fold_left drem (v_folders v) (fst r)) (snd r) (counters dk) os)
  | Foreign n c =>
      let d := drem (dirs dk) n in
      Ok (mkDisk (match c with Some x => dput d n x | None => d end) (saved dk) (counters dk) (objs dk))
  end.

(** The events in order (no counterpart in /repo: the program). *)
Fixpoint vrun (dk : disk A) (ops : list (vop A)) : outcome (disk A) :=
  match ops with [] => Ok dk | o :: r => let* d := vstep dk o in vrun d r end.

(** No folder, no object, all counters 0 (Visualization.hpp:320). *)
Definition disk0 : disk A := mkDisk [] [] (fun _ => 0) [].
End Folders.
