(** Specification of the temporary files of the gnuplot sessions, and of the search for the program. *)
From Coq Require Import Ascii String ZArith List Bool Arith.
From Verif Require Import Base M_Str M_Gp M_GpFiles.
Import ListNotations.
Local Open Scope nat_scope.

(** Columns or lines of numbers, and entries with numbers of delimiters. *)
Notation grid := (list (list str)) (only parsing).
Notation spaced := (list (nat * str)) (only parsing).
(** There is at least one column, none is empty, and they have one length. *)
Definition columns (cols : list (list str)) : Prop := cols <> [] /\ exists n, 0 < n /\ Forall (fun c => List.length c = n) cols.
(** [rows] has the [i]-th entries of the columns in its line [i], in the order of the columns. *)
Definition lines_of (cols : list (list str)) (rows : list (list str)) : Prop :=
  Forall (fun c => List.length c = List.length rows) cols /\ forall i r, nth_error rows i = Some r -> Forall2 (fun c x => nth_error c i = Some x) cols r.
(** A call that makes a file. *)
Definition makes (c : fcall) : bool := match c with Data _ _ | Pixels _ _ _ _ _ => true | _ => false end.
(** How many files a sequence of calls made. *)
Definition made (cs : list fcall) (bs : list bool) : nat := List.length (filter (fun cb => makes (fst cb) && snd cb) (combine cs bs)).
Definition no_remove (cs : list fcall) : Prop := forall k, ~ In (Remove k) cs.
(** Session [k] is open. *)
Definition opened (p : proc) (k : nat) : Prop := exists l, nth_error (p_tmp p) k = Some (Some l).
(** The file is of one of the sessions [ks]. *)
Definition file_of (p : proc) (ks : list nat) (f : str * list (list str)) : Prop := exists k l, In k ks /\ nth_error (p_tmp p) k = Some (Some l) /\ In (fst f) l.
(** Entries in a text: [m] delimiters, the entry [f], each further entry after at least one delimiter, and [n] delimiters at the end. *)
Definition joined_by (d : ascii) (m : nat) (f : str) (l : list (nat * str)) (n : nat) : str :=
  repeat d m ++ f ++ flat_map (fun x => repeat d (S (fst x)) ++ snd x) l ++ repeat d n.
(** An entry is not empty and holds no delimiter. *)
Definition entry (d : ascii) (f : str) : Prop := f <> [] /\ ~ In d f.
(** [x] is the first of [l] with [P]. *)
Definition first_with {A : Type} (P : A -> Prop) (l : list A) (x : A) : Prop := exists a b, l = a ++ x :: b /\ P x /\ forall y, In y a -> ~ P y.
