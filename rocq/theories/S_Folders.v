(** Specification for plot folders: what each object shows, and what was saved. *)
From Coq Require Import Bool List Arith.
From Verif Require Import Base M_Folders.
Import ListNotations.
Local Open Scope nat_scope.

(** Object [i] is there and its folder holds [c] (or it has none). *)
Definition shows {A} (dk : disk A) (i : nat) : option (option A) :=
  match nth_error (objs dk) i with
  | Some (Some v) => Some (match v_folder v with Some n => dget (dirs dk) n | None => None end)
  | _ => None
  end.

(** The objects with what they show, and the contents saved so far, oldest first. *)
Record pstate (A : Type) := mkP { p_live : list (option (bool * option A)); p_saved : list A }.
Arguments mkP {A}.
Arguments p_live {A}.
Arguments p_saved {A}.

(** What an object leaves behind when its samples are replaced or it is destroyed. *)
Definition left_behind {A} (x : bool * option A) : list A := match x with (true, Some c) => [c] | _ => [] end.

(** Each object has a folder of its own. *)
Definition pstep {A} (s : pstate A) (o : vop A) : option (pstate A) :=
  match o with
  | Open _ k c => Some (mkP (p_live s ++ [Some (k, Some c)]) (p_saved s))
  | OpenEmpty _ k => Some (mkP (p_live s ++ [Some (k, None)]) (p_saved s))
  | SetSample i c _ =>
      match nth_error (p_live s) i with
      | Some (Some x) => option_map (fun l => mkP l (p_saved s ++ left_behind x)) (upd i (fun _ => Some (fst x, Some c)) (p_live s))
      | _ => None
      end
  | Close i _ =>
      match nth_error (p_live s) i with
      | Some (Some x) => option_map (fun l => mkP l (p_saved s ++ left_behind x)) (upd i (fun _ => None) (p_live s))
      | _ => None
      end
  | Foreign _ _ => None
  end.
Fixpoint prun {A} (s : pstate A) (ops : list (vop A)) : option (pstate A) :=
  match ops with [] => Some s | o :: r => match pstep s o with Some s1 => prun s1 r | None => None end end.

(** Only objects of element type [t] are made. *)
Definition of_type {A} (t : nat) (o : vop A) : Prop :=
  match o with Open u _ _ => u = t | OpenEmpty u _ => u = t | _ => True end.

(** The number of objects that show something. *)
Definition showing {A} (l : list (option (bool * option A))) : nat :=
  length (filter (fun x => match x with Some (_, Some _) => true | _ => false end) l).
