(** Model of Data::sampling: /repo/subprojects/ufjfmltk-core/include/ufjfmltk/core/Data.hpp:2030-2066, on the heap of shared points (M_Heap).
    The generator is the function [rnd]: [rnd t b] is the t-th draw, from a uniform distribution over 0..b. The share count/size*samp_size is computed exactly
    (the doubles may round it). *)
From Coq Require Import ZArith Bool List.
From Verif Require Import Base M_Data M_Heap Loop.
Import ListNotations.
Local Open Scope nat_scope.

Section Sampling.
Context {T : Type}.
(** Data.hpp:2042-2050: the number of draws of a class with [c] of the [n] points; the draws range over 0..quota-1, the double class_dist - 1 being
    truncated. With a share of 0 the bound -1 does not fit size_t. *)
Definition quota (m n : nat) (c : Z) : outcome nat :=
  if Nat.eqb n 0 then UB else
  if Nat.eqb (Z.to_nat c * m) 0 then UB else Ok (Nat.max 1 (Z.to_nat c * m / n)).
(** Data.hpp:2055-2060, without replacement: draw until the number is new; [None]: still drawing after [fuel] draws. *)
Fixpoint draw_new (rnd : nat -> nat -> nat) (fuel b : nat) (ids : list nat) (t : nat) : option (nat * nat) :=
  match fuel with
  | 0 => None
  | S f => if existsb (Nat.eqb (rnd t b)) ids then draw_new rnd f b ids (S t) else Some (rnd t b, S t)
  end.
(** The state of the loops 2053-2064: heap, sample, numbers used (for all classes together), draws so far. *)
Record samp := mkSamp { sp_heap : heap T; sp_data : hdata T; sp_ids : list nat; sp_t : nat }.
(** Data.hpp:2054-2063, one draw from the class [part], with [b] the bound. *)
Definition draw_one (rnd : nat -> nat -> nat) (repl : bool) (fuel b : nat) (part : hdata T) (s : samp) : outcome (option samp) :=
  match (if repl then Some (rnd (sp_t s) b, S (sp_t s)) else draw_new rnd fuel b (sp_ids s) (sp_t s)) with
  | None => Ok None
  | Some (idx, t) =>
      let* r := vget (h_refs part) idx in
      let* res := h_insert (sp_heap s) (sp_data s) r false in
      Ok (Some (mkSamp (fst (fst res)) (snd (fst res)) (if repl then sp_ids s else idx :: sp_ids s) t))
  end.
(** Data.hpp:2053-2063: the draws from one class. *)
Fixpoint draw_many (rnd : nat -> nat -> nat) (repl : bool) (fuel b n : nat) (part : hdata T) (s : samp) : outcome (option samp) :=
  match n with
  | 0 => Ok (Some s)
  | S k => let* r := draw_one rnd repl fuel b part s in match r with None => Ok None | Some s' => draw_many rnd repl fuel b k part s' end
  end.
(** Data.hpp:2052-2064: the loop over the classes. *)
Fixpoint draw_classes (rnd : nat -> nat -> nat) (repl : bool) (fuel : nat) (qs : list nat) (parts : list (hdata T)) (s : samp) : outcome (option samp) :=
  match qs with
  | [] => Ok (Some s)
  | q :: qr =>
      match parts with
      | [] => UB
      | p :: pr => let* r := draw_many rnd repl fuel (q - 1) q p s in match r with None => Ok None | Some s' => draw_classes rnd repl fuel qr pr s' end
      end
  end.
(** The parts of splitByClasses are made of new points (Data.hpp:2010-2028). *)
Fixpoint alloc_all (hp : heap T) (ds : list (data T)) : heap T * list (hdata T) :=
  match ds with
  | [] => (hp, [])
  | d :: r => let (hp1, h) := alloc hp d in let (hp2, hs) := alloc_all hp1 r in (hp2, h :: hs)
  end.
(** Data.hpp:2030-2066. [None]: still drawing. The classes without an entry in the distribution have share 0. *)
Definition sampling (rnd : nat -> nat -> nat) (fuel : nat) (hp : heap T) (src : hdata T) (m : nat) (repl : bool) : outcome (option (heap T * hdata T)) :=
  let* d := view hp src in
  if Nat.ltb (size d) m then Abort else
  if Nat.ltb (length (d_classes d)) (length (d_dist d)) then Abort else
  let* parts := splitByClasses d false in
  let* qs := map_outcome (quota m (size d)) (d_dist d ++ repeat 0%Z (length (d_classes d) - length (d_dist d))) in
  let (hp1, hs) := alloc_all hp parts in
  let* r := draw_classes rnd repl fuel qs hs (mkSamp hp1 (mkH [] (strip data_empty)) [] 0) in
  match r with None => Ok None | Some s => Ok (Some (sp_heap s, sp_data s)) end.
End Sampling.
