(** Model of BorderlineSMOTEOne: /repo/subprojects/ufjfmltk-core/include/ufjfmltk/core/Sampling.hpp:210-295, over the reals, on the heap of shared points (M_Heap.v).
    [dist] is the metric of the object, [dist2] the one of the SMOTE it makes (281: always the default one); std::sort, the fractions and the shuffle of SMOTE
    are oracles as in M_Smote.v. The pointers of the dataset are what 236-291 go through; [view] is what is read through them. *)
From Coq Require Import ZArith Bool List Reals.
From Verif Require Import Base M_Data M_Heap Loop M_Smote.
Import ListNotations.
Local Open Scope nat_scope.

(** std::max_element(v.begin(), v.end()) - v.begin() (Sampling.hpp:230) on counters: the first largest; 0 on the empty vector. *)
Fixpoint zmax_from (best : Z) (bi i : nat) (l : list Z) : nat :=
  match l with
  | [] => bi
  | x :: r => if Z.ltb best x then zmax_from x i (S i) r else zmax_from best bi (S i) r
  end.
(** Sampling.hpp:230. *)
Definition zmax_element (l : list Z) : nat := match l with [] => 0 | x :: r => zmax_from x 0 1 r end.

Section Border.
Context (dist dist2 : list R -> list R -> R) (srt : list (nat * R) -> list (nat * R)) (al : nat -> R).
(** Sampling.hpp:237-273: is the point with features [z] in danger? M has m pointers; those beyond the neighbours found stay null and are dereferenced at 269. *)
Definition in_danger (m : nat) (maj : Z) (pts : list (point R)) (z : list R) : outcome bool :=
  let es := near_entries dist srt m pts z in
  if Nat.ltb (length es) m then UB
  else
    let* ms := map_outcome (fun e => vget pts (fst e - 1)) es in
    let c := length (filter (fun p => Z.eqb (p_y p) maj) ms) in
    Ok (Nat.leb (m / 2) c && Nat.ltb c m).
(** Sampling.hpp:236-277: the state is the heap, danger_subset and danger_ids; the id is taken before insertPoint writes a new one through the shared pointer. *)
Definition danger_step (m : nat) (maj : Z) (h : hdata R) (s : heap R * hdata R * list Z) (r : nat) : outcome (heap R * hdata R * list Z) :=
  let '(hp, dg, ids) := s in
  let* d := view hp h in
  let* z := vget hp r in
  let* b := in_danger m maj (d_points d) (p_x z) in
  if b then let* res := h_insert hp dg r false in Ok (fst res, p_id z :: ids) else Ok s.
(** Sampling.hpp:279-283: SMOTE on the danger subset; its artificial points are new objects (Sampling.hpp:188-202). *)
Definition danger_smote (k : nat) (perm : list nat) (hp : heap R) (dg : hdata R) : outcome (heap R * hdata R) :=
  let* dv := view hp dg in
  if Nat.ltb 0 (size dv) then
    let* r := smote dist2 srt al k perm dv in
    let fresh := skipn (length (h_refs dg)) (d_points r) in
    Ok (hp ++ fresh, mkH (h_refs dg ++ seq (length hp) (length fresh)) (strip r))
  else Ok (hp, dg).
(** Sampling.hpp:285-291: the points of the danger subset whose id, now, is in danger_ids. *)
Definition back_step (ids : list Z) (s : heap R * hdata R) (r : nat) : outcome (heap R * hdata R) :=
  let* p := vget (fst s) r in
  if existsb (Z.eqb (p_id p)) ids then let* res := h_insert (fst s) (snd s) r false in Ok (fst res) else Ok s.
(** Sampling.hpp:226-294: the heap and the dataset, which is changed in place (a copy of it is returned). *)
Definition borderline (m k : nat) (perm : list nat) (hp : heap R) (h : hdata R) : outcome (heap R * hdata R) :=
  let* d := view hp h in
  let* maj := vget (d_classes d) (zmax_element (d_dist d)) in
  let* (hp1, dg, ids) := ofold (danger_step m maj h) (h_refs h) (hp, mkH [] (strip data_empty), []) in
  let* (hp2, dg2) := danger_smote k perm hp1 dg in
  ofold (back_step ids) (h_refs dg2) (hp2, h).
End Border.
