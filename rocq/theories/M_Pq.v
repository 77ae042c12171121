(** Models of the priority queue and of the table of visited nodes of AOS, /repo/subprojects/ufjfmltk-featselect/include/ufjfmltk/featselect/AOS.hpp:34-115, 1037-1466.

    Nodes live in a [store]; a pointer is a position of it, and [None] is a node that was deleted: reading it is undefined. Values are reals. The constant MAX_HEAP is the argument
    [cap]. Printing is left out; levels are natural numbers (in the code: int, never negative). *)
From Coq Require Import ZArith Bool List Reals.
From Verif Require Import Base Loop.
Import ListNotations.
Local Open Scope nat_scope.

(** AOS.hpp:34-50. The members radius, dcents, golub and fisher are printed only; train, sv, w and bias are in M_Aos. *)
Record node := mkNode { n_fnames : list Z; n_level : nat; n_value : R; n_pgamma : R; n_rgamma : R }.
Definition store := list (option node).
(** [*p]: undefined when p was deleted. *)
Definition deref (st : store) (p : nat) : outcome node :=
  match nth_error st p with Some (Some n) => Ok n | _ => UB end.
(** [*p = n]. *)
Definition assign (st : store) (p : nat) (n : node) : outcome store := let* _ := deref st p in vupd p (fun _ => Some n) st.
(** [delete p]. *)
Definition release (st : store) (p : nat) : outcome store := let* _ := deref st p in vupd p (fun _ => None) st.

(** AOS.hpp:1038-1050 (and 1262-1275): select_gamma_equal; the loop stops at the first difference. *)
Fixpoint same_prefix (l : nat) (a b : list Z) : outcome bool :=
  match l with
  | 0 => Ok true
  | S k =>
      match a, b with
      | x :: a', y :: b' => if Z.eqb x y then same_prefix k a' b' else Ok false
      | _, _ => UB
      end
  end.
(** AOS.hpp:1037-1050. *)
Definition node_equal (a b : node) : outcome bool :=
  if Nat.eqb (n_level a) (n_level b) then same_prefix (n_level a) (n_fnames a) (n_fnames b) else Ok false.

(** AOS.hpp:53-80, 1061-1076: the table; a row holds its pointers from position 0 on, the rest of its [t_width] places being null. *)
Record visited := mkVis { t_rows : list (list nat); t_width : nat; t_count : nat }.
(** AOS.hpp:1060-1076. *)
Definition vis_new (len width : nat) : visited := mkVis (repeat [] len) width 0.
(** AOS.hpp:1092-1097: the sum of the squares of the first [level] features, modulo the length. The sum is exact in the code below 2^53. *)
Definition hash_index (len : nat) (n : node) : outcome nat :=
  if Nat.ltb (length (n_fnames n)) (n_level n) then UB else
  if Nat.eqb len 0 then UB else
  Ok (Z.to_nat (fold_left (fun s f => (s + f * f)%Z) (firstn (n_level n) (n_fnames n)) 0%Z mod Z.of_nat len)).
(** AOS.hpp:1099-1129: the search in the row; [Some st]: an equal node was met, and merged. *)
Fixpoint add_search (st : store) (e : nat) (row : list nat) : outcome (option store) :=
  match row with
  | [] => Ok None
  | p :: r =>
      let* n := deref st e in
      let* o := deref st p in
      let* q := node_equal n o in
      if q then
        let* st1 := if Rlt_dec (n_rgamma o) 0 then
                      if Rlt_dec (n_value o) (n_value n) then assign st p (mkNode (n_fnames o) (n_level o) (n_value n) (n_pgamma n) (n_rgamma o)) else Ok st
                    else Ok st in
        let* st2 := release st1 e in Ok (Some st2)
      else add_search st e r
  end.
(** AOS.hpp:1082-1146: Hash::add: the answer, the nodes and the table afterwards. A full row ends the program. *)
Definition vis_add (st : store) (t : visited) (e : nat) : outcome (bool * store * visited) :=
  let* n := deref st e in
  let* i := hash_index (length (t_rows t)) n in
  let* row := vget (t_rows t) i in
  let* r := add_search st e row in
  match r with
  | Some st' => Ok (false, st', t)
  | None => if Nat.leb (t_width t) (length row) then Abort else
            let* rows := vupd i (fun w => w ++ [e]) (t_rows t) in Ok (true, st, mkVis rows (t_width t) (S (t_count t)))
  end.

(** AOS.hpp:82-115: elements, size, contheap, contheapreins, maxheapsize, contprooning. The array has MAX_HEAP + 1 places; place 0 stays null. *)
Record pq := mkPq { pq_el : list (option nat); pq_size : nat; pq_ins : nat; pq_reins : nat; pq_max : nat; pq_cut : nat }.
(** AOS.hpp:1285-1298. *)
Definition pq_new (cap : nat) : pq := mkPq (repeat None (cap + 1)) 0 0 0 0 0.
(** [elements[i]] as a pointer that is dereferenced: undefined when null. *)
Definition slot (el : list (option nat)) (i : nat) : outcome nat :=
  match nth_error el i with Some (Some p) => Ok p | _ => UB end.
(** [elements[i]->value]. *)
Definition value_at (st : store) (el : list (option nat)) (i : nat) : outcome R := let* p := slot el i in let* n := deref st p in Ok (n_value n).
(** AOS.hpp:1315, 1320: the value of the parent, 0 when there is none. *)
Definition parent_value (st : store) (el : list (option nat)) (i : nat) : outcome R :=
  let* s := vget el (i / 2) in match s with None => Ok 0%R | Some p => let* n := deref st p in Ok (n_value n) end.
(** AOS.hpp:1315-1322: the loop; it halves [i], so that [fuel] = i is enough. *)
Fixpoint sift (fuel : nat) (st : store) (el : list (option nat)) (i tok : nat) (v : R) : outcome (list (option nat)) :=
  match fuel with
  | 0 => UB
  | S f =>
      let* pv := parent_value st el i in
      if Nat.ltb 1 i && (if Rlt_dec pv v then true else false) then
        let* s := vget el (i / 2) in
        let* el' := vupd i (fun _ => s) el in
        sift f st el' (i / 2) tok v
      else vupd i (fun _ => Some tok) el
  end.
(** AOS.hpp:1304-1330: Heap::insert. *)
Definition pq_insert (cap : nat) (st : store) (h : pq) (tok : nat) (cont : bool) : outcome (bool * pq) :=
  let* n := deref st tok in
  let* place := if Nat.eqb (pq_size h) cap then
                  let* v := value_at st (pq_el h) cap in Ok (if Rlt_dec v (n_value n) then Some (cap, pq_size h) else None)
                else Ok (Some (S (pq_size h), S (pq_size h))) in
  match place with
  | None => Ok (false, h)
  | Some (i, size) =>
      let* el := sift i st (pq_el h) i tok (n_value n) in
      Ok (true, mkPq el size (if cont then S (pq_ins h) else pq_ins h) (if cont then pq_reins h else S (pq_reins h)) (Nat.max (pq_max h) size) (pq_cut h))
  end.
(** AOS.hpp:1405-1424: Heap::percolate, with the size already lowered; the child grows, so that [fuel] = size + 1 is enough. *)
Fixpoint percolate (fuel : nat) (st : store) (el : list (option nat)) (size i : nat) : outcome (list (option nat)) :=
  match fuel with
  | 0 => UB
  | S f =>
      let child := i * 2 in
      let* last := vget el (S size) in
      if Nat.ltb size child then vupd i (fun _ => last) el else
      let* up := if Nat.eqb child size then Ok false else
                 let* a := value_at st el (child + 1) in let* b := value_at st el child in Ok (if Rlt_dec b a then true else false) in
      let child := if up then child + 1 else child in
      let* lv := value_at st el (S size) in
      let* cv := value_at st el child in
      if Rlt_dec lv cv then
        let* c := vget el child in
        let* el' := vupd i (fun _ => c) el in
        percolate f st el' size child
      else vupd i (fun _ => last) el
  end.
(** AOS.hpp:1336-1351: Heap::pop; the answer of an empty queue is null. *)
Definition pq_pop (st : store) (h : pq) : outcome (option nat * pq) :=
  if Nat.eqb (pq_size h) 0 then Ok (None, h) else
  let* m := vget (pq_el h) 1 in
  let* el := percolate (S (pq_size h)) st (pq_el h) (pq_size h - 1) 1 in
  Ok (m, mkPq el (pq_size h - 1) (pq_ins h) (pq_reins h) (pq_max h) (pq_cut h)).
(** AOS.hpp:1437-1438: which nodes cut() removes; NUM_ERROR_EPS is 0.05. *)
Definition obsolete (levelat cut : nat) (g_margin : R) (n : node) : bool :=
  Nat.ltb (n_level n) levelat && ((if Rlt_dec (n_value n) ((1 - 5 / 100) * g_margin) then true else false) || Nat.leb cut (levelat - n_level n)).
(** AOS.hpp:1435-1447: the loop of cut, from place [i] down: nodes, elements, size and count. *)
Fixpoint cut_loop (i : nat) (levelat cut : nat) (g_margin : R) (st : store) (el : list (option nat)) (size count : nat) : outcome (store * list (option nat) * nat * nat) :=
  match i with
  | 0 => Ok (st, el, size, count)
  | S j =>
      let* p := slot el i in
      let* n := deref st p in
      if obsolete levelat cut g_margin n then
        let* st' := release st p in
        let* el' := percolate (S size) st' el (size - 1) i in
        cut_loop j levelat cut g_margin st' el' (size - 1) (S count)
      else cut_loop j levelat cut g_margin st el size count
  end.
(** AOS.hpp:1430-1451: Heap::cut; the table given to it is not used. *)
Definition pq_prune (levelat cut : nat) (g_margin : R) (st : store) (h : pq) : outcome (store * pq) :=
  let* r := cut_loop (pq_size h) levelat cut g_margin st (pq_el h) (pq_size h) 0 in
  let '(st', el, size, count) := r in
  Ok (st', mkPq el size (pq_ins h) (pq_reins h) (pq_max h) (pq_cut h + count)).
(** AOS.hpp:1386-1399: Heap::projected. *)
Definition pq_projected (st : store) (h : pq) : outcome nat :=
  ofold (fun c i => let* p := slot (pq_el h) i in let* n := deref st p in Ok (if Rlt_dec (n_rgamma n) 0 then S c else c)) (seq 1 (pq_size h)) 0.
(** AOS.hpp:1457-1466: ~Heap: the nodes left in it are deleted. *)
Definition pq_free (st : store) (h : pq) : outcome store :=
  ofold (fun st i => let* s := vget (pq_el h) i in match s with None => Ok st | Some p => release st p end) (seq 1 (pq_size h)) st.

(** AOS.hpp:1498-1501: select_weight::operator==, of the weights of the two operands; it compares the second with itself. *)
Definition weight_equal (w other : R) : bool :=
  let gt := if Rlt_dec (Rabs other) (Rabs other) then 1%Z else 0%Z in
  let lt := if Rlt_dec (Rabs other) (Rabs other) then 1%Z else 0%Z in
  negb (Z.eqb (gt - lt) 0).
