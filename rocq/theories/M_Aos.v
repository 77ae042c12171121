(** Model of the admissible ordered search: /repo/subprojects/ufjfmltk-featselect/include/ufjfmltk/featselect/AOS.hpp, over the reals, with
    choice_shape 1, look_ahead_depth 0, q = 2 and no cross-validation (the defaults of its constructor), and the kernel type
    INNER_PRODUCT, which nothing changes. The queue and the table of visited nodes are those of M_Pq.v. std::sort of the weights is an oracle, which may look at the sample (what it compares is in M_AosRank.v), and so is the
    classifier: what the n-th training on a sample answers, with the weights and the margin it leaves in its solution. The classifier is assumed to leave the sample as it is.
    Messages, times and the counters that are only printed are left out. Only the sums of squares are exact reals here. *)
From Coq Require Import ZArith Bool List Reals.
From Verif Require Import Base ListLib Loop M_Data M_Point M_Kmeans M_Pq.
Import ListNotations.
Local Open Scope nat_scope.

(** AOS.hpp:128-138, FeatureSelection.hpp:30-46: breadth, depth, cut, g_margin; the sizes of the queue, of the table and of its rows. *)
Record aos_cfg := mkCfg { a_breadth : nat; a_depth : Z; a_cut : nat; a_gm : R; a_cap : nat; a_len : nat; a_width : nat }.
(** AOS.hpp:34-52, 128-152: the nodes, the table, the queue, lool and *stmp_partial; [s_ws] holds the member w of each node, and [s_n] counts the trainings. *)
Record aos := mkAos { s_st : store; s_tab : visited; s_q : pq; s_ws : list (list R); s_lool : nat; s_part : data R; s_n : nat }.

(** AOS.hpp:745-752: the projected margin at position [i] of the sorted weights. With one feature it keeps the 0 it starts with. *)
Definition aos_projected (dim i : nat) (wi wnorm margin : R) : R :=
  if Nat.ltb 1 dim then
    sqrt (fold_left (fun s j => if Nat.eqb i j then s else (s + (Rabs (wi / wnorm) * margin) * (Rabs (wi / wnorm) * margin))%R) (seq 0 dim) 0%R)
  else 0%R.
(** AOS.hpp:800-811: the features removed in a child, in decreasing order. *)
Definition aos_names (level : nat) (ofnames : list Z) (f : Z) : outcome (list Z) :=
  if Nat.ltb (length ofnames) level then UB else Ok (rev (isort Z.leb (firstn level ofnames ++ [f]))).
(** What a branching step changes: nodes, table, queue and the w of the nodes. AOS.hpp:742-844. *)
Definition front := (store * visited * pq * list (list R))%type.
(** AOS.hpp:742-844: the body of the loop. The w given to a child (790-798) is not read: a child is trained before it is expanded (476-494). *)
Definition aos_branch (c : aos_cfg) (level : nat) (ofnames : list Z) (dim : nat) (ws : list (Z * R)) (wnorm margin : R) (s : front) (i : nat) : outcome front :=
  let '(st, tab, q, nw) := s in
  let* w := vget ws i in
  let tp := aos_projected dim i (snd w) wnorm margin in
  let* names := aos_names level ofnames (fst w) in
  let* a := vis_add (st ++ [Some (mkNode names (S level) tp tp (-1))]) tab (length st) in
  let '(b, st1, tab1) := a in
  if negb (Nat.eqb i 0) && (if Rlt_dec tp ((1 - 5 / 100) * a_gm c) then true else false) then Ok (st1, tab1, q, nw ++ [[]])
  else if b then let* r := pq_insert (a_cap c) st1 q (length st) true in Ok (st1, tab1, snd r, nw ++ [[]])
  else Ok (st1, tab1, q, nw ++ [[]]).
(** AOS.hpp:541-633: the first to reach a level is recorded and the queue is cut. *)
Definition aos_close (c : aos_cfg) (sample : data R) (level lool : nat) (flag : bool) (st : store) (q : pq) (part : data R) : outcome (store * pq * data R) :=
  if Nat.eqb lool level && (flag || Nat.eqb level 0) then
    let* r := pq_prune lool (a_cut c) (a_gm c) st q in Ok (fst r, snd r, copy (copy sample))
  else Ok (st, q, part).
(** AOS.hpp:519-844: the expansion of a node. [None]: the weights are all 0 and the values of the children are not numbers. *)
Definition aos_expand (c : aos_cfg) (srt : data R -> list (Z * R) -> list (Z * R)) (sample : data R) (level : nat) (ofnames : list Z) (w : list R) (margin : R) (s : aos) : outcome (option aos) :=
  let flag := Nat.ltb (s_lool s) level in
  let lool := if flag then level else s_lool s in
  let* k := aos_close c sample level lool flag (s_st s) (s_q s) (s_part s) in
  let '(st, q, part) := k in
  let* ws := map_outcome (fun i => let* x := vget w i in let* f := vget (d_fnames sample) i in Ok (f, x)) (seq 0 (dim sample)) in
  let* wnorm := pnorm2 w in
  if Nat.ltb 1 (dim sample) && (if Req_EM_T wnorm 0 then true else false) then Ok None else
  let* r := ofold (aos_branch c level ofnames (dim sample) (srt sample ws) wnorm margin) (seq 0 (a_breadth c)) (st, s_tab s, q, s_ws s) in
  let '(st1, tab1, q1, nw) := r in
  Ok (Some (mkAos st1 tab1 q1 nw lool part (s_n s))).
(** AOS.hpp:431-845: mainLoop. [tr n e] is what training number [n], on [e], answers, and the weights and margin of the solution. *)
Definition aos_main (c : aos_cfg) (srt : data R -> list (Z * R) -> list (Z * R)) (tr : nat -> data R -> bool * (list R * R)) (sample : data R) (s : aos) : outcome (option aos) :=
  if Nat.eqb (pq_size (s_q s)) 0 then
    let '(w, margin) := snd (tr (s_n s) sample) in
    aos_expand c srt sample 0 [] w margin (mkAos (s_st s) (s_tab s) (s_q s) (s_ws s) (s_lool s) (s_part s) (S (s_n s)))
  else
    let* r := pq_pop (s_st s) (s_q s) in
    match fst r with
    | None => UB
    | Some p =>
        let q := snd r in
        let* n := deref (s_st s) p in
        if Z.ltb (a_depth c) (Z.of_nat (n_level n)) then Ok (Some (mkAos (s_st s) (s_tab s) q (s_ws s) (s_lool s) (s_part s) (s_n s))) else
        if Rlt_dec 0 (n_rgamma n) then
          let* w := vget (s_ws s) p in
          aos_expand c srt sample (n_level n) (n_fnames n) w (n_rgamma n) (mkAos (s_st s) (s_tab s) q (s_ws s) (s_lool s) (s_part s) (s_n s))
        else
          let '(ok, (w, margin)) := tr (s_n s) sample in
          if negb ok then Ok (Some (mkAos (s_st s) (s_tab s) q (s_ws s) (s_lool s) (s_part s) (S (s_n s)))) else
          let* st := assign (s_st s) p (mkNode (n_fnames n) (n_level n) margin (n_pgamma n) margin) in
          let* top := value_at st (pq_el q) 1 in
          if (if Rlt_dec margin top then true else false) || Z.eqb (Z.of_nat (n_level n)) (a_depth c) then
            let* nw := vupd p (fun _ => w) (s_ws s) in
            let* i := pq_insert (a_cap c) st q p false in
            Ok (Some (mkAos st (s_tab s) (snd i) nw (s_lool s) (s_part s) (S (s_n s))))
          else aos_expand c srt sample (n_level n) (n_fnames n) w margin (mkAos st (s_tab s) q (s_ws s) (s_lool s) (s_part s) (S (s_n s)))
    end.

(** How far a search has come: it returned a dataset, it goes on, or a value is not a number. *)
Inductive fate := Done (r : data R) | Running | Undefined.
(** AOS.hpp:252-414: the loop, with at most [fuel] turns. An empty queue here is the end of the search (256-307). *)
Fixpoint aos_loop (fuel : nat) (c : aos_cfg) (srt : data R -> list (Z * R) -> list (Z * R)) (tr : nat -> data R -> bool * (list R * R)) (d : data R) (s : aos) : outcome fate :=
  match fuel with
  | 0 => Ok Running
  | S f =>
      if Nat.eqb (pq_size (s_q s)) 0 then Ok (Done (s_part s)) else
      let* p := slot (pq_el (s_q s)) 1 in
      let* n := deref (s_st s) p in
      let* e := removeFeatures (copy d) (n_fnames n) in
      if Z.eqb (Z.of_nat (dim d)) (Z.of_nat (dim d) - a_depth c) && (if Rlt_dec 0 (n_rgamma n) then true else false) then Ok (Done (fst e)) else
      let* r := aos_main c srt tr (copy (fst e)) s in
      match r with None => Ok Undefined | Some s' => aos_loop f c srt tr d s' end
  end.
(** AOS.hpp:229-232, 309: the arguments checked against the dataset; MAX_BREATH and MAX_DEPTH are 99999. *)
Definition aos_clamp (d : data R) (c : aos_cfg) : aos_cfg :=
  let dm := Z.of_nat (dim d) in
  let dp := if Z.ltb (dm - 1) (a_depth c) then (dm - 1)%Z else a_depth c in
  mkCfg (Nat.min (Nat.min (a_breadth c) (Z.to_nat 99999)) (dim d)) (Z.min dp 99999) (a_cut c) (a_gm c) (a_cap c) (a_len c) (a_width c).
(** AOS.hpp:209-424: selectFeatures. When the first call leaves the queue empty (314-317) what it returns is an empty dataset. *)
Definition aos_select (fuel : nat) (c : aos_cfg) (srt : data R -> list (Z * R) -> list (Z * R)) (tr : nat -> data R -> bool * (list R * R)) (d : data R) : outcome fate :=
  let c := aos_clamp d c in
  let* r := aos_main c srt tr d (mkAos [] (vis_new (a_len c) (a_width c)) (pq_new (a_cap c)) [] 0 (copy d) 0) in
  match r with
  | None => Ok Undefined
  | Some s => if Nat.eqb (pq_size (s_q s)) 0 then Ok (Done data_empty) else aos_loop fuel c srt tr d s
  end.
(** AOS.hpp:174-206: the constructor: the depth from the number of features to keep (an int computed from two ints). *)
Definition aos_new (d : data R) (final_dim : Z) (breadth cut : nat) (gm : R) : aos_cfg :=
  mkCfg breadth (Z.of_nat (dim d) - final_dim) cut gm (Z.to_nat 500000) (Z.to_nat 161387) (Z.to_nat 100).
