(** Model of the look-ahead of the admissible ordered search: /repo/subprojects/ufjfmltk-featselect/include/ufjfmltk/featselect/AOS.hpp:611-625, 846-1011, and of the search with it
    (M_Aos.v is the search without). choice_shape is 1, the default. The classifier is an oracle as in M_Aos.v; it trains on the samples mainLoop gave it (459). Messages and times are left out. *)
From Coq Require Import ZArith Bool List Reals.
From Verif Require Import Base ListLib Loop M_Data M_Point M_Kmeans M_Pq M_Aos.
Import ListNotations.
Local Open Scope nat_scope.

(** AOS.hpp:891-899: the feature of the first least absolute weight. *)
Definition look_choose (names : list Z) (dm : nat) (w : list R) : outcome Z :=
  let* w0 := vget w 0 in
  let* f0 := vget names 0 in
  let* r := ofold (fun mf i => let* x := vget w i in
                     if Rlt_dec (Rabs x) (fst mf) then let* f := vget names i in Ok (Rabs x, f) else Ok mf) (seq 1 (dm - 1)) (Rabs w0, f0) in
  Ok (snd r).
(** AOS.hpp:902-909: the weights handed on; novo_w is never cleared, and the last feature is left out. *)
Definition look_keep (sample : data R) (w : list R) (feat : Z) (novo : list R) : outcome (list R) :=
  ofold (fun acc j => let* f := vget (d_fnames sample) j in
           if Z.eqb f feat then Ok acc else let* x := vget w j in Ok (acc ++ [x])) (seq 0 (dim sample - 1)) novo.
(** AOS.hpp:948-955: the features of a node, in decreasing order. *)
Definition look_names (level : nat) (ofn feats : list Z) : outcome (list Z) :=
  if Nat.ltb (length ofn) level then UB else Ok (rev (isort Z.leb (firstn level ofn ++ feats))).
(** Nodes, table, queue and weights; the trainings so far; the weights of the classifier's solution; and, for each training of the look-ahead, the samples it was on and the weights it was handed. *)
Definition look_state := (front * nat * list R * list (data R * list R))%type.
(** AOS.hpp:871-1003: the loop; [k] turns are left of look_ahead_depth. [count], [feats]: the features taken so far; [stmp]: the sample without them. The pgamma of a node is the margin of a
    new Solution, 0. *)
Fixpoint look_loop (k : nat) (c : aos_cfg) (primal : bool) (tr : nat -> data R -> bool * (list R * R)) (sample : data R) (ofn : list Z) (level : nat)
    (count : nat) (feats : list Z) (stmp : data R) (w novo : list R) (s : look_state) : outcome look_state :=
  match k with
  | 0 => Ok s
  | S k' =>
      if Nat.eqb (S count) (dim sample) || Z.eqb (Z.of_nat (dim stmp)) (Z.of_nat (dim sample) - a_depth c) || Z.eqb (Z.of_nat (level + count)) (a_depth c) then Ok s else
      let* feat := look_choose (d_fnames stmp) (dim stmp) w in
      let* novo1 := if primal then look_keep sample w feat novo else Ok novo in
      let feats1 := feats ++ [feat] in
      let* stmp1 := removeFeatures_copy sample feats1 (Some (S count)) in
      let* names := look_names level ofn feats1 in
      let '(st, tab, q, ws, n, sol, log) := s in
      let* a := vis_add (st ++ [Some (mkNode names (S (level + count)) (-1) 0 (-1))]) tab (length st) in
      let '(b, st1, tab1) := a in
      if b then
        let '(ok, (w1, margin)) := tr n sample in
        let log1 := log ++ [(sample, novo1)] in
        if negb ok then Ok (st1, tab1, q, ws ++ [[]], S n, w1, log1) else
        let* st2 := assign st1 (length st) (mkNode names (S (level + count)) margin 0 margin) in
        let* i := pq_insert (a_cap c) st2 q (length st) true in
        look_loop k' c primal tr sample ofn level (S count) feats1 stmp1 (if primal then w1 else w) novo1 (st2, tab1, snd i, ws ++ [w1], S n, w1, log1)
      else look_loop k' c primal tr sample ofn level (S count) feats1 stmp1 (if primal then sol else w) novo1 (st1, tab1, q, ws ++ [[]], n, sol, log)
  end.
(** AOS.hpp:851-1011: lookAhead: the value returned, and what it leaves. *)
Definition look_ahead (c : aos_cfg) (lad : nat) (primal : bool) (tr : nat -> data R -> bool * (list R * R)) (sample : data R) (ofn : list Z) (w : list R) (level : nat)
    (s : look_state) : outcome (R * look_state) :=
  let* r := look_loop lad c primal tr sample ofn level 0 [] (copy sample) w [] s in Ok (0%R, r).

(** The state of a search: that of M_Aos, the weights of the classifier's solution, the member g_margin (AOS.hpp:135) and the trainings of the look-ahead. *)
Record lsearch := mkLs { z_aos : aos; z_sol : list R; z_gm : R; z_log : list (data R * list R) }.
(** The settings with another g_margin. *)
Definition with_gm (c : aos_cfg) (gm : R) : aos_cfg := mkCfg (a_breadth c) (a_depth c) (a_cut c) gm (a_cap c) (a_len c) (a_width c).
(** AOS.hpp:541-633: the first to reach a level: it is recorded, the look-ahead is run when its depth is above 0, and the queue is cut. *)
Definition look_close (c : aos_cfg) (lad : nat) (primal : bool) (tr : nat -> data R -> bool * (list R * R)) (sample : data R) (ofn : list Z) (w : list R) (level : nat) (s : lsearch) :
    outcome lsearch :=
  let a := z_aos s in
  let flag := Nat.ltb (s_lool a) level in
  let lool := if flag then level else s_lool a in
  if Nat.eqb lool level && (flag || Nat.eqb level 0) then
    let* l := if Nat.ltb 0 lad then look_ahead c lad primal tr sample ofn w level (s_st a, s_tab a, s_q a, s_ws a, s_n a, z_sol s, z_log s)
              else Ok (z_gm s, (s_st a, s_tab a, s_q a, s_ws a, s_n a, z_sol s, z_log s)) in
    let '(gm, (st, tab, q, ws, n, sol, log)) := l in
    let* r := pq_prune lool (a_cut c) gm st q in
    Ok (mkLs (mkAos (fst r) tab (snd r) ws lool (copy (copy sample)) n) sol gm log)
  else Ok (mkLs (mkAos (s_st a) (s_tab a) (s_q a) (s_ws a) lool (s_part a) (s_n a)) (z_sol s) (z_gm s) (z_log s)).
(** AOS.hpp:519-844, as aos_expand. *)
Definition look_expand (c : aos_cfg) (lad : nat) (primal : bool) (srt : data R -> list (Z * R) -> list (Z * R)) (tr : nat -> data R -> bool * (list R * R)) (sample : data R) (level : nat)
    (ofn : list Z) (w : list R) (margin : R) (s : lsearch) : outcome (option lsearch) :=
  let* s1 := look_close c lad primal tr sample ofn w level s in
  let a := z_aos s1 in
  let* ws := map_outcome (fun i => let* x := vget w i in let* f := vget (d_fnames sample) i in Ok (f, x)) (seq 0 (dim sample)) in
  let* wnorm := pnorm2 w in
  if Nat.ltb 1 (dim sample) && (if Req_EM_T wnorm 0 then true else false) then Ok None else
  let* r := ofold (aos_branch (with_gm c (z_gm s1)) level ofn (dim sample) (srt sample ws) wnorm margin) (seq 0 (a_breadth c)) (s_st a, s_tab a, s_q a, s_ws a) in
  let '(st1, tab1, q1, nw) := r in
  Ok (Some (mkLs (mkAos st1 tab1 q1 nw (s_lool a) (s_part a) (s_n a)) (z_sol s1) (z_gm s1) (z_log s1))).
(** The search with another queue and another number of trainings (AOS.hpp:461-519). *)
Definition look_at (s : lsearch) (st : store) (q : pq) (ws : list (list R)) (n : nat) (sol : list R) : lsearch :=
  let a := z_aos s in mkLs (mkAos st (s_tab a) q ws (s_lool a) (s_part a) n) sol (z_gm s) (z_log s).
(** AOS.hpp:431-845, as aos_main. *)
Definition look_main (c : aos_cfg) (lad : nat) (primal : bool) (srt : data R -> list (Z * R) -> list (Z * R)) (tr : nat -> data R -> bool * (list R * R)) (sample : data R) (s : lsearch) :
    outcome (option lsearch) :=
  let a := z_aos s in
  if Nat.eqb (pq_size (s_q a)) 0 then
    let '(w, margin) := snd (tr (s_n a) sample) in
    look_expand c lad primal srt tr sample 0 [] w margin (look_at s (s_st a) (s_q a) (s_ws a) (S (s_n a)) w)
  else
    let* r := pq_pop (s_st a) (s_q a) in
    match fst r with
    | None => UB
    | Some p =>
        let q := snd r in
        let* n := deref (s_st a) p in
        if Z.ltb (a_depth c) (Z.of_nat (n_level n)) then Ok (Some (look_at s (s_st a) q (s_ws a) (s_n a) (z_sol s))) else
        if Rlt_dec 0 (n_rgamma n) then
          let* w := vget (s_ws a) p in
          look_expand c lad primal srt tr sample (n_level n) (n_fnames n) w (n_rgamma n) (look_at s (s_st a) q (s_ws a) (s_n a) (z_sol s))
        else
          let '(ok, (w, margin)) := tr (s_n a) sample in
          if negb ok then Ok (Some (look_at s (s_st a) q (s_ws a) (S (s_n a)) w)) else
          let* st := assign (s_st a) p (mkNode (n_fnames n) (n_level n) margin (n_pgamma n) margin) in
          let* top := value_at st (pq_el q) 1 in
          if (if Rlt_dec margin top then true else false) || Z.eqb (Z.of_nat (n_level n)) (a_depth c) then
            let* nw := vupd p (fun _ => w) (s_ws a) in
            let* i := pq_insert (a_cap c) st q p false in
            Ok (Some (look_at s st (snd i) nw (S (s_n a)) w))
          else look_expand c lad primal srt tr sample (n_level n) (n_fnames n) w margin (look_at s st q (s_ws a) (S (s_n a)) w)
    end.
(** AOS.hpp:252-414, as aos_loop. *)
Fixpoint look_run (fuel : nat) (c : aos_cfg) (lad : nat) (primal : bool) (srt : data R -> list (Z * R) -> list (Z * R)) (tr : nat -> data R -> bool * (list R * R)) (d : data R) (s : lsearch) : outcome fate :=
  match fuel with
  | 0 => Ok Running
  | S f =>
      let a := z_aos s in
      if Nat.eqb (pq_size (s_q a)) 0 then Ok (Done (s_part a)) else
      let* p := slot (pq_el (s_q a)) 1 in
      let* n := deref (s_st a) p in
      let* e := removeFeatures (copy d) (n_fnames n) in
      if Z.eqb (Z.of_nat (dim d)) (Z.of_nat (dim d) - a_depth c) && (if Rlt_dec 0 (n_rgamma n) then true else false) then Ok (Done (fst e)) else
      let* r := look_main c lad primal srt tr (copy (fst e)) s in
      match r with None => Ok Undefined | Some s' => look_run f c lad primal srt tr d s' end
  end.
(** The state in which selectFeatures begins (AOS.hpp:209-250); [sol]: the weights of the solution the classifier holds then. *)
Definition look_new (c : aos_cfg) (d : data R) (sol : list R) : lsearch :=
  mkLs (mkAos [] (vis_new (a_len c) (a_width c)) (pq_new (a_cap c)) [] 0 (copy d) 0) sol (a_gm c) [].
(** AOS.hpp:209-424: selectFeatures after setLookAheadDepth(lad) (1027-1030). *)
Definition look_select (fuel : nat) (c : aos_cfg) (lad : nat) (primal : bool) (srt : data R -> list (Z * R) -> list (Z * R)) (tr : nat -> data R -> bool * (list R * R)) (d : data R) (sol : list R) :
    outcome fate :=
  let c := aos_clamp d c in
  let* r := look_main c lad primal srt tr d (look_new c d sol) in
  match r with
  | None => Ok Undefined
  | Some s => if Nat.eqb (pq_size (s_q (z_aos s))) 0 then Ok (Done data_empty) else look_run fuel c lad primal srt tr d s
  end.
