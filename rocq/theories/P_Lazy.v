(** Property theorems: C117: point expressions, what they refer to, and when they are evaluated.
    Each is closed by the lemma of the same (lower-case) name in T_Lazy.v. *)
From Coq Require Import ZArith Bool List Reals Lia Lra.
From Verif Require Import Base ListLib M_Point S_Point T_Point M_Lazy S_Lazy L_Lazy.
From Verif Require Import T_Lazy.
Import ListNotations.
Local Open Scope nat_scope.

(** C117: a point initialised with an expression, however deep, gets the value of the expression; nothing else changes. *)
Theorem C117_now : forall (m : mem) (g : names) (n : nat) (e : ex), sound m g n e ->
  exists m', declare m e = Ok (map (value g e) (seq 0 n), m') /\ forall l, l < length m -> nth_error m' l = nth_error m l.
Proof. exact c117_now. Qed.
Print Assumptions C117_now.

(** C117: x = e and x += e, -=, *=, /=, where [x] may occur in [e], but only coordinate by coordinate: the value is as if [e] had been evaluated before. *)
Theorem C117_assign : forall (o : option bop) (m : mem) (g : names) (n x : nat) (e : ex), sound m g n e -> point_at m g n x -> straight x e ->
  exists m', assign_e o m x e = Ok m' /\ only_changed m m' x (map (fun i => result o (nth i (vals g x) None) (value g e i)) (seq 0 n)).
Proof. exact c117_assign. Qed.
Print Assumptions C117_assign.

(** C117: x = s and x += s, -=, *=, /= with a number that is not a coordinate of [x]. *)
Theorem C117_number : forall (o : option bop) (m : mem) (g : names) (n x : nat) (s : num), number_ok m g s -> point_at m g n x -> straight x (BinR Add (Var x) s) ->
  exists m', assign_n o m x s = Ok m' /\ only_changed m m' x (map (fun i => result o (nth i (vals g x) None) (nvalue g s)) (seq 0 n)).
Proof. exact c117_number. Qed.
Print Assumptions C117_number.

(** C117: with a coordinate of [x] itself, the coordinates after it get the result with its new value. *)
Theorem C117_own : forall (o : option bop) (m : mem) (g : names) (n x k : nat), point_at m g n x -> k < n ->
  exists m', assign_n o m x (Elem x k) = Ok m' /\ only_changed m m' x (map (fun i => let c := nth k (vals g x) None in result o (nth i (vals g x) None) (if Nat.leb i k then c else result o c c)) (seq 0 n)).
Proof. exact c117_own. Qed.
Print Assumptions C117_own.

(** C117: x /= x[k] leaves every coordinate after the k-th as it was. *)
Theorem C117_own_refuted : forall (m : mem) (g : names) (n x k : nat) (c : R), point_at m g n x -> k < n -> nth k (vals g x) None = Some c -> (c <> 0)%R ->
  exists m' v, assign_n (Some Div) m x (Elem x k) = Ok m' /\ only_changed m m' x v /\ length v = n /\ (forall i, i <= k -> nth i v None = two Div (nth i (vals g x) None) (Some c)) /\ forall i, k < i -> nth i v None = nth i (vals g x) None.
Proof. exact c117_own_refuted. Qed.
Print Assumptions C117_own_refuted.

(** C117: x = x[p] does not rearrange: the second of two exchanged coordinates gets the value just stored in the first. *)
Theorem C117_gather_refuted : forall a b : R, (a <> b)%R -> let m := [Some (OVec [Some a; Some b]); Some (OIdx [1; 0])] in
  declare m (At 0 1) = Ok ([Some b; Some a], m ++ [None]) /\ assign_e None m 0 (At 0 1) = Ok [Some (OVec [Some b; Some b]); Some (OIdx [1; 0]); None].
Proof. exact c117_gather_refuted. Qed.
Print Assumptions C117_gather_refuted.

(** C117: an expression kept with auto, if it is one operation on named points, gives the value with what the points hold when it is used, not when it was made. *)
Theorem C117_kept : forall (m : mem) (g : names) (n : nat) (e : ex), sound m g n e -> single e ->
  exists m1 h, hold m e = Ok (m1, h) /\ (forall l, l < length m -> nth_error m1 l = nth_error m l) /\
  forall m2 g2, later m1 m2 -> sound m2 g2 n e -> use m2 h = Ok (map (value g2 e) (seq 0 n)).
Proof. exact c117_kept. Qed.
Print Assumptions C117_kept.

(** C117: an expression kept with auto that has an operation inside another, or a number that is not a coordinate of a point, refers to temporaries that are gone: any use is undefined. *)
Theorem C117_kept_refuted : forall (m : mem) (g : names) (n : nat) (e : ex), sound m g n e -> ~ single e -> ~ is_var e -> 0 < n ->
  exists m1 h, hold m e = Ok (m1, h) /\ forall m2, later m1 m2 -> use m2 h = UB.
Proof. exact c117_kept_refuted. Qed.
Print Assumptions C117_kept_refuted.

(** C117: the evaluation by value of M_Point.v, on which C24 to C28 rest, agrees with the one through references. *)
Theorem C117_by_value : forall (m : mem) (g : names) (n : nat) (e : ex) (env : nat -> vec) (p : px), sound m g n e -> (forall x, vals g x = map Some (env x)) -> same env e p ->
  exists v m', peval p = Ok v /\ declare m e = Ok (v, m').
Proof. exact c117_by_value. Qed.
Print Assumptions C117_by_value.

(** x = [1; 2], y = [3; 4]: y -= x * (x + y) and 2 * x + y are sound; x + y can be kept, 2 * x cannot. *)
Example C117_ex : let m := [Some (OVec [Some 1; Some 2]); Some (OVec [Some 3; Some 4])]%R in let g := mkNames (fun x => nth x [[Some 1; Some 2]; [Some 3; Some 4]]%R []) (fun _ => []) in
  sound m g 2 (Bin Mul (Var 0) (Bin Add (Var 0) (Var 1))) /\ straight 1 (Bin Mul (Var 0) (Bin Add (Var 0) (Var 1))) /\ point_at m g 2 1 /\
  sound m g 2 (Bin Add (Var 0) (Var 1)) /\ single (Bin Add (Var 0) (Var 1)) /\ sound m g 2 (BinL Mul (Lit (Some 2%R)) (Var 0)) /\ ~ single (BinL Mul (Lit (Some 2%R)) (Var 0)) /\
  nth 0 (vals g 1) None = Some 3%R /\ later m m.
Proof. exact c117_ex. Qed.

(** 2 * y / x[1]. *)
Example C117_by_value_ex : same (fun x => nth x [[1; 2]; [3; 4]]%R []) (BinR Div (BinL Mul (Lit (Some 2%R)) (Var 1)) (Elem 0 1)) (B Div (B Mul (Sc 2) (V [3; 4]%R)) (Sc 2)).
Proof. exact c117_by_value_ex. Qed.

(** C117: points of different sizes in one operation, or a result that does not fit [x], end the program; nothing is computed from them. *)
Theorem C117_sizes : forall (o : bop) (m : mem) (g : names) (n k : nat) (a b : ex), sound m g n a -> sound m g k b -> n <> k -> 0 < n -> 0 < k -> declare m (Bin o a b) = Abort.
Proof. exact c117_sizes. Qed.
Print Assumptions C117_sizes.

Theorem C117_sizes_assign : forall (o : option bop) (m : mem) (g : names) (n k x : nat) (e : ex), sound m g n e -> point_at m g k x -> n <> k -> assign_e o m x e = Abort.
Proof. exact c117_sizes_assign. Qed.
Print Assumptions C117_sizes_assign.

(** C117: auto h = x makes a point of its own: it keeps its values whatever happens to [x]. *)
Theorem C117_copied : forall (m : mem) (g : names) (n x : nat), point_at m g n x ->
  exists m1 h, hold m (Var x) = Ok (m1, h) /\ length m <= h /\ (forall l, l < length m -> nth_error m1 l = nth_error m l) /\
  forall m2, nth_error m2 h = nth_error m1 h -> use m2 h = Ok (vals g x).
Proof. exact c117_copied. Qed.
Print Assumptions C117_copied.

(** [1; 2] + [3]; [3] = [1; 2]. *)
Example C117_sizes_ex : let m := [Some (OVec [Some 1; Some 2]); Some (OVec [Some 3])]%R in let g := mkNames (fun x => nth x [[Some 1; Some 2]; [Some 3]]%R []) (fun _ => []) in
  sound m g 2 (Var 0) /\ sound m g 1 (Var 1) /\ point_at m g 1 1 /\ point_at m g 2 0.
Proof. exact c117_sizes_ex. Qed.

