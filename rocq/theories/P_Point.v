(** Property theorems: Points: arithmetic, assignment, extrema, metrics (C24-C28).
    Each is closed by the lemma of the same (lower-case) name in T_Point.v. *)
From Coq Require Import ZArith Bool List Reals Lra Lia Psatz.
From Verif Require Import Base ListLib M_Data M_Point S_Point L_Vec L_Point.
From Verif Require Import T_Point.
Import ListNotations.
Local Open Scope nat_scope.

(** C24: any arithmetic expression over points of one dimension evaluates to the point of that dimension
    holding at each coordinate the value of the expression. *)
Theorem C24_expressions : forall (n : nat) (e : px), dims n e -> hasv e = true ->
  peval e = Ok (map (den e) (seq 0 n)).
Proof. exact c24_expressions. Qed.
Print Assumptions C24_expressions.

Example C24_expressions_ex : let e := B Add (V [1; 2; 3]%R) (B Mul (Sc 2) (V [1; 1; 4]%R)) in dims 3 e /\ hasv e = true /\ den e 2 = Some (3 + 2 * 4)%R.
Proof. exact c24_expressions_ex. Qed.

(** C24: the binary operators give the element-wise result. *)
Theorem C24_elementwise : forall (o : bop) (a b : vec), length a = length b ->
  peval (B o (V a) (V b)) = Ok (map (fun p => arith o (fst p) (snd p)) (combine a b)) /\
  paccum o a b = Ok (map (fun p => arith o (fst p) (snd p)) (combine a b)).
Proof. exact c24_elementwise. Qed.
Print Assumptions C24_elementwise.

(** C24: operands of different non-zero dimensions are rejected. *)
Theorem C24_mismatch : forall (o : bop) (a b : vec), length a <> length b -> a <> [] -> b <> [] ->
  peval (B o (V a) (V b)) = Abort /\ paccum o a b = Abort /\ pdot a b = Abort.
Proof. exact c24_mismatch. Qed.
Print Assumptions C24_mismatch.

(** C24: an empty operand is not rejected: the sum of a non-empty point and an empty one reads outside
    the empty vector. *)
Theorem C24_empty_refuted : forall (o : bop) (a : vec), a <> [] -> peval (B o (V a) (V [])) = UB.
Proof. exact c24_empty_refuted. Qed.
Print Assumptions C24_empty_refuted.

(** C24: dot is symmetric, linear in each argument, non-negative on the diagonal, and the Euclidean norm
    is its root. *)
Theorem C24_dot : forall (a b c : vec) (k : R), length a = length b -> length b = length c ->
  exists ab ba ac kab_c aa n,
    pdot a b = Ok ab /\ pdot b a = Ok ba /\ pdot a c = Ok ac /\
    pdot a (map (fun p => (k * fst p + snd p)%R) (combine b c)) = Ok kab_c /\
    pdot a a = Ok aa /\ pnorm2 a = Ok n /\
    (ab = ba /\ kab_c = k * ab + ac /\ 0 <= n /\ n * n = aa /\ (aa = 0 -> forall x, In x a -> x = 0) /\
     ab * ab <= aa * (let nb := sumn (length b) (fun i => nz b i * nz b i) in nb))%R.
Proof. exact c24_dot. Qed.
Print Assumptions C24_dot.

Example C24_dot_ex : length [1; 2]%R = length [3; 4]%R /\ pdot [1; 2]%R [3; 4]%R = Ok (0 + 1 * 3 + 2 * 4)%R.
Proof. exact c24_dot_ex. Qed.

(** C24: normalize divides by the Euclidean norm: a non-zero point becomes a unit vector. *)
Theorem C24_normalize : forall (a : vec), (exists x, In x a /\ x <> 0)%R ->
  exists u, pnormalize a = Ok (map Some u) /\ length u = length a /\ pnorm2 u = Ok 1%R.
Proof. exact c24_normalize. Qed.
Print Assumptions C24_normalize.

Example C24_normalize_ex : exists x, In x [0; 3]%R /\ (x <> 0)%R.
Proof. exact c24_normalize_ex. Qed.

(** C24: linspace with two or more samples starts at the lower bound, ends at the upper one and has equal
    steps. *)
Theorem C24_linspace : forall (lo up : R) (n : nat), 2 <= n ->
  length (linspace lo up n) = n /\ nth 0 (linspace lo up n) 0%R = lo /\ nth (n - 1) (linspace lo up n) 0%R = up /\
  forall i, S i < n -> (nth (S i) (linspace lo up n) 0 - nth i (linspace lo up n) 0 = (up - lo) / INR (n - 1))%R.
Proof. exact c24_linspace. Qed.
Print Assumptions C24_linspace.

(** C25: assignment copies the coordinates when the target is not longer than the source. *)
Theorem C25_assign : forall a b : point R, length (p_x a) <= length (p_x b) -> p_x (point_assign a b) = p_x b.
Proof. exact c25_assign. Qed.
Print Assumptions C25_assign.

Example C25_assign_ex : let a := mkPoint [1]%R 1 1 0%R in let b := mkPoint [2; 3]%R 2 2 0%R in length (p_x a) <= length (p_x b).
Proof. exact c25_assign_ex. Qed.

(** C25: a longer target keeps its dimension and its old tail; label, alpha and id are never copied. *)
Theorem C25_assign_refuted : forall a b : point R,
  (length (p_x b) < length (p_x a) -> p_x (point_assign a b) = p_x b ++ skipn (length (p_x b)) (p_x a) /\ p_x (point_assign a b) <> p_x b) /\
  p_y (point_assign a b) = p_y a /\ p_id (point_assign a b) = p_id a.
Proof. exact c25_assign_refuted. Qed.
Print Assumptions C25_assign_refuted.

(** C26: the maximum of a point holding an element of at least [tiny] (the smallest positive double). *)
Theorem C26_max : forall (tiny : R) (v : vec), (exists x, In x v /\ tiny <= x)%R ->
  exists m, pmax tiny (V v) = Ok m /\ In m v /\ forall x, In x v -> (x <= m)%R.
Proof. exact c26_max. Qed.
Print Assumptions C26_max.

Example C26_max_ex : exists x, In x [-1; 2]%R /\ (1 / 1000 <= x)%R.
Proof. exact c26_max_ex. Qed.

(** C26: on a point with no positive element max returns [tiny], which is not an element. *)
Theorem C26_max_refuted : forall (tiny : R) (v : vec), (0 < tiny)%R -> (forall x, In x v -> x <= 0)%R ->
  pmax tiny (V v) = Ok tiny /\ ~ In tiny v.
Proof. exact c26_max_refuted. Qed.
Print Assumptions C26_max_refuted.

(** C26: the minimum, for elements not above the largest double. *)
Theorem C26_min : forall (huge : R) (v : vec), v <> [] -> (forall x, In x v -> x <= huge)%R ->
  exists m, pmin huge (V v) = Ok m /\ In m v /\ forall x, In x v -> (m <= x)%R.
Proof. exact c26_min. Qed.
Print Assumptions C26_min.

Example C26_min_ex : [3; 5]%R <> [] /\ (forall x, In x [3; 5]%R -> x <= 10)%R.
Proof. exact c26_min_ex. Qed.

