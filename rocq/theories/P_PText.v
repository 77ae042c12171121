(** Property theorems: C132: texts, selections and comparisons of points.
    Each is closed by the lemma of the same (lower-case) name in T_PText.v. *)
From Coq Require Import Ascii String ZArith List Bool Arith Lia Sorting.Sorted Permutation.
From Verif Require Import Base ListLib Loop M_Str M_Data M_PText S_PText.
From Verif Require Import T_PText.
Import ListNotations.
Local Open Scope nat_scope.

(** C132: the text of a point with at least one coordinate: the id if positive, then the coordinates and the label in brackets, separated by commas. *)
Theorem C132_text : forall (T : Type) (low : Z) (sx : T -> str) (sy sid : Z -> str) (p : point T), p_x p <> [] ->
  print_point low sx sy sid p = Ok (id_part sid p ++ "[" % char :: listed (shown low sx sy p) ++ ["]" % char]).
Proof. exact c132_text. Qed.
Print Assumptions C132_text.

(** C132: a point without coordinates cannot be printed: its coordinate 0 is read. *)
Theorem C132_empty_refuted : forall (T : Type) (low : Z) (sx : T -> str) (sy sid : Z -> str) (p : point T), p_x p = [] -> print_point low sx sy sid p = UB.
Proof. exact c132_empty_refuted. Qed.
Print Assumptions C132_empty_refuted.

(** C132: if no coordinate and no label is written with a comma, and no id with a bracket, two points with the same text have the same printed id and the same
    printed coordinates and label, in this order. *)
Theorem C132_injective : forall (T : Type) (low : Z) (sx : T -> str) (sy sid : Z -> str) (p q : point T) (t : str),
  (forall x, without ("," % char) (sx x)) -> (forall y, without ("," % char) (sy y)) -> (forall i, without ("[" % char) (sid i)) ->
  print_point low sx sy sid p = Ok t -> print_point low sx sy sid q = Ok t ->
  id_part sid p = id_part sid q /\ shown low sx sy p = shown low sx sy q.
Proof. exact c132_injective. Qed.
Print Assumptions C132_injective.

(** C132: but a hidden label makes the last coordinate look like a label: the text does not tell the number of coordinates. *)
Theorem C132_hidden_refuted : forall (T : Type) (low : Z) (sx : T -> str) (sy sid : Z -> str) (x : list T) (v : T) (y id : Z) (alpha alpha' : T), x <> [] -> (low < y)%Z -> sx v = sy y ->
  print_point low sx sy sid (mkPoint (x ++ [v]) low id alpha) = print_point low sx sy sid (mkPoint x y id alpha').
Proof. exact c132_hidden_refuted. Qed.
Print Assumptions C132_hidden_refuted.

(** C132: a dataset is printed as the texts of its points, each on a line. *)
Theorem C132_data : forall (T : Type) (low : Z) (sx : T -> str) (sy sid : Z -> str) (d : data T), (forall p, In p (d_points d) -> p_x p <> []) ->
  print_data low sx sy sid d = Ok (concat (map (fun p => id_part sid p ++ "[" % char :: listed (shown low sx sy p) ++ ["]" % char; ascii_of_nat 10]) (d_points d))).
Proof. exact c132_data. Qed.
Print Assumptions C132_data.

(** C132: and one point without coordinates makes printing the dataset undefined behaviour. *)
Theorem C132_data_refuted : forall (T : Type) (low : Z) (sx : T -> str) (sy sid : Z -> str) (d : data T) (p : point T), In p (d_points d) -> p_x p = [] -> print_data low sx sy sid d = UB.
Proof. exact c132_data_refuted. Qed.
Print Assumptions C132_data_refuted.

(** C132: selectFeatures of positions inside the point gives the coordinates at these positions in ascending order (with repetitions), and keeps label, id and
    alpha; a position outside stops the program. *)
Theorem C132_select : forall (T : Type) (p : point T) (feats : list nat), (forall f, In f feats -> f < List.length (p_x p)) ->
  exists fs xs, ascending feats fs /\ Forall2 (fun f v => nth_error (p_x p) f = Some v) fs xs /\ pt_select p feats = Ok (mkPoint xs (p_y p) (p_id p) (p_alpha p)).
Proof. exact c132_select. Qed.
Print Assumptions C132_select.

Theorem C132_select_stops : forall (T : Type) (p : point T) (feats : list nat) (f : nat), In f feats -> List.length (p_x p) <= f -> pt_select p feats = Abort.
Proof. exact c132_select_stops. Qed.
Print Assumptions C132_select_stops.

(** C132: the order in which the positions are named does not matter, so a projection cannot reorder the coordinates. *)
Theorem C132_order_refuted : forall (T : Type) (p : point T) (feats feats' : list nat), Permutation feats feats' -> pt_select p feats = pt_select p feats'.
Proof. exact c132_order_refuted. Qed.
Print Assumptions C132_order_refuted.

(** C132: == compares the coordinates only, and != is its negation (also for coordinates that are not equal to themselves, when comparing is symmetric). *)
Theorem C132_equal : forall (T : Type) (eqT : T -> T -> bool) (p q : point T), (forall a b, eqT a b = true <-> a = b) ->
  (pt_eq eqT p q = true <-> p_x p = p_x q) /\ (pt_ne eqT p q = true <-> p_x p <> p_x q).
Proof. exact c132_equal. Qed.
Print Assumptions C132_equal.

(** C132: so points with other labels, ids and alphas are equal. *)
Theorem C132_label_refuted : forall (T : Type) (eqT : T -> T -> bool) (x : list T) (y y' id id' : Z) (a a' : T), (forall v, eqT v v = true) -> pt_eq eqT (mkPoint x y id a) (mkPoint x y' id' a') = true.
Proof. exact c132_label_refuted. Qed.
Print Assumptions C132_label_refuted.

(** C132: erase(b, e) removes the coordinates from b up to e, without e. *)
Theorem C132_erase : forall (T : Type) (p : point T) (b e : nat), b <= e -> e <= List.length (p_x p) ->
  exists q, pt_erase p b e = Ok q /\ List.length (p_x q) = List.length (p_x p) - (e - b) /\ p_y q = p_y p /\ p_id q = p_id p /\ p_alpha q = p_alpha p /\
    (forall i, i < b -> nth_error (p_x q) i = nth_error (p_x p) i) /\ (forall i, b <= i -> nth_error (p_x q) i = nth_error (p_x p) (i + (e - b))).
Proof. exact c132_erase. Qed.
Print Assumptions C132_erase.

Example C132_text_ex : print_point (-1000) tx tx tx (mkPoint [5; 12]%Z 1 7 0%Z) = Ok (list_ascii_of_string "7:[5, 12, 1]").
Proof. exact c132_text_ex. Qed.

Example C132_empty_refuted_ex : p_x (mkPoint (@nil Z) 1 7 0%Z) = [].
Proof. exact c132_empty_refuted_ex. Qed.

Example C132_injective_ex : print_point (-1000) tx tx tx (mkPoint [5]%Z 1 7 0%Z) = Ok (list_ascii_of_string "7:[5, 1]") /\ without ("," % char) (tx 5) /\ without ("[" % char) (tx 7).
Proof. exact c132_injective_ex. Qed.

Example C132_hidden_refuted_ex : print_point (-1000) tx tx tx (mkPoint [5; 1]%Z (-1000) 7 0%Z) = print_point (-1000) tx tx tx (mkPoint [5]%Z 1 7 0%Z).
Proof. exact c132_hidden_refuted_ex. Qed.

Example C132_data_ex : forall p, In p [mkPoint [5; 12]%Z 1 1 0%Z; mkPoint [6; 2]%Z 2 2 0%Z] -> p_x p <> [].
Proof. exact c132_data_ex. Qed.

Example C132_data_refuted_ex : In (mkPoint (@nil Z) 1 1 0%Z) [mkPoint [5]%Z 1 1 0%Z; mkPoint (@nil Z) 1 1 0%Z].
Proof. exact c132_data_refuted_ex. Qed.

Example C132_select_ex : pt_select (mkPoint [5; 12; 8]%Z 1 7 0%Z) [2; 0] = Ok (mkPoint [5; 8]%Z 1 7 0%Z).
Proof. exact c132_select_ex. Qed.

Example C132_select_stops_ex : pt_select (mkPoint [5; 12; 8]%Z 1 7 0%Z) [1; 3] = Abort.
Proof. exact c132_select_stops_ex. Qed.

Example C132_order_refuted_ex : Permutation [2; 0] [0; 2] /\ pt_select (mkPoint [5; 12; 8]%Z 1 7 0%Z) [2; 0] <> Ok (mkPoint [8; 5]%Z 1 7 0%Z).
Proof. exact c132_order_refuted_ex. Qed.

Example C132_equal_ex : pt_eq Z.eqb (mkPoint [5; 12]%Z 1 7 0%Z) (mkPoint [5; 12]%Z 2 8 1%Z) = true /\ pt_ne Z.eqb (mkPoint [5; 12]%Z 1 7 0%Z) (mkPoint [5]%Z 1 7 0%Z) = true /\ (forall a b, Z.eqb a b = true <-> a = b).
Proof. exact c132_equal_ex. Qed.

Example C132_label_refuted_ex : forall v : Z, Z.eqb v v = true.
Proof. exact c132_label_refuted_ex. Qed.

Example C132_erase_ex : pt_erase (mkPoint [5; 12; 8; 9]%Z 1 7 0%Z) 1 3 = Ok (mkPoint [5; 9]%Z 1 7 0%Z).
Proof. exact c132_erase_ex. Qed.

