(** Model of k-means: /repo/subprojects/ufjfmltk-clusterer/include/ufjfmltk/clusterer/KMeans.hpp.
    The metric is any real function; a centre coordinate that is not a number (division by an empty cluster) ends the modelled run. *)
From Coq Require Import ZArith Bool List Reals.
From Verif Require Import Base M_Data Loop.
Import ListNotations.
Local Open Scope nat_scope.

(** std::min_element(v.begin(), v.end()) - v.begin(): the first smallest; 0 on the empty vector. *)
Fixpoint min_from (best : R) (bi i : nat) (l : list R) : nat :=
  match l with
  | [] => bi
  | x :: r => if Rlt_dec x best then min_from x i (S i) r else min_from best bi (S i) r
  end.
(** std::min_element (KMeans.hpp:59-73, 172-179): the first minimum. *)
Definition min_element (l : list R) : nat := match l with [] => 0 | x :: r => min_from x 0 1 r end.

(** KMeans.hpp:172-179. *)
Definition km_evaluate (dist : list R -> list R -> R) (centers : list (list R)) (p : list R) : nat :=
  min_element (map (fun c => dist c p) centers).

(** KMeans.hpp:59-73: clusters (lists of positions, id - 1) and cost. *)
Definition assign_one (dist : list R -> list R -> R) (centers : list (list R)) (s : list (list Z) * R) (q : point R) : outcome (list (list Z) * R) :=
  let ds := map (fun c => dist (p_x q) c) centers in
  let c := min_element ds in
  let* cl := vupd c (fun l => l ++ [(p_id q - 1)%Z]) (fst s) in
  let* d := vget ds c in
  Ok (cl, (snd s + d * d)%R).
(** KMeans.hpp:59-73. *)
Definition assign_clusters (dist : list R -> list R -> R) (centers : list (list R)) (clusters : list (list Z)) (points : list (point R)) : outcome (list (list Z) * R) :=
  ofold (assign_one dist centers) points (clusters, 0%R).

(** KMeans.hpp:76-82: adding the points of the cluster to the centre (Point.hpp:364-370 asserts equal sizes). *)
Definition add_point (d : data R) (c : list R) (id : Z) : outcome (list R) :=
  if Z.ltb id 0 then UB else
  let* p := vget (d_points d) (Z.to_nat id) in
  if Nat.eqb (length c) (length (p_x p)) then Ok (map (fun q => fst q + snd q)%R (combine c (p_x p))) else Abort.
(** KMeans.hpp:84-88: the division by the size of the cluster. *)
Definition center_div (c : list R) (n : nat) : option (list R) := if Nat.eqb n 0 then None else Some (map (fun x => x / INR n)%R c).
(** All coordinates are numbers, or the centre is not one (KMeans.hpp:84-88). *)
Fixpoint opt_all {A} (l : list (option A)) : option (list A) :=
  match l with
  | [] => Some []
  | Some x :: r => match opt_all r with Some r' => Some (x :: r') | None => None end
  | None :: _ => None
  end.
(** KMeans.hpp:76-89; [None]: some coordinate is not a number. (A centre without coordinates is counted as not a number too.) *)
Definition compute_centers (d : data R) (clusters : list (list Z)) (centers : list (list R)) : outcome (option (list (list R))) :=
  let* sums := map_outcome (fun i => let* cl := vget clusters i in let* c := vget centers i in ofold (add_point d) cl c) (seq 0 (length clusters)) in
  Ok (opt_all (map (fun p => center_div (fst p) (length (snd p))) (combine sums clusters))).

(** KMeans.hpp:146-166. [late s] is the outcome of the clock test after step s. *)
Inductive km_result := Km_done (centers : list (list R)) (clusters : list (list Z)) | Km_nan | Km_more.
(** KMeans.hpp:146-166. *)
Fixpoint km_loop (dist : list R -> list R -> R) (EPS : R) (late : nat -> bool) (d : data R) (points : list (point R)) (fuel s : nat) (centers : list (list R)) (clusters : list (list Z)) (cost : R) : outcome km_result :=
  match fuel with
  | 0 => Ok Km_more
  | S f =>
      let* a := assign_clusters dist centers clusters points in
      let* c := compute_centers d (fst a) centers in
      match c with
      | None => Ok Km_nan
      | Some centers' =>
          if late s then Ok (Km_done centers' (fst a))
          else
            let cleared := map (fun _ => []) (fst a) in
            if Rle_dec (Rabs (snd a - cost)) EPS then Ok (Km_done centers' cleared)
            else km_loop dist EPS late d points f (S s) centers' cleared (snd a)
      end
  end.
(** KMeans.hpp:102-113, "random": the draws are intInRange(0, size), with both bounds included (Random.cpp:26-31: std::uniform_int_distribution). *)
Definition in_range (lo hi x : Z) : Prop := (lo <= x <= hi)%Z.
(** KMeans.hpp:102-113: the points drawn. *)
Definition km_start (d : data R) (draws : list Z) : outcome (list (list R)) :=
  map_outcome (fun i => let* p := vget (d_points d) (Z.to_nat i) in Ok (p_x p)) draws.
(** KMeans.hpp:92-169 with random initialisation; [points] is the shuffled vector of points; clusters empty as the constructor leaves them. *)
Definition km_train (dist : list R -> list R -> R) (EPS : R) (late : nat -> bool) (d : data R) (points : list (point R)) (draws : list Z) (fuel : nat) : outcome km_result :=
  let* centers := km_start d draws in
  km_loop dist EPS late d points fuel 0 centers (repeat [] (length draws)) 0.
(** KMeans.hpp:187-190. *)
Definition km_clusters (dist : list R -> list R -> R) (d : data R) (centers : list (list R)) (clusters : list (list Z)) : outcome (list (list Z)) :=
  let* a := assign_clusters dist centers clusters (d_points d) in Ok (fst a).
