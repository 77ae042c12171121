(** Model of the choice of the starting centres of k-means: /repo/subprojects/ufjfmltk-clusterer/include/ufjfmltk/clusterer/KMeans.hpp:48-56, 92-138, over the reals.
    M_Kmeans.v has the random choice and the loop. *)
From Coq Require Import ZArith List Reals Bool.
From Verif Require Import Base M_Data Loop M_Kmeans.
Import ListNotations.
Local Open Scope nat_scope.

(** KMeans.hpp:118-136: one further centre. The distances to the previous centre are divided by their sum and given to a std::discrete_distribution, whose weights must be
    numbers that are not negative (a sum of 0 makes them not numbers); the distribution is not used: the centre is drawn by intInRange. *)
Definition pp_draw (dist : list R -> list R -> R) (points : list (point R)) (prev : list R) (i : Z) : outcome (list R) :=
  let ds := map (fun q => dist prev (p_x q)) points in
  let sum := fold_left Rplus ds 0%R in
  if Req_EM_T sum 0 then UB
  else if existsb (fun x => if Rlt_dec (x / sum) 0 then true else false) ds then UB
  else let* p := vget points (Z.to_nat i) in Ok (p_x p).
(** KMeans.hpp:119-137. *)
Fixpoint pp_from (dist : list R -> list R -> R) (points : list (point R)) (prev : list R) (draws : list Z) : outcome (list (list R)) :=
  match draws with
  | [] => Ok []
  | i :: r => let* c := pp_draw dist points prev i in let* cs := pp_from dist points c r in Ok (c :: cs)
  end.
(** KMeans.hpp:114-138, "kmeanspp"; m_centers[0] does not exist when no cluster is asked for. *)
Definition km_start_pp (dist : list R -> list R -> R) (points : list (point R)) (draws : list Z) : outcome (list (list R)) :=
  match draws with
  | [] => UB
  | i :: r => let* p := vget points (Z.to_nat i) in let* cs := pp_from dist points (p_x p) r in Ok (p_x p :: cs)
  end.
(** KMeans.hpp:24, 102, 114: the text given as initialisation. *)
Inductive km_init := Init_random | Init_pp | Init_other.
(** KMeans.hpp:52, 102-138: with any other text the centres stay as the constructor leaves them. *)
Definition km_centers (dist : list R -> list R -> R) (d : data R) (points : list (point R)) (init : km_init) (k : nat) (draws : list Z) : outcome (list (list R)) :=
  match init with
  | Init_random => km_start d draws
  | Init_pp => km_start_pp dist points draws
  | Init_other => Ok (repeat (repeat 0%R (dim d)) k)
  end.
(** KMeans.hpp:92-169; [k] clusters, as many draws. *)
Definition km_train_init (dist : list R -> list R -> R) (EPS : R) (late : nat -> bool) (d : data R) (points : list (point R)) (init : km_init) (k : nat) (draws : list Z) (fuel : nat) : outcome km_result :=
  let* centers := km_centers dist d points init k draws in
  km_loop dist EPS late d points fuel 0 centers (repeat [] k) 0.
