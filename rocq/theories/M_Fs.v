(** Models of the feature selection: /repo/subprojects/ufjfmltk-featselect/include/ufjfmltk/featselect/{Golub,Fisher,RFE}.hpp, over the reals.
    std::sort is an oracle. The classifier is an oracle too: what the n-th training returns. It is assumed to leave the dataset as it is.
    Messages, times and the verbose level are left out. *)
From Coq Require Import ZArith Bool List Reals.
From Verif Require Import Base M_Data Loop M_Kmeans.
Import ListNotations.
Local Open Scope nat_scope.

(** Golub.hpp:50-63, Fisher.hpp:59-72: number of points of a class and sum of their values of feature [i]; class Y() == -1 or not. *)
Definition fs_sum (d : data R) (neg : bool) (i : nat) (f : R -> R) : outcome (nat * R) :=
  ofold (fun s j =>
    let* p := vget (d_points d) j in
    if Bool.eqb (Z.eqb (p_y p) (-1)) neg then let* x := vget (p_x p) i in Ok (S (fst s), (snd s + f x)%R) else Ok s) (seq 0 (size d)) (0, 0%R).
(** Golub.hpp:64-65: [None] when the class has no point. *)
Definition fs_avg (d : data R) (neg : bool) (i : nat) : outcome (option R) :=
  let* s := fs_sum d neg i (fun x => x) in
  Ok (if Nat.eqb (fst s) 0 then None else Some (snd s / INR (fst s))%R).
(** Golub.hpp:69-79: [None] when the class has fewer than two points. *)
Definition fs_sd (d : data R) (neg : bool) (i : nat) : outcome (option R) :=
  let* a := fs_avg d neg i in
  match a with
  | None => Ok None
  | Some m => let* s := fs_sum d neg i (fun x => (x - m) * (x - m))%R in
              Ok (if Nat.ltb (fst s) 2 then None else Some (sqrt (snd s / (INR (fst s) - 1))))
  end.
(** Golub.hpp:84-89, Fisher.hpp:93-98: the score of feature [i]; [None] when it is not a finite number. *)
Definition fs_score (fisher : bool) (d : data R) (i : nat) : outcome (option R) :=
  let* ap := fs_avg d false i in let* an := fs_avg d true i in
  let* sp := fs_sd d false i in let* sn := fs_sd d true i in
  Ok (match ap, an, sp, sn with
      | Some ap, Some an, Some sp, Some sn =>
        if Req_EM_T (sp + sn) 0 then None
        else Some (if fisher then (ap - an) * (ap - an) / (sp + sn) else Rabs (ap - an) / (sp + sn))%R
      | _, _, _, _ => None
      end).
(** Golub.hpp:84-89, Fisher.hpp:93-98. *)
Definition fs_scores (fisher : bool) (d : data R) : outcome (list (Z * option R)) :=
  map_outcome (fun i => let* f := vget (d_fnames d) i in let* s := fs_score fisher d i in Ok (f, s)) (seq 0 (dim d)).

(** Golub.hpp:114-147, Fisher.hpp:123-156: the loop over [is]; [train n] is the result of training number [n] (0 is the first, whose result is not used).
    [rem] is the vector remove, [cur] is *stmp, [part] is *stmp_partial. *)
Fixpoint fs_loop (train : nat -> data R -> bool) (sorted : list (Z * R)) (is : list nat) (rem : list Z) (cur part : data R) : outcome (data R) :=
  match is with
  | [] => Ok cur
  | i :: r =>
    let* s := vget sorted i in
    let* rem' := vupd i (fun _ => fst s) rem in
    let* c := removeFeatures cur rem' in
    if train (S i) (fst c) then fs_loop train sorted r rem' (fst c) (copy (fst c)) else Ok part
  end.
(** Golub.hpp:37-161, Fisher.hpp:46-157. The vector remove is filled with 0 by Golub and with -1 by Fisher; [dim - number] below 0 makes its allocation throw.
    [None]: a score is not a finite number and the order is not specified here. *)
Definition fs_select (fisher : bool) (srt : list (Z * R) -> list (Z * R)) (train : nat -> data R -> bool) (number : nat) (d : data R) : outcome (option (data R)) :=
  if Nat.ltb (dim d) number then Abort else
  let* scores := fs_scores fisher d in
  match opt_all (map (fun s => option_map (pair (fst s)) (snd s)) scores) with
  | None => Ok None
  | Some sc =>
    let* r := fs_loop train (srt sc) (seq 0 (dim d - number)) (repeat (if fisher then -1 else 0)%Z (dim d - number)) (copy d) (copy d) in Ok (Some r)
  end.

(** RFE.hpp:54-304 with no cross-validation (cv->qtde == 0). [train n d]: the weights after training number [n], or [None] when it fails.
    The starting solution handed to the next training (RFE.hpp:244-269) is left out: trainings are an oracle.
    The state: level, jump (0 after a last short step), the vector features, *stmp. [None]: [fuel] levels were not enough. *)
Section Rfe.
Context (srt : list (Z * R) -> list (Z * R)) (train : nat -> data R -> option (list R)) (depth : nat) (samples : data R).
(** RFE.hpp:88-291. *)
Fixpoint rfe_loop (fuel n level jump : nat) (features : list Z) (cur : data R) : outcome (option (nat * data R)) :=
  match fuel with
  | O => Ok None
  | S fuel =>
    match train n cur with
    | None => Ok (Some (jump, if Nat.ltb 0 level then copy samples else cur))
    | Some w =>
      let* weight := map_outcome (fun i => let* v := vget w i in let* f := vget (d_fnames cur) i in Ok (f, v)) (seq 0 (dim cur)) in
      let weight := srt weight in
      if Nat.leb depth level then Ok (Some (jump, cur))
      else
        let leveljump := if Nat.ltb depth (level + jump) then depth else level + jump in
        let* features' := ofold (fun fs i => let* x := vget weight (i - level) in vupd i (fun _ => fst x) fs) (seq level (leveljump - level)) features in
        let* c := removeFeatures cur features' in
        if Nat.ltb depth (level + jump) then rfe_loop fuel (S n) depth 0 features' (fst c) else rfe_loop fuel (S n) (level + jump) jump features' (fst c)
    end
  end.
(** RFE.hpp:68-72: an invalid depth gives an empty dataset. The result: the jump left in the object, and the dataset. *)
Definition rfe (fuel jump : nat) : outcome (option (nat * data R)) :=
  if Nat.ltb depth 1 || Nat.leb (dim samples) depth then Ok (Some (jump, data_empty))
  else rfe_loop fuel 0 0 jump (repeat (-1)%Z depth) (copy samples).
End Rfe.
