(** Models of RSM (/repo/subprojects/ufjfmltk-core/include/ufjfmltk/core/Sampling.hpp:80-104) and of the artificial datasets
    (/repo/subprojects/ufjfmltk-core/src/Datasets.cpp), over the reals. Random draws are streams of numbers; std::shuffle is a list of positions.
    The number of classes or centers is a natural number: a negative one is not modelled. Names of datasets are left out. *)
From Coq Require Import ZArith Bool List Reals.
From Verif Require Import Base M_Data Loop.
Import ListNotations.
Local Open Scope nat_scope.

(** std::ceil. Used at Sampling.hpp:92. *)
Definition ceil (x : R) : Z := (- Int_part (- x))%Z.
(** Sampling.hpp:82-86: n_dims and feats. *)
Record rsm := mkRsm { rsm_dims : nat; rsm_feats : list nat }.
(** Sampling.hpp:90-95; converting a negative double to size_t is undefined. *)
Definition rsm_make (r : R) (dims : nat) : outcome rsm :=
  let n := ceil (r * INR dims) in
  if Z.ltb n 0 then UB else Ok (mkRsm (Z.to_nat n) (seq 0 dims)).
(** Sampling.hpp:96-103: the vector feats stays shuffled; feats[j] is unchecked. *)
Definition rsm_call (perm : list nat) (s : rsm) : outcome (rsm * list nat) :=
  let* fs := permute perm (rsm_feats s) in
  let* out := map_outcome (vget fs) (seq 0 (rsm_dims s)) in
  Ok (mkRsm (rsm_dims s) fs, out).
(** Calls one after another. Calls of Sampling.hpp:96-103. *)
Fixpoint rsm_run (perms : list (list nat)) (s : rsm) : outcome (list (list nat)) :=
  match perms with
  | [] => Ok []
  | p :: r => let* (s', out) := rsm_call p s in let* outs := rsm_run r s' in Ok (out :: outs)
  end.

(** Datasets.cpp:32-41 and 94-103: the ids and the index are numbered again. *)
Definition renumber {T} (d : data T) : data T :=
  setIndex (mkData (map (fun p => mkPoint (p_x (snd p)) (p_y (snd p)) (Z.of_nat (fst p) + 1) (p_alpha (snd p))) (combine (seq 0 (length (d_points d))) (d_points d)))
    (d_fnames d) (d_index d) (d_cnames d) (d_classes d) (d_dist d) (d_size d) (d_dim d) (d_isempty d) (d_normalized d) (d_cdist d) (d_class d)) (iota 0 (length (d_points d))).
(** Datasets.cpp:30-41 and 92-103. *)
Definition finish {T} (perm : option (list nat)) (d : data T) : outcome (data T) :=
  let* d' := match perm with None => Ok d | Some p => shuffle p d end in Ok (renumber d').
(** dataset.insertPoint at Datasets.cpp:27, 88. *)
Definition push {T} (d : data T) (p : point T) : outcome (data T) := let* r := insertPoint d p false in Ok (fst r).

(** Datasets.cpp:25-26 and 81-87: the label of class or center number [i] of [k]. *)
Definition gen_label (k i : nat) : Z := if Nat.eqb k 2 then (if Nat.eqb i 0 then -1 else 1)%Z else (Z.of_nat i + 1)%Z.

(** Datasets.cpp:8-44. [u], [v i], [w i]: the numbers of the calls of random_init. The ceil is applied to an integer division. *)
Definition make_spirals (u : nat -> R) (v w : nat -> nat -> R) (n k : nat) (perm : option (list nat)) (noise loops margin : R) : outcome (data R) :=
  if Nat.eqb k 0 then UB else
  let m := Nat.div n k in
  let theta := fun j => (u j * loops * 360 * PI / 180)%R in
  let r := fun j => (theta j * margin * INR k)%R in
  let* d := ofold (fun d i =>
    let rot := fun j => (theta j + INR i * 2 * PI / INR k)%R in
    ofold (fun d j => push d (mkPoint [r j * cos (rot j) + v i j * noise; r j * sin (rot j) + w i j * noise]%R (gen_label k i) 0 0%R)) (seq 0 m) d) (seq 0 k) data_empty in
  finish perm d.

(** Datasets.cpp:62-108. [nrm a b t]: draw number [t], of mean [a] and deviation [b]. center[j] and clusters_std[c] are unchecked.
    The state: the dataset and the number of draws. *)
Definition make_blobs (nrm : R -> R -> nat -> R) (t0 : nat) (ns : list nat) (centers : list (list R)) (stds : list R) (n_dims : nat) (perm : option (list nat)) (has_classes : bool) : outcome (data R) :=
  let d0 := mkData [] [] [] [] [] [] 0 0 true false false has_classes in
  let* s := ofold (fun s n => ofold (fun s c =>
      let* center := vget centers c in
      ofold (fun s (_ : nat) =>
        let* x := map_outcome (fun j => let* a := vget center j in let* b := vget stds c in Ok (nrm a b (snd s + j))) (seq 0 n_dims) in
        let* d := push (fst s) (mkPoint x (if has_classes then gen_label (length centers) c else 0%Z) 0 0%R) in
        Ok (d, snd s + n_dims)) (seq 0 n) s) (seq 0 (length centers)) s) ns (d0, t0) in
  finish perm (fst s).
(** Datasets.cpp:46-60: the other form; [uni t] is draw number [t] of the centers. *)
Definition make_blobs_n (uni : nat -> R) (nrm : R -> R -> nat -> R) (n k n_dims : nat) (std : R) (perm : option (list nat)) (has_classes : bool) : outcome (data R * list (list R)) :=
  if Nat.eqb k 0 then UB else
  let centers := map (fun c => map (fun j => uni (c * n_dims + j)) (seq 0 n_dims)) (seq 0 k) in
  let* d := make_blobs nrm (k * n_dims) (repeat (Nat.div n k) k) centers (repeat std k) n_dims perm has_classes in Ok (d, centers).

(** Datasets.cpp:110-146. A row is the values of a point and its real Y. [x0 t]: the standard normal draws; [nz t]: the noise of the t-th point.
    Mean and deviation of the noise and the dataset's other fields are left out; mltk::dot stops at unequal sizes, which cannot occur here. *)
Definition make_regression (x0 : nat -> R) (nz : nat -> R) (n n_dims : nat) (bias noise : R) (n_inf : nat) (perm : option (list nat)) : outcome (list (list R * R) * list R) :=
  let k := Nat.min n_dims n_inf in
  let xs := map (fun i => map (fun j => x0 (i * n_dims + j)) (seq 0 n_dims)) (seq 0 n) in
  let coef := map (fun j => x0 (n * n_dims + j)) (seq 0 k) ++ repeat 0%R (n_dims - k) in
  let* rows := map_outcome (fun ix =>
    let* y := osum n_dims (fun j => let* a := vget (snd ix) j in let* b := vget coef j in Ok (a * b)%R) in
    Ok (snd ix, (if Rlt_dec 0 noise then y + bias + nz (fst ix) else y + bias)%R)) (combine (seq 0 n) xs) in
  let* rows' := match perm with None => Ok rows | Some p => permute p rows end in
  Ok (rows', coef).
