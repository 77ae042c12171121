(** Model of the multi-class wrappers: /repo/subprojects/ufjfmltk-classifier/include/ufjfmltk/classifier/{OneVsAll,OneVsOne}.hpp, without an over-sampling method.
    The base learners are inputs: what they answer. There is one base learner per class (or ordered pair of classes) of the samples, as the constructors make them. *)
From Coq Require Import ZArith Bool List Reals.
From Verif Require Import Base M_Data M_Heap M_Ens Loop.
Import ListNotations.
Local Open Scope nat_scope.

Section Multi.
Context {T : Type}.
(** p->Y() = (p->Y() == c) ? 1 : -1 (OneVsAll.hpp:67, OneVsOne.hpp:102). *)
Definition binary (c : Z) (p : point T) : point T := mkPoint (p_x p) (if Z.eqb (p_y p) c then 1 else -1)%Z (p_id p) (p_alpha p).
(** OneVsAll.hpp:66-68, OneVsOne.hpp:101-103: the loop over the points. *)
Definition relabel_all (hp : heap T) (h : hdata T) (c : Z) : outcome (heap T) :=
  ofold (fun hp j => h_write hp h j (binary c)) (seq 0 (length (h_refs h))) hp.
(** OneVsAll.hpp:60-78, one learner: the samples it is given; setSamples copies them (Learner.hpp:150). *)
Definition ova_set (hp : heap T) (s : hdata T) (c : Z) : outcome (heap T * hdata T) :=
  let* (hp1, t) := h_copy hp s in
  let t := h_setClasses t [-1; 1]%Z in
  let* hp2 := relabel_all hp1 t c in
  h_copy hp2 t.
(** OneVsAll.hpp:54-85: the samples of the learners, in order. *)
Definition ova_train (hp : heap T) (s : hdata T) : outcome (heap T * list (hdata T)) :=
  ofold (fun st c => let* (hp', h) := ova_set (fst st) s c in Ok (hp', snd st ++ [h])) (d_classes (h_meta s)) (hp, []).
(** OneVsOne.hpp:93-114, the learner of classes ci against cj. *)
Definition ovo_set (hp : heap T) (s : hdata T) (ci cj : Z) : outcome (heap T * hdata T) :=
  let* (hp1, t) := h_classesCopy hp (mkH [] (strip data_empty)) s [ci; cj] in
  let t := h_setClasses t [-1; 1]%Z in
  let* hp2 := relabel_all hp1 t ci in
  h_copy hp2 t.
(** OneVsOne.hpp:85-119: the pairs of different classes in order, with their samples. *)
Definition ovo_pairs (classes : list Z) : list (Z * Z) := flat_map (fun ci => map (fun cj => (ci, cj)) (filter (fun cj => negb (Z.eqb ci cj)) classes)) classes.
(** OneVsOne.hpp:85-119. *)
Definition ovo_train (hp : heap T) (s : hdata T) : outcome (heap T * list (hdata T)) :=
  ofold (fun st c => let* (hp', h) := ovo_set (fst st) s (fst c) (snd c) in Ok (hp', snd st ++ [h])) (ovo_pairs (d_classes (h_meta s))) (hp, []).
End Multi.

(** OneVsAll.hpp:87-101: [values] are the raw values of the learners. *)
Definition ova_evaluate (classes : list Z) (values : list R) : outcome Z := vget classes (max_element values).
(** OneVsOne.hpp:121-142: [says i j] tells whether the learner of i against j answers 1. The counters are size_t. *)
Definition ovo_votes (classes : list Z) (says : nat -> nat -> bool) : outcome (list nat) :=
  ofold (fun v i => ofold (fun v j =>
      let* ci := vget classes i in let* cj := vget classes j in
      if Z.eqb ci cj then Ok v else if says i j then vupd i S v else vupd j S v)
    (seq 0 (length classes)) v) (seq 0 (length classes)) (repeat 0 (length classes)).
(** OneVsOne.hpp:121-142. *)
Definition ovo_evaluate (classes : list Z) (says : nat -> nat -> bool) : outcome Z :=
  let* votes := ovo_votes classes says in vget classes (max_element (map INR votes)).
