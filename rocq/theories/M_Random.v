(** Model of the random numbers: /repo/subprojects/ufjfmltk-core/src/Random.cpp and include/ufjfmltk/core/Random.hpp.
    std::mt19937 and the distribution are parameters: a state type, seeding, one step, and the value a new std::uniform_int_distribution(lo, hi) takes from a state.
    Values of std::random_device are inputs. Single-threaded calls only. *)
From Coq Require Import ZArith List.
From Verif Require Import Base.
Import ListNotations.
Local Open Scope Z_scope.

Section Random.
Context {G : Type} (seedg : Z -> G) (next : G -> G) (uniform : Z -> Z -> G -> Z * G).
(** seed_param, m_seed (the one of Random.cpp's translation unit: init and getSeed are defined there), m_generator: Random.cpp:9-10, Random.hpp:18-20. *)
Record rstate := mkRs { rs_param : Z; rs_seed : Z; rs_gen : G }.
(** Random.cpp:9-10: before the first call; [dev] is a random_device value. *)
Definition r_start (dev : Z) : rstate := mkRs 1 1 (seedg dev).
(** m_generator.discard(n) (Random.cpp:12-20). *)
Fixpoint discard (n : nat) (g : G) : G := match n with O => g | S k => discard k (next g) end.
(** Random.cpp:12-20; state_size is 624; the discard before seeding is kept. *)
Definition r_init (dev seed : Z) (s : rstate) : rstate * Z :=
  if Z.eqb seed (rs_param s) then (s, rs_seed s)
  else let _ := discard 624 (rs_gen s) in
       let m := if Z.eqb seed 0 then dev else seed in (mkRs seed m (seedg m), m).
(** Random.cpp:22-24. *)
Definition r_getSeed (s : rstate) : Z := rs_seed s.
(** Random.cpp:26-31: a distribution with lo > hi is undefined. *)
Definition r_int (lo hi : Z) (s : rstate) : outcome (rstate * Z) :=
  if Z.ltb hi lo then UB
  else let (v, g) := uniform lo hi (rs_gen s) in Ok (mkRs (rs_param s) (rs_seed s) g, v).
(** A run: calls to init (with the random_device value it would take) and draws. Random.cpp:12-31. *)
Inductive rcall := RInit (dev seed : Z) | RInt (lo hi : Z).
(** Random.cpp:12-31: one call. *)
Definition r_call (s : rstate) (c : rcall) : outcome (rstate * Z) :=
  match c with RInit dev seed => Ok (r_init dev seed s) | RInt lo hi => r_int lo hi s end.
(** Random.cpp:12-31: the calls of a run. *)
Fixpoint r_run (s : rstate) (cs : list rcall) : outcome (rstate * list Z) :=
  match cs with
  | [] => Ok (s, [])
  | c :: r => let* (s', v) := r_call s c in let* (s'', vs) := r_run s' r in Ok (s'', v :: vs)
  end.
End Random.
Arguments mkRs {G}.
