(** Specification of the priority queue and of the table of visited nodes of AOS. *)
From Coq Require Import ZArith Bool List Reals Permutation.
From Verif Require Import Base M_Pq.
Import ListNotations.
Local Open Scope nat_scope.

(** [p] points to a node that was not deleted. *)
Definition live (st : store) (p : nat) : Prop := exists n, nth_error st p = Some (Some n).
(** The node [p] points to has value [v]. *)
Definition worth (st : store) (p : nat) (v : R) : Prop := exists n, nth_error st p = Some (Some n) /\ n_value n = v.
(** [p] is one of [ps], and none of them is worth more. *)
Definition best (st : store) (ps : list nat) (p : nat) : Prop := In p ps /\ exists v, worth st p v /\ forall q w, In q ps -> worth st q w -> (w <= v)%R.
(** What the queue holds: the first [size] places after place 0. *)
Definition holds (h : pq) (ps : list nat) : Prop := firstn (pq_size h) (tl (pq_el h)) = map Some ps /\ length ps = pq_size h.

(** Calls on a queue. *)
Inductive call := Insert (p : nat) (first : bool) | Pop.
(** What they answer. *)
Inductive answer := Inserted (b : bool) | Popped (p : option nat).
(** One call after the other. *)
Fixpoint calls (cap : nat) (st : store) (h : pq) (cs : list call) : outcome (list answer * pq) :=
  match cs with
  | [] => Ok ([], h)
  | Insert p f :: r => let* a := pq_insert cap st h p f in let* s := calls cap st (snd a) r in Ok (Inserted (fst a) :: fst s, snd s)
  | Pop :: r => let* a := pq_pop st h in let* s := calls cap st (snd a) r in Ok (Popped (fst a) :: fst s, snd s)
  end.
(** A bag of at most [cap] pointers from which the best is taken; when it is full, one of its members gives way to a better one, or the newcomer, which is not better than some member, is refused. *)
Inductive bag (cap : nat) (st : store) : list nat -> list call -> list answer -> list nat -> Prop :=
| bag_end ps ps' : Permutation ps ps' -> bag cap st ps [] [] ps'
| bag_insert ps p f r a out : length ps < cap -> bag cap st (p :: ps) r a out -> bag cap st ps (Insert p f :: r) (Inserted true :: a) out
| bag_replace ps l v p w ps' f r a out : length ps = cap -> Permutation ps (l :: ps') -> worth st l v -> worth st p w -> (v < w)%R ->
    bag cap st (p :: ps') r a out -> bag cap st ps (Insert p f :: r) (Inserted true :: a) out
| bag_refuse ps l v p w f r a out : length ps = cap -> In l ps -> worth st l v -> worth st p w -> (w <= v)%R ->
    bag cap st ps r a out -> bag cap st ps (Insert p f :: r) (Inserted false :: a) out
| bag_none r a out : bag cap st [] r a out -> bag cap st [] (Pop :: r) (Popped None :: a) out
| bag_pop ps p ps' r a out : best st ps p -> Permutation ps (p :: ps') -> bag cap st ps' r a out -> bag cap st ps (Pop :: r) (Popped (Some p) :: a) out.

(** The node at [p] is one that cut removes: its level is below [levelat], and its value is below 95% of the margin given or its level is at least [cut] below. *)
Definition stale (levelat cut : nat) (g : R) (st : store) (p : nat) : Prop :=
  exists n, nth_error st p = Some (Some n) /\ n_level n < levelat /\ ((n_value n < 95 / 100 * g)%R \/ n_level n + cut <= levelat).

(** Adding new nodes, one after the other, to the table of visited nodes. *)
Fixpoint additions (st : store) (t : visited) (ns : list node) : outcome (list bool * store * visited) :=
  match ns with
  | [] => Ok ([], st, t)
  | n :: r => let* a := vis_add (st ++ [Some n]) t (length st) in
              let '(b, st1, t1) := a in
              let* s := additions st1 t1 r in let '(bs, st2, t2) := s in Ok (b :: bs, st2, t2)
  end.
(** Which of the nodes are the first with their features. *)
Fixpoint firsts (seen : list (list Z)) (ns : list node) : list bool :=
  match ns with
  | [] => []
  | n :: r => negb (if in_dec (list_eq_dec Z.eq_dec) (n_fnames n) seen then true else false) :: firsts (n_fnames n :: seen) r
  end.
(** A node that lists exactly [n_level] features. *)
Definition tidy (n : node) : Prop := length (n_fnames n) = n_level n.
(** [m] is what the table is to keep of [n], the first node with its features, after the nodes [later]: [n] itself when it was trained (its real margin is not negative); otherwise value and
    projected margin are those of the most valuable node with these features. *)
Definition kept (n : node) (later : list node) (m : node) : Prop :=
  n_fnames m = n_fnames n /\ n_level m = n_level n /\ n_rgamma m = n_rgamma n /\
  ((0 <= n_rgamma n)%R -> m = n) /\
  ((n_rgamma n < 0)%R -> (exists k, In k (n :: later) /\ n_fnames k = n_fnames n /\ n_value m = n_value k /\ n_pgamma m = n_pgamma k) /\
                       forall k, In k (n :: later) -> n_fnames k = n_fnames n -> (n_value k <= n_value m)%R).
(** The pointers in the table. *)
Definition tabled (t : visited) : list nat := concat (t_rows t).
(** How many insertions of a kind were accepted. *)
Fixpoint accepted (first : bool) (cs : list call) (a : list answer) : nat :=
  match cs, a with
  | Insert _ f :: r, Inserted true :: b => (if Bool.eqb f first then 1 else 0) + accepted first r b
  | _ :: r, _ :: b => accepted first r b
  | _, _ => 0
  end.
(** The sum of the squares of the features. *)
Definition squares (f : list Z) : Z := fold_right (fun x s => (x * x + s)%Z) 0%Z f.
(** Two lists of features fall in the same row of a table with [len] rows. *)
Definition same_row (len : nat) (f f' : list Z) : Prop := (squares f mod Z.of_nat len = squares f' mod Z.of_nat len)%Z.
