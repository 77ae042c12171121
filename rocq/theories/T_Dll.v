(** Property lemmas for the doubly linked list: C46. *)
From Coq Require Import ZArith List Arith Lia Bool.
From Verif Require Import Base ListLib M_Dll S_Dll L_Dll.
Import ListNotations.
Local Open Scope nat_scope.

(** C46: append puts a fresh node (index -1) right after the given one and returns it; nothing else changes. *)
Lemma c46_append : forall h l1 p z l2, heap_ok h -> dll h (l1 ++ (p, z) :: l2) ->
  exists h' a, dll_append h (Some p) = Ok (h', Some a) /\ mem h a = None /\ heap_ok h' /\
    dll h' (l1 ++ (p, z) :: (a, (-1)%Z) :: l2) /\
    (forall b, b <> a -> ~ In b (map fst (l1 ++ (p, z) :: l2)) -> mem h' b = mem h b).
Proof.
  intros h l1 p z l2 HO D. destruct (append_ok h l1 p z l2 HO D) as (h' & E & _ & HO' & D' & O). exists h', (brk h). split; auto.
Qed.
Definition h2 : heap := mkHeap (fun a => match a with 0 => Some (mkNode (-1) None (Some 1)) | 1 => Some (mkNode 7 (Some 0) None) | _ => None end) 2.
Lemma c46_append_ex : heap_ok h2 /\ dll h2 ([] ++ (0, (-1)%Z) :: [(1, 7%Z)]).
Proof.
  split; [intros [|[|a]] H; cbn in H; try lia; reflexivity|]. split; [|cbn; auto]. repeat constructor; cbn; intuition discriminate.
Qed.
(** C46: remove unlinks exactly the given node, releases it and returns its predecessor. *)
Lemma c46_remove : forall h l1 p z l2, heap_ok h -> dll h (l1 ++ (p, z) :: l2) ->
  exists h', dll_remove h (Some p) = Ok (h', last_addr l1) /\ heap_ok h' /\ mem h' p = None /\ dll h' (l1 ++ l2) /\
    (forall b, ~ In b (map fst (l1 ++ (p, z) :: l2)) -> mem h' b = mem h b).
Proof. intros h l1 p z l2 HO D. destruct (remove_ok h l1 p z l2 HO D) as (h' & E & _ & HO' & N & D' & O). exists h'. auto 10. Qed.
Lemma c46_remove_ex : heap_ok h2 /\ dll h2 ([(0, (-1)%Z)] ++ (1, 7%Z) :: []).
Proof. apply c46_append_ex. Qed.
(** C46: free releases every node of the list once and touches nothing else; one round per node and a final test suffice. *)
Lemma c46_free : forall h l fuel, dll h l -> length l < fuel ->
  exists h', dll_free fuel h (first l) = Ok (Some h') /\ (forall a, In a (map fst l) -> mem h' a = None) /\ (forall a, ~ In a (map fst l) -> mem h' a = mem h a).
Proof. intros h l fuel [ND L] F. destruct (free_ok l h None fuel ND L F) as (h' & E & _ & A & B). exists h'. auto. Qed.
Lemma c46_free_ex : dll h2 [(0, (-1)%Z); (1, 7%Z)].
Proof. apply c46_append_ex. Qed.

Lemma is_node_split p l : is_node p l = true -> exists l1 z l2, l = l1 ++ (p, z) :: l2 /\ ~ In p (map fst l1).
Proof.
  induction l as [|[b y] r IH]; cbn; [discriminate|]. destruct (Nat.eqb_spec b p) as [->|N]; cbn.
  - intros _. exists [], y, r. auto.
  - intro H. destruct (IH H) as (l1 & z & l2 & -> & NI). exists ((b, y) :: l1), z, l2. split; auto. cbn. intuition.
Qed.
Lemma insert_after_split p a z y l1 l2 : ~ In p (map fst l1) -> insert_after p a z (l1 ++ (p, y) :: l2) = l1 ++ (p, y) :: (a, z) :: l2.
Proof.
  induction l1 as [|[b x] r IH]; cbn; intro N; [rewrite Nat.eqb_refl; auto|]. destruct (Nat.eqb_spec b p) as [->|]; [exfalso; auto|]. rewrite IH; auto.
Qed.
Lemma remove_node_split p y l1 l2 : ~ In p (map fst l1) -> remove_node p (l1 ++ (p, y) :: l2) = l1 ++ l2.
Proof.
  induction l1 as [|[b x] r IH]; cbn; intro N; [rewrite Nat.eqb_refl; auto|]. destruct (Nat.eqb_spec b p) as [->|]; [exfalso; auto|]. rewrite IH; auto.
Qed.
Lemma history_ok : forall ops h l l', heap_ok h -> dll h l -> ref_run (brk h) l ops = Some l' -> first l' = first l /\
  exists h', drun h ops = Ok h' /\ heap_ok h' /\ dll h' l'.
Proof.
  induction ops as [|o r IH]; intros h l l' HO D E; cbn [ref_run drun] in *.
  - injection E as <-. split; auto. exists h. auto.
  - destruct o as [p z|p].
    + destruct (is_node p l) eqn:I; [|discriminate]. destruct (is_node_split _ _ I) as (l1 & y & l2 & -> & N). rewrite insert_after_split in E by auto.
      destruct (append_ok h l1 p y l2 HO D) as (h1 & E1 & B1 & HO1 & D1 & _). cbn [dstep]. rewrite E1. cbn [obind fst snd].
      destruct (set_index_ok h1 (l1 ++ [(p, y)]) (brk h) (-1) l2 z HO1) as (h2' & E2 & B2 & HO2 & D2 & _); [rewrite <- app_assoc; exact D1|].
      rewrite E2. cbn [obind]. rewrite <- app_assoc in D2. cbn [app] in D2. rewrite <- B1, <- B2 in E.
      destruct (IH h2' _ l' HO2 D2) as (F & R). { rewrite B2, B1 in *. exact E. }
      split; auto. rewrite F. destruct l1 as [|[b x] t]; auto.
    + destruct (is_node p (tl l)) eqn:I; [|discriminate]. destruct l as [|[b x] t]; [discriminate|]. cbn [tl] in I. destruct (is_node_split _ _ I) as (l1 & y & l2 & -> & N).
      assert (~ In p (map fst ((b, x) :: l1))) as N'. { cbn. intros [->|Q]; [|auto]. destruct D as [ND _]. cbn in ND. inversion ND as [|? ? NI _]; subst. apply NI. rewrite map_app. apply in_or_app. right. left. auto. }
      change ((b, x) :: l1 ++ (p, y) :: l2) with (((b, x) :: l1) ++ (p, y) :: l2) in *. rewrite remove_node_split in E by auto.
      destruct (remove_ok h _ p y l2 HO D) as (h1 & E1 & B1 & HO1 & _ & D1 & _). cbn [dstep]. rewrite E1. cbn [obind fst]. rewrite <- B1 in E.
      destruct (IH h1 _ l' HO1 D1 E) as (F & R). split; auto.
Qed.
(** C46: over every sequence of appends and removals with valid pointers, starting from a new list, no operation goes wrong, the
    heap holds the list the reference prescribes, the walk along next from the head reads it in order, and the walk along prev from its last node reads it in reverse. *)
Lemma c46_history : forall ops l, let (h0, a0) := dll_new heap_empty in
  ref_run 1 [(a0, (-1)%Z)] ops = Some l ->
  exists h, drun h0 ops = Ok h /\ dll h l /\
    (forall fuel, length l < fuel -> dll_walk fuel h (Some a0) = Ok (Some l) /\ dll_walk_back fuel h (last_addr l) = Ok (Some (rev l))).
Proof.
  intros ops l. cbn [dll_new heap_empty brk]. intro E. set (h0 := mkHeap _ 1).
  destruct (history_ok ops h0 [(0, (-1)%Z)] l) as (F & h & ER & HO & D); auto.
  - intros a Ha. cbn in *. destruct a; [lia|auto].
  - split; [repeat constructor; auto|cbn; auto].
  - exists h. split; auto. split; auto. intros fuel HF. destruct D as [ND L]. split.
    + change (Some 0) with (first [(0, (-1)%Z)]). rewrite <- F. apply (walk_ok l h None fuel L HF).
    + apply linked_seg in L. apply (walk_back_ok h l fuel None L HF).
Qed.
Lemma c46_history_ex : ref_run 1 [(0, (-1)%Z)] [DAppend 0 7; DAppend 0 8; DAppend 1 9; DRemove 2] = Some [(0, (-1)%Z); (1, 7%Z); (3, 9%Z)].
Proof. reflexivity. Qed.
(** C46: null pointers are accepted by all three operations. *)
Lemma c46_null : forall h fuel, dll_append h None = Ok (h, None) /\ dll_remove h None = Ok (h, None) /\ dll_free fuel h None = Ok (Some h).
Proof. intros h fuel. destruct fuel; auto. Qed.
