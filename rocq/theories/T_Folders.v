(** Property lemmas: plot folders. *)
From Coq Require Import Bool List Arith Lia.
From Verif Require Import Base ListLib M_Folders S_Folders L_Folders L_Folders2.
Import ListNotations.
Local Open Scope nat_scope.

Lemma upd_obj_lt {A} (dk : disk A) i v (x : option vis) : vobj dk i = Ok v -> exists os, upd i (fun _ => x) (objs dk) = Some os.
Proof.
  unfold vobj. intros H. apply upd_lt. apply nth_error_Some. destruct (nth_error (objs dk) i); [discriminate|discriminate].
Qed.

(** C119: the folder a new plot object or new samples go to did not exist before; making a plot object changes no other folder and saves nothing. *)
Lemma c119_fresh : forall (A : Type) (dk : disk A) t k c, exists dk1 n, vstep dk (Open t k c) = Ok dk1 /\ dget (dirs dk) n = None /\
  shows dk1 (length (objs dk)) = Some (Some c) /\ saved dk1 = saved dk /\
  forall m, dget (dirs dk1) m = if Nat.eqb m n then Some c else dget (dirs dk) m.
Proof.
  intros A dk t k c. cbn [vstep]. destruct (create (dirs dk) (counters dk) (mkVis t k None []) c) as ((v & d) & cnt) eqn:E.
  destruct (create_spec _ _ _ _ _ _ _ E) as (n & Fn & Dn & -> & _ & _ & _ & _ & _ & ->).
  eexists _, n. split; [reflexivity|]. split; auto. split; [|split; [reflexivity|intros m; cbn [dirs]; now apply dget_dput]].
  unfold shows. cbn [objs dirs]. rewrite nth_error_app2, Nat.sub_diag by auto. cbn [nth_error]. rewrite Fn, dget_dput by auto. now rewrite Nat.eqb_refl.
Qed.
Lemma c119_fresh_ex : forall c d : list nat, exists dk1, vstep (mkDisk [(0, c)] [] (fun _ => 0) []) (Open 3 true d) = Ok dk1 /\ dirs dk1 = [(0, c); (1, d)].
Proof. intros. eexists. split; reflexivity. Qed.

(** C119: in a program that uses one element type, alone in its directory, every plot object has a folder of its own: at any moment it holds what
    the object was last given, there is no other folder, and what was saved are the contents that objects with keep_temp_files gave up, in order. *)
Lemma c119_own : forall (A : Type) t (ops : list (vop A)) s, Forall (of_type t) ops -> prun (mkP [] []) ops = Some s ->
  exists dk, vrun disk0 ops = Ok dk /\ (forall i, shows dk i = match nth_error (p_live s) i with Some (Some x) => Some (snd x) | _ => None end) /\
    length (dirs dk) = showing (p_live s) /\ map snd (saved dk) = p_saved s.
Proof.
  intros A t ops s F H.
  assert (G : forall ops dk s0, Forall (of_type t) ops -> inv t dk s0 -> prun s0 ops = Some s -> exists dk1, vrun dk ops = Ok dk1 /\ inv t dk1 s).
  { clear. induction ops as [|o r IH]; intros dk s0 F I H; cbn [prun vrun] in *.
    - injection H as <-. exists dk. auto.
    - inversion F; subst. destruct (pstep s0 o) as [s1|] eqn:P; [|discriminate].
      assert (St : exists dk1, vstep dk o = Ok dk1 /\ inv t dk1 s1).
      { destruct o as [u k c|u k|i c st|i st|n c]; cbn [of_type] in H2; subst; cbn [pstep] in P.
        - injection P as <-.
          pose proof (open_empty_inv t k dk s0 I) as I1.
          assert (P1 : nth_error (p_live (mkP (p_live s0 ++ [Some (k, None)]) (p_saved s0))) (length (objs dk)) = Some (Some (k, None))).
          { cbn [p_live]. rewrite (i_len _ _ _ I), nth_error_app2, Nat.sub_diag; auto. }
          destruct (set_inv t _ _ _ (k, None) c 0 I1 P1) as (dk1 & l & E & U & I2). cbn [p_live fst] in U. rewrite (i_len _ _ _ I) in U. rewrite upd_last in U. injection U as <-.
          exists dk1. split; [|replace (p_saved s0) with (p_saved (mkP (p_live s0 ++ [Some (k, None)]) (p_saved s0)) ++ left_behind (k, @None A)) by (destruct k; cbn; now rewrite app_nil_r); exact I2].
          rewrite <- E. cbn [vstep]. unfold vobj. cbn [objs]. rewrite nth_error_app2, Nat.sub_diag by auto. cbn [nth_error obind v_folder dirs saved counters].
          cbv zeta. cbn [fst snd]. destruct (create (dirs dk) (counters dk) (mkVis t k None []) c) as ((v & d) & cnt). unfold vupd. rewrite upd_last. reflexivity.
        - injection P as <-. eexists. split; [reflexivity|]. apply open_empty_inv, I.
        - destruct (nth_error (p_live s0) i) as [[x|]|] eqn:E; try discriminate. destruct (set_inv t _ _ _ x c st I E) as (dk1 & l & E1 & U & I2). rewrite U in P. injection P as <-. eauto.
        - destruct (nth_error (p_live s0) i) as [[x|]|] eqn:E; try discriminate. destruct (close_inv t _ _ _ x st I E) as (dk1 & l & E1 & U & I2). rewrite U in P. injection P as <-. eauto.
        - discriminate. }
      destruct St as (dk1 & E & I1). rewrite E. cbn [obind]. apply (IH dk1 s1); auto. }
  assert (I0 : inv t (@disk0 A) (mkP [] [])).
  { constructor; cbn; auto; try (intros [|i]; discriminate); try (intros; destruct i; discriminate); try congruence. constructor. }
  destruct (G ops disk0 (mkP [] []) F I0 H) as (dk & E & I). exists dk. split; auto. split; [|split; [apply (i_cnt _ _ _ I)|apply (i_savl _ _ _ I)]].
  intros i. unfold shows. destruct (nth_error (objs dk) i) as [[v|]|] eqn:O.
  - destruct (i_obj _ _ _ I i v O) as (oc & P & _ & Fo). rewrite P. cbn [snd]. destruct oc as [x|]; [destruct Fo as (n & -> & -> & _); auto|now rewrite Fo].
  - now rewrite (i_dead _ _ _ I i O).
  - apply nth_error_None in O. rewrite (i_len _ _ _ I) in O. apply nth_error_None in O. now rewrite O.
Qed.
Lemma c119_own_ex : forall a b c : list nat, let ops := [Open 0 false a; OpenEmpty 0 true; SetSample 1 b 0; SetSample 1 c 1; Close 0 1] in
  Forall (of_type 0) ops /\ prun (mkP [] []) ops = Some (mkP [None; Some (true, Some c)] [b]).
Proof. intros. split; [repeat constructor|reflexivity]. Qed.

(** C119 fails next to folders of somebody else: every existing folder whose number was tried before a free one was found is deleted with the plot
    object, though it never wrote to it. *)
Lemma c119_others_refuted : forall (A : Type) (dk : disk A) t k c st m, counters dk t <= m -> (forall j, counters dk t <= j <= m -> dget (dirs dk) j <> None) ->
  exists dk1 dk2, vstep dk (Open t k c) = Ok dk1 /\ vstep dk1 (Close (length (objs dk)) st) = Ok dk2 /\
    dget (dirs dk1) m = dget (dirs dk) m /\ dget (dirs dk2) m = None /\ forall n, sget (saved dk) (m, n) = None -> sget (saved dk2) (m, n) = None.
Proof.
  intros A dk t k c st m Lm Ex. cbn [vstep]. destruct (create (dirs dk) (counters dk) (mkVis t k None []) c) as ((v & d) & cnt) eqn:E.
  destruct (create_spec _ _ _ _ _ _ _ E) as (n & Fn & Dn & -> & Ln & Tv & Kv & Vf & _ & ->). cbn [v_type v_keep v_folders] in *.
  assert (Nm : m < n). { destruct (Nat.lt_ge_cases m n) as [|G]; auto. exfalso. apply (Ex n); [lia|auto]. }
  eexists. eexists. split; [reflexivity|]. cbn [vstep]. unfold vobj. cbn [objs]. rewrite nth_error_app2, Nat.sub_diag by auto. cbn [nth_error obind]. unfold vupd.
  rewrite upd_last. cbn [obind]. split; [reflexivity|]. cbn [dirs saved]. split; [rewrite dget_dput by auto; destruct (Nat.eqb_spec m n); [lia|auto]|]. split.
  - rewrite fold_drem_get. assert (X : existsb (Nat.eqb m) (v_folders v) = true); [|now rewrite X]. apply existsb_exists. exists m. split; [apply Vf; right; lia|apply Nat.eqb_refl].
  - intros q Sq. unfold remove_temp. rewrite Fn. cbn [dirs saved]. destruct (v_keep v); [|exact Sq]. destruct (dget (dput (dirs dk) n c) n); [|exact Sq]. destruct (sget (saved dk) (n, st)); [exact Sq|]. cbn [snd]. rewrite sget_app, Sq.
    unfold sget. cbn. destruct (Nat.eqb_spec n m); [lia|reflexivity].
Qed.
Lemma c119_others_refuted_ex : forall a b : list nat, let dk := mkDisk [(0, a); (1, b)] [] (fun _ => 0) [] in
  counters dk 7 <= 1 /\ forall j, counters dk 7 <= j <= 1 -> dget (dirs dk) j <> None.
Proof. intros. split; [cbn; lia|]. intros [|[|j]] H; cbn in *; try discriminate; lia. Qed.

(** C119 fails for plot objects of two element types in one program: destroying the second deletes the folder of the first, which is still in use. *)
Lemma c119_types_refuted : forall (A : Type) t u k1 k2 (a b : A) st, t <> u ->
  exists dk1 dk2, vrun disk0 [Open t k1 a; Open u k2 b] = Ok dk1 /\ vstep dk1 (Close 1 st) = Ok dk2 /\
    shows dk1 0 = Some (Some a) /\ shows dk2 0 = Some None /\ forall n, sget (saved dk2) (0, n) = None.
Proof.
  intros A t u k1 k2 a b st N.
  assert (E : vrun disk0 [Open t k1 a; Open u k2 b] = Ok (mkDisk [(0, a); (1, b)] [] (fun x => if Nat.eqb x u then 2 else if Nat.eqb x t then 1 else 0)
     [Some (mkVis t k1 (Some 0) [0]); Some (mkVis u k2 (Some 1) [0; 1])])).
  { cbn. destruct (Nat.eqb_spec u t) as [|]; [congruence|]. reflexivity. }
  destruct k2; eexists; eexists; (split; [exact E|]); cbn; (split; [reflexivity|]); (split; [reflexivity|]); split; reflexivity.
Qed.
Lemma c119_types_refuted_ex : 0 <> 1.
Proof. discriminate. Qed.

(** C119 fails for keep_temp_files when a saved folder with the same number and time stamp is there already: the files are lost. *)
Lemma c119_keep_refuted : forall (A : Type) (dk : disk A) i v n c st, vobj dk i = Ok v -> v_keep v = true -> v_folder v = Some n -> In n (v_folders v) ->
  dget (dirs dk) n = Some c -> sget (saved dk) (n, st) <> None ->
  exists dk1, vstep dk (Close i st) = Ok dk1 /\ dget (dirs dk1) n = None /\ saved dk1 = saved dk.
Proof.
  intros A dk i v n c st O K Fv In1 D Sv. destruct (upd_obj_lt dk i v None O) as (os & U).
  cbn [vstep]. rewrite O. cbn [obind]. unfold vupd. rewrite U. cbn [obind]. eexists. split; [reflexivity|]. cbn [dirs saved].
  unfold remove_temp. rewrite Fv, K, D. destruct (sget (saved dk) (n, st)); [|congruence]. cbn [fst snd]. split; auto.
  rewrite fold_drem_get. assert (X : existsb (Nat.eqb n) (v_folders v) = true); [|now rewrite X]. apply existsb_exists. exists n. split; auto. apply Nat.eqb_refl.
Qed.
Lemma c119_keep_refuted_ex : forall a b : list nat, exists dk v, vrun (mkDisk [] [((0, 5), a)] (fun _ => 0) []) [Open 0 true b] = Ok dk /\
  vobj dk 0 = Ok v /\ v_keep v = true /\ v_folder v = Some 0 /\ In 0 (v_folders v) /\ dget (dirs dk) 0 = Some b /\ sget (saved dk) (0, 5) = Some a.
Proof. intros. eexists _, _. repeat (split; [reflexivity|]). split; [cbn; auto|split; reflexivity]. Qed.
