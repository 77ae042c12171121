(** Lemmas: plot folders, one element type and no other program. *)
From Coq Require Import Bool List Arith Lia.
From Verif Require Import Base ListLib M_Folders S_Folders L_Folders.
Import ListNotations.
Local Open Scope nat_scope.

Section L.
Context {A : Type}.
Implicit Types (dk : disk A) (s : pstate A).

Lemma nodup_snoc {B} (l : list B) x : NoDup l -> ~ In x l -> NoDup (l ++ [x]).
Proof.
  intros N H. apply (NoDup_Add (a := x) (l := l)); [|split; auto]. pose proof (Add_app x l []) as X. rewrite app_nil_r in X. exact X.
Qed.
Lemma upd_const_nth {B} i (x : B) l r : upd i (fun _ => x) l = Some r -> nth_error r i = Some x.
Proof.
  intros U. rewrite (upd_nth_same _ _ _ _ U). destruct (nth_error l i) eqn:E; auto. apply nth_error_None in E. apply upd_Some_lt in U. lia.
Qed.
Lemma nth_upd {B} i (x : B) l r j y : upd i (fun _ => x) l = Some r -> nth_error r j = Some y -> (j = i /\ y = x) \/ (j <> i /\ nth_error l j = Some y).
Proof.
  intros U N. destruct (Nat.eq_dec j i) as [->|Ne]; [left; rewrite (upd_const_nth _ _ _ _ U) in N; split; congruence|right].
  split; auto. rewrite <- (upd_nth_other _ j _ _ _ U); auto.
Qed.
Lemma nth_snoc {B} (l : list B) x j y : nth_error (l ++ [x]) j = Some y -> (j = length l /\ y = x) \/ (j < length l /\ nth_error l j = Some y).
Proof.
  intros N. destruct (Nat.lt_ge_cases j (length l)) as [H|H]; [right; rewrite nth_error_app1 in N; auto|left]. rewrite nth_error_app2 in N by auto.
  destruct (j - length l) as [|k] eqn:E; cbn in N; [|destruct k; discriminate]. injection N as <-. split; auto. lia.
Qed.

Lemma open_empty_inv t k dk s : inv t dk s -> inv t (mkDisk (dirs dk) (saved dk) (counters dk) (objs dk ++ [Some (mkVis t k None [])])) (mkP (p_live s ++ [Some (k, None)]) (p_saved s)).
Proof.
  intros I. pose proof (i_len _ _ _ I) as L. constructor; cbn [objs dirs saved counters p_live p_saved].
  - rewrite !app_length. cbn. lia.
  - intros i v N. apply nth_snoc in N. destruct N as [(-> & E)|(Hi & N)].
    + injection E as ->. exists None. rewrite L, nth_error_app2, Nat.sub_diag by auto. cbn. auto.
    + destruct (i_obj _ _ _ I i v N) as (oc & P & T & F). exists oc. rewrite nth_error_app1 by lia. auto.
  - intros i N. apply nth_snoc in N. destruct N as [(-> & E)|(Hi & N)]; [discriminate|]. rewrite nth_error_app1 by lia. now apply (i_dead _ _ _ I).
  - intros i j v u n Nij Ni Nj Hi Hj. apply nth_snoc in Ni. apply nth_snoc in Nj. destruct Ni as [(-> & E)|(Li & Ni)]; [injection E as ->; destruct Hi|].
    destruct Nj as [(-> & E)|(Lj & Nj)]; [injection E as ->; destruct Hj|]. apply (i_own _ _ _ I i j v u n); auto.
  - intros i v n Ni Hi. apply nth_snoc in Ni. destruct Ni as [(-> & E)|(Li & Ni)]; [injection E as ->; destruct Hi|]. apply (i_lt _ _ _ I i v n Ni Hi).
  - intros n Hn. destruct (i_dir _ _ _ I n Hn) as (Lt & i & v & Ni & F). split; auto. exists i, v. rewrite nth_error_app1; auto. apply nth_error_Some. congruence.
  - apply (i_sav _ _ _ I).
  - apply (i_savl _ _ _ I).
  - apply (i_nodup _ _ _ I).
  - rewrite showing_app, (i_cnt _ _ _ I). lia.
Qed.

Lemma live_obj t dk s i x : inv t dk s -> nth_error (p_live s) i = Some (Some x) -> exists v, nth_error (objs dk) i = Some (Some v) /\ v_type v = t /\ v_keep v = fst x.
Proof.
  intros I P. destruct (nth_error (objs dk) i) as [[v|]|] eqn:E.
  - exists v. destruct (i_obj _ _ _ I i v E) as (oc & P1 & T & _). rewrite P in P1. injection P1 as ->. auto.
  - apply (i_dead _ _ _ I) in E. congruence.
  - apply nth_error_None in E. rewrite (i_len _ _ _ I) in E. apply nth_error_None in E. congruence.
Qed.

Lemma close_inv t dk s i x st : inv t dk s -> nth_error (p_live s) i = Some (Some x) ->
  exists dk1 l, vstep dk (Close i st) = Ok dk1 /\ upd i (fun _ => None) (p_live s) = Some l /\ inv t dk1 (mkP l (p_saved s ++ left_behind x)).
Proof.
  intros I P. destruct (live_obj _ _ _ _ _ I P) as (v & O & T & K). pose proof (removed t dk s i v x st I O P) as Rm. cbv zeta in Rm.
  destruct Rm as (D & Nd & Ln & Sl & Sv & Vf).
  destruct (upd_lt i (fun _ : option (bool * option A) => None) (p_live s)) as (l & U). { apply nth_error_Some. congruence. }
  destruct (upd_lt i (fun _ : option vis => None) (objs dk)) as (os & Uo). { apply nth_error_Some. congruence. }
  eexists _, l. cbn [vstep]. unfold vobj. rewrite O. cbn [obind]. unfold vupd. rewrite Uo. cbn [obind]. split; [reflexivity|]. split; auto.
  rewrite (fold_drem_absent _ _ Vf).
  pose proof (showing_upd _ _ _ _ _ P U) as Sh.
  assert (Oth : forall j u, nth_error os j = Some (Some u) -> j <> i /\ nth_error (objs dk) j = Some (Some u)).
  { intros j u Nj. destruct (nth_upd _ _ _ _ _ _ Uo Nj) as [(_ & X)|X]; [discriminate|auto]. }
  constructor; cbn [objs dirs saved counters p_live p_saved].
  - rewrite (upd_length _ _ _ _ Uo), (upd_length _ _ _ _ U). apply (i_len _ _ _ I).
  - intros j u Nj. destruct (Oth j u Nj) as (Ne & Nj'). destruct (i_obj _ _ _ I j u Nj') as (oc & Pj & Tj & Fj). exists oc.
    rewrite (upd_nth_other _ j _ _ _ U) by auto. split; auto. split; auto. destruct oc as [y|]; auto. destruct Fj as (n & F1 & F2 & F3). exists n.
    split; auto. split; auto. rewrite D. destruct (v_folder v) as [m|] eqn:Fv; auto. destruct (Nat.eqb_spec n m) as [->|]; auto. exfalso.
    destruct (i_obj _ _ _ I i v O) as (oc & _ & _ & Fi). destruct oc; [|congruence]. destruct Fi as (m' & G1 & _ & G3). assert (m' = m) by congruence. subst.
    apply (i_own _ _ _ I j i u v m Ne Nj' O F3 G3).
  - intros j Nj. destruct (nth_upd _ _ _ _ _ _ Uo Nj) as [(-> & _)|(Ne & Nj')]; [apply (upd_const_nth _ _ _ _ U)|]. rewrite (upd_nth_other _ j _ _ _ U) by auto. now apply (i_dead _ _ _ I).
  - intros j k u w n Ne Nj Nk Hj Hk. apply (i_own _ _ _ I j k u w n); auto; [apply (proj2 (Oth j u Nj))|apply (proj2 (Oth k w Nk))].
  - intros j u n Nj Hn. apply (i_lt _ _ _ I j u n); auto. apply (proj2 (Oth j u Nj)).
  - intros n Hn. rewrite D in Hn. destruct (match v_folder v with Some n0 => Nat.eqb n n0 | None => false end) eqn:E; [congruence|].
    destruct (i_dir _ _ _ I n Hn) as (Lt & j & u & Nj & Fj). split; auto. destruct (Nat.eq_dec j i) as [->|Ne].
    + exfalso. assert (u = v) by congruence. subst. rewrite Fj, Nat.eqb_refl in E. discriminate.
    + exists j, u. rewrite (upd_nth_other _ j _ _ _ Uo) by auto. auto.
  - exact Sv.
  - exact Sl.
  - exact Nd.
  - destruct x as [kx [y|]]; cbn [snd] in Ln; rewrite (i_cnt _ _ _ I) in Ln; lia.
Qed.

Lemma set_inv t dk s i x c st : inv t dk s -> nth_error (p_live s) i = Some (Some x) ->
  exists dk1 l, vstep dk (SetSample i c st) = Ok dk1 /\ upd i (fun _ => Some (fst x, Some c)) (p_live s) = Some l /\ inv t dk1 (mkP l (p_saved s ++ left_behind x)).
Proof.
  intros I P. destruct (live_obj _ _ _ _ _ I P) as (v & O & T & K). pose proof (removed t dk s i v x st I O P) as Rm. cbv zeta in Rm.
  destruct (i_obj _ _ _ I i v O) as (ov & Pv & _ & Fi). rewrite P in Pv. injection Pv as ->. cbn [fst] in K |- *.
  assert (There : (if match v_folder v with Some n => match dget (dirs dk) n with Some _ => true | None => false end | None => false end
     then remove_temp dk v st else (dirs dk, saved dk)) = remove_temp dk v st).
  { destruct ov as [y|]; [destruct Fi as (n & -> & -> & _); reflexivity|]. unfold remove_temp. rewrite Fi. reflexivity. }
  destruct Rm as (D & Nd & Ln & Sl & Sv & Vf). set (r := remove_temp dk v st) in *.
  destruct (create_own t dk s v (fst r) c I T) as (Cr & Cn). { intros n Hn. rewrite D in Hn. destruct (match v_folder v with Some n0 => Nat.eqb n n0 | None => false end); congruence. }
  { intros n Hn. apply (i_lt _ _ _ I i v n O Hn). }
  set (n0 := counters dk t) in *. set (v1 := mkVis t (v_keep v) (Some n0) (v_folders v ++ [n0])).
  destruct (upd_lt i (fun _ : option (bool * option A) => Some (v_keep v, Some c)) (p_live s)) as (l & U). { apply nth_error_Some. congruence. }
  destruct (upd_lt i (fun _ : option vis => Some v1) (objs dk)) as (os & Uo). { apply nth_error_Some. congruence. }
  eexists _, l. cbn [vstep]. unfold vobj. rewrite O. cbn [obind]. cbv zeta. fold r. rewrite There. rewrite Cr. fold v1. unfold vupd. rewrite Uo. cbn [obind]. split; [reflexivity|]. split; auto.
  pose proof (showing_upd _ _ _ _ _ P U) as Sh.
  constructor; cbn [objs dirs saved counters p_live p_saved]; try rewrite Nat.eqb_refl.
  - rewrite (upd_length _ _ _ _ Uo), (upd_length _ _ _ _ U). apply (i_len _ _ _ I).
  - intros j u Nj. destruct (nth_upd _ _ _ _ _ _ Uo Nj) as [(-> & E)|(Ne & Nj')].
    + injection E as ->. exists (Some c). rewrite (upd_const_nth _ _ _ _ U). split; auto. split; auto. exists n0. split; auto. split.
      * rewrite dget_dput by auto. now rewrite Nat.eqb_refl.
      * cbn. apply in_or_app. cbn. auto.
    + destruct (i_obj _ _ _ I j u Nj') as (oc & Pj & Tj & Fj). exists oc. rewrite (upd_nth_other _ j _ _ _ U) by auto. split; auto. split; auto.
      destruct oc as [y|]; auto. destruct Fj as (n & F1 & F2 & F3). exists n. split; auto. split; auto. rewrite dget_dput by auto.
      assert (Lt : n < n0) by apply (i_lt _ _ _ I j u n Nj' F3). destruct (Nat.eqb_spec n n0); [lia|].
      rewrite D. destruct (v_folder v) as [m|] eqn:Fv; auto. destruct (Nat.eqb_spec n m) as [->|]; auto. exfalso.
      destruct ov; [|congruence]. destruct Fi as (m' & G1 & _ & G3). assert (m' = m) by congruence. subst. apply (i_own _ _ _ I j i u v m Ne Nj' O F3 G3).
  - intros j Nj. destruct (nth_upd _ _ _ _ _ _ Uo Nj) as [(-> & E)|(Ne & Nj')]; [discriminate|]. rewrite (upd_nth_other _ j _ _ _ U) by auto. now apply (i_dead _ _ _ I).
  - intros j k u w n Ne Nj Nk Hj Hk.
    destruct (nth_upd _ _ _ _ _ _ Uo Nj) as [(-> & E)|(Nej & Nj')], (nth_upd _ _ _ _ _ _ Uo Nk) as [(-> & E')|(Nek & Nk')]; try congruence.
    + injection E as ->. cbn in Hj. apply in_app_or in Hj. pose proof (i_lt _ _ _ I k w n Nk' Hk) as Lt. fold n0 in Lt. destruct Hj as [Hj|[Hx|[]]]; [|lia].
      apply (i_own _ _ _ I i k v w n); auto.
    + injection E' as ->. cbn in Hk. apply in_app_or in Hk. pose proof (i_lt _ _ _ I j u n Nj' Hj) as Lt. fold n0 in Lt. destruct Hk as [Hk|[Hx|[]]]; [|lia].
      apply (i_own _ _ _ I j i u v n); auto.
    + apply (i_own _ _ _ I j k u w n); auto.
  - intros j u n Nj Hn. destruct (nth_upd _ _ _ _ _ _ Uo Nj) as [(-> & E)|(Ne & Nj')].
    + injection E as ->. cbn in Hn. apply in_app_or in Hn. destruct Hn as [Hn|[Hx|[]]]; [|lia]. pose proof (i_lt _ _ _ I i v n O Hn) as Lt. fold n0 in Lt. lia.
    + pose proof (i_lt _ _ _ I j u n Nj' Hn) as Lt. fold n0 in Lt. lia.
  - intros n Hn. rewrite dget_dput in Hn by auto. destruct (Nat.eqb_spec n n0) as [En|Nn].
    + split; [lia|]. exists i, v1. rewrite (upd_const_nth _ _ _ _ Uo). rewrite En. auto.
    + rewrite D in Hn. destruct (match v_folder v with Some n1 => Nat.eqb n n1 | None => false end) eqn:E; [congruence|].
      destruct (i_dir _ _ _ I n Hn) as (Lt & j & u & Nj & Fj). fold n0 in Lt. split; [lia|]. destruct (Nat.eq_dec j i) as [->|Ne].
      * exfalso. assert (u = v) by congruence. subst. rewrite Fj, Nat.eqb_refl in E. discriminate.
      * exists j, u. rewrite (upd_nth_other _ j _ _ _ Uo) by auto. auto.
  - intros n st1 X. destruct (Sv n st1 X) as (Lt & Dn). split; [lia|]. rewrite dget_dput by auto. destruct (Nat.eqb_spec n n0); [lia|auto].
  - exact Sl.
  - unfold dput. rewrite map_app. cbn. apply nodup_snoc; auto. now apply dget_none.
  - unfold dput. rewrite app_length. cbn. destruct ov as [y|]; cbn [snd] in Ln; rewrite (i_cnt _ _ _ I) in Ln; lia.
Qed.
End L.
