(** Lemmas about atod, tokenize and the file type. *)
From Coq Require Import ZArith QArith Ascii Bool String List Lia.
From Verif Require Import Base ListLib M_Str S_Str L_Str2.
Import ListNotations.
Local Open Scope nat_scope.

(** *** atod *)
Lemma digits_ok frac ds rest : Forall dig ds -> ~ starts dig rest -> forall v p, exists p',
  digits frac (ds ++ rest) v p = ((v * 10 ^ Z.of_nat (List.length ds) + dec ds)%Z, p', rest) /\
  Zpos p' = (Zpos p * (if frac then 10 ^ Z.of_nat (List.length ds) else 1))%Z.
Proof.
  intros F S. induction F as [|c ds D F IH]; intros v p; cbn [digits app].
  - assert (digits frac rest v p = (v, p, rest)) as ->.
    { destruct rest as [|c r]; [reflexivity|]. cbn [digits]. cbn [starts] in S. apply isdigit_false in S. now rewrite S. }
    exists p. cbn [List.length]. change (10 ^ Z.of_nat 0)%Z with 1%Z. split; [|destruct frac; ring].
    match goal with |- (?a, _, _) = (?b, _, _) => replace b with a; [reflexivity|] end. unfold dec. cbn [fold_left]. ring.
  - rewrite (proj2 (isdigit_dig c) D). destruct (IH (10 * v + (ch c - 48))%Z (if frac then (p * 10)%positive else p)) as (p' & E & P).
    rewrite E. exists p'. cbn [List.length]. rewrite Nat2Z.inj_succ, Z.pow_succ_r by lia. split.
    + match goal with |- (?a, _, _) = (?b, _, _) => replace a with b; [reflexivity|] end. rewrite dec_cons, dig_value_ch. ring.
    + rewrite P. destruct frac; [rewrite Pos2Z.inj_mul; ring|ring].
Qed.

Lemma from_first_app f a s : Forall (fun c => f c = false) a -> from_first f (a ++ s) = from_first f s.
Proof. induction 1 as [|c a H _ IH]; cbn [app from_first]; [auto|]. now rewrite H. Qed.
Lemma from_first_id f s : match s with [] => True | c :: _ => f c = true end -> from_first f s = s.
Proof. destruct s; cbn [from_first]; [auto|]. now intros ->. Qed.

Lemma dig_not_white c : dig c -> ~ white c.
Proof. intros D W. apply isdigit_dig in D. apply isspace_white in W. unfold isdigit, isspace in *. lia. Qed.

Lemma atod_ok ws sg ds tl ds2 rest : Forall white ws -> is_sign sg -> Forall dig ds -> ds <> [] -> Forall dig ds2 -> ~ starts dig rest ->
  (tl = "."%char :: ds2 \/ (tl = [] /\ ds2 = [] /\ ~ starts (eq "."%char) rest)) ->
  (atod (ws ++ sg ++ ds ++ tl ++ rest) ==
   inject_Z (sign_of sg) * (inject_Z (dec ds) + inject_Z (dec ds2) / inject_Z (10 ^ Z.of_nat (List.length ds2))))%Q.
Proof.
  intros W SG F NE F2 R T. unfold atod.
  rewrite from_first_app by (eapply Forall_impl; [|exact W]; intros a Ha; apply isspace_white in Ha; cbv beta; now rewrite Ha).
  assert (exists x r, ds = x :: r /\ dig x) as (x & r & Eds & Dx).
  { destruct ds; [now elim NE|]. inversion F; subst; eauto. }
  rewrite from_first_id by
    (destruct SG as [->|[->| ->]]; [rewrite Eds; cbn [app]; apply dig_not_white in Dx; apply isspace_false in Dx; now rewrite Dx|reflexivity|reflexivity]).
  set (s0 := sg ++ ds ++ tl ++ rest).
  assert ((match s0 with c :: _ => if Ascii.eqb c "-" then (-1)%Z else 1%Z | [] => 1%Z end) = sign_of sg) as ->.
  { unfold s0. destruct SG as [->|[->| ->]]; [|reflexivity|reflexivity]. rewrite Eds. cbn [app sign_of].
    destruct (Ascii.eqb_spec x "-") as [->|]; [now elim dig_minus|reflexivity]. }
  assert ((match s0 with c :: r => if Ascii.eqb c "+" || Ascii.eqb c "-" then r else s0 | [] => [] end) = ds ++ tl ++ rest) as ->.
  { unfold s0. destruct SG as [->|[->| ->]]; [|reflexivity|reflexivity]. rewrite Eds. cbn [app].
    destruct (Ascii.eqb_spec x "+") as [->|]; [vm_compute in Dx; intuition discriminate|].
    destruct (Ascii.eqb_spec x "-") as [->|]; [now elim dig_minus|reflexivity]. }
  clear s0.
  assert (~ starts dig (tl ++ rest)) as ST.
  { destruct T as [->|(-> & _ & _)]; cbn [app starts]; [exact dig_dot|exact R]. }
  destruct (digits_ok false ds (tl ++ rest) F ST 0%Z 1%positive) as (p1 & E1 & P1). rewrite E1.
  assert ((match tl ++ rest with c :: r => if Ascii.eqb c "." then r else tl ++ rest | [] => [] end) = ds2 ++ rest) as ->.
  { destruct T as [->|(-> & -> & N)]; cbn [app]; [reflexivity|]. destruct rest as [|c r']; [reflexivity|].
    cbn [starts] in N. destruct (Ascii.eqb_spec c "."); [subst; now elim N|reflexivity]. }
  destruct (digits_ok true ds2 rest F2 R (0 * 10 ^ Z.of_nat (List.length ds) + dec ds)%Z 1%positive) as (p2 & E2 & P2). rewrite E2.
  rewrite Z.mul_1_l in P2. set (k := (10 ^ Z.of_nat (List.length ds2))%Z) in *.
  assert (~ inject_Z k == 0)%Q as NK by (unfold Qeq; cbn; subst k; rewrite <- P2; lia).
  rewrite Z.mul_0_l, Z.add_0_l.
  assert (forall n, Qmake n p2 == inject_Z n / inject_Z k)%Q as QK.
  { intro n. rewrite <- P2. rewrite (Qmake_Qdiv n p2). reflexivity. }
  rewrite QK, inject_Z_mult, inject_Z_plus, inject_Z_mult. field. exact NK.
Qed.

Lemma is_number_ok s : is_number s = true <-> s <> [] /\ Forall (fun c => In c (list_ascii_of_string "0123456789.-+e")) s.
Proof.
  assert (forall c, (isdigit c || Ascii.eqb c "." || Ascii.eqb c "-" || Ascii.eqb c "+" || Ascii.eqb c "e") = true <->
      In c (list_ascii_of_string "0123456789.-+e")) as K.
  { intro c. split.
    - intro H. destruct c as [a b d e f g h i]; destruct a, b, d, e, f, g, h, i; vm_compute in H; try discriminate; vm_compute; tauto.
    - intro H. vm_compute in H. repeat (destruct H as [<-|H]; [reflexivity|]). destruct H. }
  unfold is_number. destruct s as [|c s]; [split; [discriminate|intros [H _]; now elim H]|].
  set (l := c :: s). rewrite negb_true_iff. split.
  - intro H. split; [discriminate|]. apply Forall_forall. intros x Hx. apply K.
    match goal with |- ?b = true => destruct b eqn:E; [reflexivity|exfalso] end.
    assert (existsb (fun c => negb (isdigit c || Ascii.eqb c "." || Ascii.eqb c "-" || Ascii.eqb c "+" || Ascii.eqb c "e")) l = true) as X.
    { apply existsb_exists. exists x. split; [exact Hx|]. now rewrite E. }
    rewrite H in X. discriminate.
  - intros [_ F]. rewrite Forall_forall in F.
    match goal with |- ?b = false => destruct b eqn:E; [exfalso|reflexivity] end.
    apply existsb_exists in E as (x & Hx & Nx). apply F, K in Hx. now rewrite Hx in Nx.
Qed.

(** *** tokenize *)
Lemma find_from_split f s i :
  (find_from f s i = None /\ Forall (fun c => f c = false) s) \/
  (exists a c r, s = a ++ c :: r /\ Forall (fun c => f c = false) a /\ f c = true /\ find_from f s i = Some (i + List.length a)).
Proof.
  revert i. induction s as [|c s IH]; intro i; cbn [find_from]; [left; auto|].
  destruct (f c) eqn:E; [right; exists [], c, s; repeat split; auto; f_equal; cbn; lia|].
  destruct (IH (S i)) as [[E1 F]|(a & x & r & -> & F & X & E1)].
  - left. auto.
  - right. exists (c :: a), x, r. repeat split; auto. rewrite E1. f_equal. cbn [List.length]. lia.
Qed.
Lemma all_c c s : Forall (fun x => negb (Ascii.eqb x c) = false) s -> s = repeat c (List.length s).
Proof.
  induction 1 as [|x s H _ IH]; [reflexivity|]. cbn [List.length repeat]. apply negb_false_iff, Ascii.eqb_eq in H. now rewrite <- IH, H.
Qed.
Lemma none_c c s : Forall (fun x => Ascii.eqb x c = false) s -> ~ In c s.
Proof. intros F I. rewrite Forall_forall in F. apply F in I. rewrite Ascii.eqb_refl in I. discriminate. Qed.

Lemma tokenize_loop_ok s c : forall fuel e, List.length s - e < fuel -> e <= List.length s ->
  (e = 0 \/ exists r, skipn e s = c :: r) ->
  exists l, tokenize_loop fuel s c (Some e) = Some l /\ runs c (skipn e s) l.
Proof.
  induction fuel as [|fuel IH]; intros e Hf He Hs; [lia|].
  cbn [tokenize_loop]. unfold find_first_not_of.
  destruct (find_from_split (fun x => negb (Ascii.eqb x c)) (skipn e s) e) as [[E1 F]|(a & x & r & E & F & X & E1)]; rewrite E1.
  - exists []. split; [auto|]. rewrite (all_c c _ F). constructor.
  - assert (skipn (e + List.length a) s = x :: r) as SK.
    { rewrite Nat.add_comm. rewrite <- (firstn_skipn e s), skipn_app, firstn_length. rewrite Nat.min_l by auto.
      rewrite (skipn_all2 (firstn e s)) by (rewrite firstn_length; lia). rewrite Nat.add_sub. cbn [app]. rewrite E.
      rewrite skipn_app, Nat.sub_diag, skipn_all. reflexivity. }
    assert (List.length s = e + List.length a + S (List.length r)) as LS.
    { rewrite <- (firstn_skipn e s), app_length, firstn_length, E, app_length. cbn [List.length]. lia. }
    unfold find. rewrite SK.
    destruct (find_from_split (fun y => Ascii.eqb y c) (x :: r) (e + List.length a)) as [[E2 F2]|(t & y & q & Et & F2 & Y & E2)]; rewrite E2.
    + destruct fuel; cbn [tokenize_loop]; (exists [x :: r]; split; [f_equal; f_equal; unfold substr; rewrite SK;
        rewrite firstn_all2 by (cbn [List.length]; lia); reflexivity|]; rewrite E, (all_c c _ F); constructor; [discriminate|now apply none_c]).
    + apply Ascii.eqb_eq in Y. subst y.
      assert (t <> []) as Nt by (intros ->; cbn in Et; inversion Et; subst; rewrite Ascii.eqb_refl in X; discriminate).
      assert (skipn (e + List.length a + List.length t) s = c :: q) as SK2.
      { rewrite <- (firstn_skipn (e + List.length a) s), skipn_app, firstn_length, SK. rewrite Nat.min_l by lia.
        rewrite (skipn_all2 (firstn _ s)) by (rewrite firstn_length; lia). cbn [app]. rewrite Et.
        replace (e + List.length a + List.length t - (e + List.length a)) with (List.length t) by lia.
        rewrite skipn_app, Nat.sub_diag, skipn_all. reflexivity. }
      assert (List.length (x :: r) = List.length t + S (List.length q)) as LX by (rewrite Et, app_length; reflexivity).
      cbn [List.length] in LX.
      destruct t as [|t0 t']; [now elim Nt|]. set (t := t0 :: t') in *.
      assert (1 <= List.length t) as Lt by (cbn; lia).
      destruct (IH (e + List.length a + List.length t)) as (l & El & Rl); [lia|lia|right; eauto|].
      rewrite El. exists (t :: l). split.
      * f_equal. f_equal. unfold substr. rewrite SK, Et. rewrite firstn_app.
        replace (e + List.length a + List.length t - (e + List.length a)) with (List.length t) by lia.
        rewrite Nat.sub_diag, firstn_all. cbn [firstn]. now rewrite app_nil_r.
      * rewrite E, Et. rewrite (all_c c _ F). rewrite SK2 in Rl. now apply runs_cons; [|apply none_c|].
Qed.
Lemma tokenize_ok s c : exists l, tokenize s c = Some l /\ runs c s l.
Proof.
  destruct (tokenize_loop_ok s c (S (List.length s)) 0) as (l & E & R); [lia|lia|auto|]. now exists l.
Qed.

Lemma repeat_eq_app (c : ascii) n : forall m s t, s <> [] -> ~ In c s -> repeat c n ++ t = repeat c m ++ s -> 
  (t = [] -> False).
Proof.
  intros m s t N I E ->. rewrite app_nil_r in E. destruct s as [|x s]; [now elim N|].
  assert (In x (repeat c n)) as X by (rewrite E; apply in_or_app; right; left; auto). apply repeat_spec in X. subst x. now elim I; left.
Qed.
Lemma lead_unique2 (c : ascii) n t m u : (match t with [] => True | x :: _ => x <> c end) -> (match u with [] => True | x :: _ => x <> c end) ->
  repeat c n ++ t = repeat c m ++ u -> t = u.
Proof.
  intros Ht Hu. apply (lead_unique (eq c)); [| |destruct t; [auto|intro; subst; now elim Ht]|destruct u; [auto|intro; subst; now elim Hu]];
  apply Forall_forall; intros x Hx; apply repeat_spec in Hx; auto.
Qed.
Lemma first_split (c : ascii) t u s s' : ~ In c t -> ~ In c u -> t ++ c :: s = u ++ c :: s' -> t = u /\ s = s'.
Proof.
  revert u. induction t as [|x t IH]; intros u Nt Nu E; destruct u as [|y u]; cbn in E; inversion E; subst; auto.
  - elim Nu. now left.
  - elim Nt. now left.
  - destruct (IH u) as [-> ->]; auto; [intro; apply Nt; now right|intro; apply Nu; now right].
Qed.
Lemma no_first (c : ascii) t : t <> [] -> ~ In c t -> forall s, match t ++ s with [] => True | x :: _ => x <> c end.
Proof. destruct t as [|x t]; [intro H; now elim H|]. cbn. intros _ N _ ->. now apply N; left. Qed.
Lemma runs_unique c s l : runs c s l -> forall l', runs c s l' -> l = l'.
Proof.
  induction 1 as [n|n t Nt It|n t s l Nt It R IH]; intros l' H'.
  - inversion H' as [m E|m u Nu Iu E|m u s' k Nu Iu R' E]; auto; exfalso.
    + apply (repeat_eq_app c n m u []); auto. now rewrite app_nil_r.
    + pose proof (no_first c u Nu Iu (c :: s')) as X. destruct (u ++ c :: s') as [|x z] eqn:Q; [destruct u; discriminate|].
      assert (In x (repeat c n)) as Y by (rewrite <- E; apply in_or_app; right; left; auto). apply repeat_spec in Y. now elim X.
  - pose proof (no_first c t Nt It []) as X. rewrite app_nil_r in X.
    inversion H' as [m E|m u Nu Iu E|m u s' k Nu Iu R' E].
    + exfalso. apply (repeat_eq_app c m n t []); auto. now rewrite app_nil_r.
    + f_equal. pose proof (no_first c u Nu Iu []) as Y. rewrite app_nil_r in Y. now apply (lead_unique2 c n t m u).
    + exfalso. pose proof (no_first c u Nu Iu (c :: s')) as Y.
      apply lead_unique2 in E; auto. apply It. rewrite <- E. apply in_or_app. right. now left.
  - pose proof (no_first c t Nt It (c :: s)) as X.
    inversion H' as [m E|m u Nu Iu E|m u s' k Nu Iu R' E]; subst.
    + exfalso. destruct (t ++ c :: s) as [|x z] eqn:Q; [destruct t; discriminate|].
      assert (In x (repeat c m)) as Y by (rewrite E; apply in_or_app; right; left; auto). apply repeat_spec in Y. now elim X.
    + exfalso. pose proof (no_first c u Nu Iu []) as Y. rewrite app_nil_r in Y.
      apply lead_unique2 in E; auto. apply Iu. rewrite E. apply in_or_app. right. now left.
    + pose proof (no_first c u Nu Iu (c :: s')) as Y. apply lead_unique2 in E; auto.
      apply first_split in E as [-> ->]; auto. f_equal. now apply IH.
Qed.
Lemma runs_tokens c s l : runs c s l -> Forall (fun t => t <> [] /\ ~ In c t) l.
Proof. induction 1; auto. Qed.
Lemma runs_join c l : Forall (fun t => t <> [] /\ ~ In c t) l -> runs c (join_with c l) l.
Proof.
  induction 1 as [|t l (N & I) F IH]; [apply (runs_end c 0)|].
  cbn [join_with]. destruct l as [|u l]; [now apply (runs_last c 0)|].
  apply (runs_cons c 0); auto.
  set (j := join_with c (u :: l)) in *. clearbody j. 
  inversion IH; subst.
  - apply (runs_last c (S n)); auto.
  - apply (runs_cons c (S n)); auto.
Qed.

(** *** file types *)
Fixpoint prefixb (t s : str) : bool :=
  match t, s with [], _ => true | x :: t', y :: s' => Ascii.eqb x y && prefixb t' s' | _, [] => false end.
Lemma prefixb_ok t s : prefixb t s = true <-> exists r, s = t ++ r.
Proof.
  revert s. induction t as [|x t IH]; intro s; cbn [prefixb]; [split; [now exists s|reflexivity]|].
  destruct s as [|y s]; [split; [discriminate|intros (r & E); discriminate]|].
  rewrite andb_true_iff, IH, Ascii.eqb_eq. split.
  - intros [-> (r & ->)]. now exists r.
  - intros (r & E). inversion E; subst. split; eauto.
Qed.
Lemma match_back_ok rt : rt <> [] -> ~ In "."%char rt -> forall re rb, ~ In "."%char re ->
  match_back (re ++ "."%char :: rb) rt = Ok (prefixb rt re).
Proof.
  induction rt as [|x rt IH]; intros N D re rb E; [now elim N|].
  destruct re as [|y re]; cbn [app match_back prefixb]; [reflexivity|].
  destruct (Ascii.eqb_spec y ".") as [->|Ny]; [now elim E; left|].
  destruct rt as [|x' rt].
  - cbn [prefixb]. now rewrite andb_true_r.
  - destruct (Ascii.eqb_spec x y) as [->|]; cbn [andb]; [|reflexivity].
    apply IH; [discriminate|intro; apply D; now right|intro; apply E; now right].
Qed.
Fixpoint first_type (re : str) (i : nat) (ts : list str) : option nat :=
  match ts with [] => None | t :: r => if prefixb (rev t) re then Some i else first_type re (S i) r end.
Definition good_types (ts : list str) : Prop := Forall (fun t => rev t <> [] /\ ~ In "."%char (rev t)) ts.
Lemma match_types_ok ts : good_types ts -> forall i re rb, ~ In "."%char re ->
  match_types (re ++ "."%char :: rb) i ts = Ok (first_type re i ts).
Proof.
  induction 1 as [|t ts [N D] _ IH]; intros i re rb E; cbn [match_types first_type]; [reflexivity|].
  rewrite match_back_ok by auto. cbn [obind]. destruct (prefixb (rev t) re); [reflexivity|]. now apply IH.
Qed.
Lemma types_good : good_types types.
Proof. repeat constructor; vm_compute; try discriminate; intuition discriminate. Qed.
Fixpoint scan_types (re : str) : option nat :=
  match re with [] => None | _ :: r => match first_type re 0 types with Some i => Some i | None => scan_types r end end.
Lemma identify_ok re rb : ~ In "."%char re ->
  identify_loop (re ++ "."%char :: rb) = Ok (match scan_types re with Some i => ftype_of i | None => TYPE_INVALID end).
Proof.
  induction re as [|c re IH]; intro E; [reflexivity|].
  cbn [app identify_loop scan_types]. destruct (Ascii.eqb_spec c ".") as [->|Nc]; [now elim E; left|].
  change (c :: re ++ "."%char :: rb) with ((c :: re) ++ "."%char :: rb).
  rewrite match_types_ok by (auto using types_good). cbn [obind].
  destruct (first_type (c :: re) 0 types); [reflexivity|]. apply IH. intro; apply E; now right.
Qed.
Lemma first_type_nth re ts : forall i0 i, first_type re i0 ts = Some i -> exists j t, i = i0 + j /\ nth_error ts j = Some t /\ prefixb (rev t) re = true.
Proof.
  induction ts as [|t ts IH]; intros i0 i H; cbn [first_type] in H; [discriminate|].
  destruct (prefixb (rev t) re) eqn:P.
  - injection H as <-. exists 0, t. split; [lia|auto].
  - destruct (IH _ _ H) as (j & u & -> & E & P'). exists (S j), u. split; [lia|auto].
Qed.
Lemma first_type_some re ts : forall i0 j t, nth_error ts j = Some t -> prefixb (rev t) re = true -> first_type re i0 ts <> None.
Proof.
  induction ts as [|u ts IH]; intros i0 j t E P; [destruct j; discriminate|].
  cbn [first_type]. destruct (prefixb (rev u) re) eqn:Q; [discriminate|].
  destruct j as [|j]; cbn in E; [injection E as ->; congruence|]. now apply (IH (S i0) j t).
Qed.
(** No type name ends with another one. *)
Lemma types_apart re i j t u : nth_error types i = Some t -> nth_error types j = Some u ->
  prefixb (rev t) re = true -> prefixb (rev u) re = true -> i = j.
Proof.
  intros Ei Ej Pi Pj. apply prefixb_ok in Pi as (r & ->). apply prefixb_ok in Pj as (r' & E).
  assert (i < 5 /\ j < 5) as [Li Lj] by (split; change 5 with (List.length types); apply nth_error_Some; congruence).
  do 5 (destruct i as [|i]; [do 5 (destruct j as [|j]; [first [reflexivity|vm_compute in Ei, Ej; injection Ei as <-; injection Ej as <-; cbn in E; discriminate]|]); lia|]).
  lia.
Qed.
Lemma scan_none re : (forall i t a b, nth_error types i = Some t -> re <> a ++ rev t ++ b) -> scan_types re = None.
Proof.
  induction re as [|c re IH]; intro H; [reflexivity|]. cbn [scan_types].
  destruct (first_type (c :: re) 0 types) eqn:F.
  - destruct (first_type_nth _ _ _ _ F) as (j & t & -> & E & P). apply prefixb_ok in P as (r & P). now elim (H j t [] r E).
  - apply IH. intros i t a b E Q. apply (H i t (c :: a) b E). now rewrite Q.
Qed.
Lemma scan_some i t b : nth_error types i = Some t -> forall re a, re = b ++ rev t ++ a ->
  (forall j u a' b', nth_error types j = Some u -> re = b' ++ rev u ++ a' -> List.length b <= List.length b') -> scan_types re = Some i.
Proof.
  intro Ei. assert (rev t <> []) as Nt.
  { pose proof types_good as G. unfold good_types in G. rewrite Forall_forall in G. apply (G t). eapply nth_error_In; eauto. }
  induction b as [|c b IH]; intros re a Ere M; cbn [app] in Ere.
  - destruct re as [|x re]; [destruct (rev t); [now elim Nt|discriminate]|]. cbn [scan_types].
    assert (prefixb (rev t) (x :: re) = true) as P by (apply prefixb_ok; eauto).
    destruct (first_type (x :: re) 0 types) eqn:F.
    + destruct (first_type_nth _ _ _ _ F) as (j & u & -> & Ej & P'). f_equal. symmetry. now apply (types_apart (x :: re) i j t u).
    + exfalso. now apply (first_type_some (x :: re) types 0 i t).
  - subst re. cbn [scan_types].
    destruct (first_type (c :: b ++ rev t ++ a) 0 types) eqn:F.
    + exfalso. destruct (first_type_nth _ _ _ _ F) as (j & u & -> & Ej & P'). apply prefixb_ok in P' as (r & P').
      specialize (M j u r [] Ej P'). cbn in M. lia.
    + apply (IH _ a); auto. intros j u a' b' Ej E'. 
      specialize (M j u a' (c :: b') Ej). cbn [app List.length] in M. rewrite E' in M. specialize (M eq_refl). lia.
Qed.

(** No dot and no type name: the scan runs off the front of the string. *)
Lemma match_back_nodot rt : forall rf, ~ In "."%char rf -> prefixb rt rf = false -> match_back rf rt = UB \/ match_back rf rt = Ok false.
Proof.
  induction rt as [|x rt IH]; intros rf D P; [discriminate|]. destruct rf as [|y rf]; cbn [match_back]; [now left|].
  destruct (Ascii.eqb_spec y ".") as [->|]; [now right|]. cbn [prefixb] in P. destruct rt as [|x' rt].
  - cbn in P. rewrite andb_true_r in P. rewrite P. now right.
  - destruct (Ascii.eqb x y); cbn [andb] in P; [|now right]. apply IH; auto. intro; apply D; now right.
Qed.
Lemma match_types_nodot ts : forall i rf, ~ In "."%char rf -> first_type rf i ts = None -> match_types rf i ts = UB \/ match_types rf i ts = Ok None.
Proof.
  induction ts as [|t ts IH]; intros i rf D F; [now right|]. cbn [match_types first_type] in *.
  destruct (prefixb (rev t) rf) eqn:P; [discriminate|]. destruct (match_back_nodot (rev t) rf D P) as [-> | ->]; cbn [obind]; auto.
Qed.
Lemma identify_nodot re : ~ In "."%char re -> scan_types re = None -> identify_loop re = UB.
Proof.
  induction re as [|c re IH]; intros D S; [reflexivity|]. cbn [identify_loop scan_types] in *.
  destruct (Ascii.eqb_spec c ".") as [->|]; [now elim D; left|].
  destruct (first_type (c :: re) 0 types) eqn:F; [discriminate|].
  destruct (match_types_nodot types 0 (c :: re) D F) as [-> | ->]; cbn [obind]; auto. apply IH; auto. intro; apply D; now right.
Qed.
