(** C117: point expressions, what they refer to, and when they are evaluated. *)
From Coq Require Import ZArith Bool List Reals Lia Lra.
From Verif Require Import Base ListLib M_Point S_Point T_Point M_Lazy S_Lazy L_Lazy.
Import ListNotations.
Local Open Scope nat_scope.

(** C117: a point initialised with an expression, however deep, gets the value of the expression; nothing else changes. *)
Lemma c117_now : forall (m : mem) (g : names) (n : nat) (e : ex), sound m g n e ->
  exists m', declare m e = Ok (map (value g e) (seq 0 n), m') /\ forall l, l < length m -> nth_error m' l = nth_error m l.
Proof.
  intros m g n e S. unfold declare. destruct (build_ok m g n e S) as (t & l & -> & Rp & _). cbn [obind fst snd]. rewrite (rep_eval _ g n e l Rp). cbn [obind].
  exists (sweep (length m) None (m ++ t)). split; auto. intros k L. rewrite sweep_below by auto. now rewrite nth_error_app1.
Qed.

(** C117: x = e and x += e, -=, *=, /=, where [x] may occur in [e], but only coordinate by coordinate: the value is as if [e] had been evaluated before. *)
Lemma c117_assign : forall (o : option bop) (m : mem) (g : names) (n x : nat) (e : ex), sound m g n e -> point_at m g n x -> straight x e ->
  exists m', assign_e o m x e = Ok m' /\ only_changed m m' x (map (fun i => result o (nth i (vals g x) None) (value g e i)) (seq 0 n)).
Proof.
  intros o m g n x e Sd Px St. unfold assign_e. destruct (build_ok m g n e Sd) as (t & l & -> & Rp & _). cbn [obind fst snd].
  destruct Px as (Hx & Ln). assert (Hx' := nth_app m t x _ Hx).
  rewrite (rep_size (m ++ t) g n (Var x) x (S x)) by (cbn; unfold point_at; auto). cbn [obind].
  rewrite (rep_size _ g n e l (S l) Rp) by lia. cbn [obind]. rewrite Nat.eqb_refl. subst n.
  destruct (inplace_all (upf o) (fun m i => lidx (S l) m l i) x (m ++ t) (vals g x) (value g e) Hx') as (m2 & -> & Sx & So).
  - intros i m' Li Is.
    assert (Lw : length (stage (upf o) (vals g x) (value g e) i) = length (vals g x)) by (apply stage_length; lia).
    pose proof (rep_change (m ++ t) g _ x _ m' e Hx' Lw Is St l Rp) as Rp'.
    rewrite (rep_idx m' _ _ e i Li l (S l) Rp') by lia. f_equal. apply value_change; auto. rewrite stage_nth by lia. now rewrite Nat.ltb_irrefl.
  - cbn [obind]. exists (sweep (length m) None m2). split; auto. assert (Lx := nth_lt _ _ _ Hx). split.
    + rewrite sweep_below by auto. rewrite Sx. f_equal. f_equal. f_equal. apply map_ext. intros i. unfold upf, result. destruct o; reflexivity.
    + intros k Lk Nk. rewrite sweep_below by auto. rewrite So by auto. now rewrite nth_error_app1.
Qed.

(** C117: x = s and x += s, -=, *=, /= with a number that is not a coordinate of [x]. *)
Lemma c117_number : forall (o : option bop) (m : mem) (g : names) (n x : nat) (s : num), number_ok m g s -> point_at m g n x -> straight x (BinR Add (Var x) s) ->
  exists m', assign_n o m x s = Ok m' /\ only_changed m m' x (map (fun i => result o (nth i (vals g x) None) (nvalue g s)) (seq 0 n)).
Proof.
  intros o m g n x s Ok1 Px (_ & St). unfold assign_n. destruct (bnum_ok m g s Ok1) as (t & r & -> & Rp). cbn [obind fst snd].
  destruct Px as (Hx & Ln). assert (Hx' := nth_app m t x _ Hx).
  rewrite (rep_size (m ++ t) g n (Var x) x (S x)) by (cbn; unfold point_at; auto). cbn [obind]. subst n.
  destruct (inplace_all (upf o) (fun m _ => nread m r) x (m ++ t) (vals g x) (fun _ => nvalue g s) Hx') as (m2 & -> & Sx & So).
  - intros i m' Li (Sx & So). destruct s as [v|y j]; cbn [nrep nvalue] in *.
    + destruct Rp as (k & -> & H). cbn [nread]. rewrite (look_ok m' k (ONum v)); [reflexivity|]. rewrite So; auto. intros ->. rewrite Hx' in H. discriminate.
    + destruct Rp as (-> & H & I). cbn [nread]. rewrite (look_ok m' y (OVec (vals g y))); [|rewrite So; auto]. cbn [obind]. now apply vget_nth.
  - cbn [obind]. exists (sweep (length m) None m2). split; auto. assert (Lx := nth_lt _ _ _ Hx). split.
    + rewrite sweep_below by auto. rewrite Sx. f_equal. f_equal. f_equal. apply map_ext. intros i. unfold upf, result. destruct o; reflexivity.
    + intros k Lk Nk. rewrite sweep_below by auto. rewrite So by auto. now rewrite nth_error_app1.
Qed.

(** C117: with a coordinate of [x] itself, the coordinates after it get the result with its new value. *)
Lemma c117_own : forall (o : option bop) (m : mem) (g : names) (n x k : nat), point_at m g n x -> k < n ->
  exists m', assign_n o m x (Elem x k) = Ok m' /\ only_changed m m' x (map (fun i => let c := nth k (vals g x) None in result o (nth i (vals g x) None) (if Nat.leb i k then c else result o c c)) (seq 0 n)).
Proof.
  intros o m g n x k (Hx & Ln) Lk. unfold assign_n. cbn [bnum]. rewrite (look_ok _ _ _ Hx). cbn [obind]. assert (Nat.ltb k (length (vals g x)) = true) as -> by (apply Nat.ltb_lt; lia). cbn [obind fst snd].
  rewrite (rep_size m g n (Var x) x (S x)) by (cbn; unfold point_at; auto). cbn [obind]. subst n.
  assert (Up : forall a b, upf o a b = result o a b) by (intros; unfold upf, result; destruct o; reflexivity).
  destruct (inplace_all (upf o) (fun m _ => nread m (RElem x k)) x m (vals g x) (fun i => if Nat.leb i k then nth k (vals g x) None else result o (nth k (vals g x) None) (nth k (vals g x) None)) Hx) as (m2 & -> & Sx & So).
  - intros i m' Li (Sx & So). cbn [nread]. rewrite (look_ok _ _ _ Sx). cbn [obind]. rewrite (vget_nth _ _ None) by (rewrite stage_length; lia). f_equal.
    rewrite stage_nth by lia. destruct (Nat.leb_spec i k), (Nat.ltb_spec k i); try lia; auto. rewrite Nat.leb_refl. apply Up.
  - cbn [obind]. exists (sweep (length m) None m2). split; auto. assert (Lx := nth_lt _ _ _ Hx). split.
    + rewrite sweep_below by auto. rewrite Sx. f_equal. f_equal. f_equal. apply map_ext. intros i. apply Up.
    + intros l Ll Nl. rewrite sweep_below by auto. now rewrite So by auto.
Qed.

(** C117: x /= x[k] leaves every coordinate after the k-th as it was. *)
Lemma c117_own_refuted : forall (m : mem) (g : names) (n x k : nat) (c : R), point_at m g n x -> k < n -> nth k (vals g x) None = Some c -> (c <> 0)%R ->
  exists m' v, assign_n (Some Div) m x (Elem x k) = Ok m' /\ only_changed m m' x v /\ length v = n /\ (forall i, i <= k -> nth i v None = two Div (nth i (vals g x) None) (Some c)) /\ forall i, k < i -> nth i v None = nth i (vals g x) None.
Proof.
  intros m g n x k c P L E N. destruct (c117_own (Some Div) m g n x k P L) as (m' & A & O). eexists m', _. split; [exact A|]. split; [exact O|]. rewrite map_length, seq_length. split; auto.
  assert (Nth : forall i, i < n -> forall f : nat -> option R, nth i (map f (seq 0 n)) None = f i).
  { intros i Li f. rewrite (nth_indep _ None (f 0)) by (rewrite map_length, seq_length; auto). rewrite (map_nth f), seq_nth by auto. reflexivity. }
  destruct P as (_ & Ln). split; intros i Li.
  - rewrite Nth by lia. cbn zeta. apply Nat.leb_le in Li. rewrite Li, E. reflexivity.
  - destruct (Nat.lt_ge_cases i n) as [H|H].
    + rewrite Nth by auto. cbn zeta. assert (Nat.leb i k = false) as -> by (apply Nat.leb_gt; auto). rewrite E. cbn [result two arith].
      destruct (Req_EM_T c 0); [contradiction|]. cbn [two arith]. assert (c / c = 1)%R as -> by (field; auto). destruct (nth i (vals g x) None) as [a|]; auto. cbn [two arith].
      destruct (Req_EM_T 1 0); [lra|]. f_equal. field.
    + rewrite !nth_overflow; auto; [lia|]. rewrite map_length, seq_length. lia.
Qed.

(** C117: x = x[p] does not rearrange: the second of two exchanged coordinates gets the value just stored in the first. *)
Lemma c117_gather_refuted : forall a b : R, (a <> b)%R -> let m := [Some (OVec [Some a; Some b]); Some (OIdx [1; 0])] in
  declare m (At 0 1) = Ok ([Some b; Some a], m ++ [None]) /\ assign_e None m 0 (At 0 1) = Ok [Some (OVec [Some b; Some b]); Some (OIdx [1; 0]); None].
Proof. intros a b N m. split; reflexivity. Qed.

(** C117: an expression kept with auto, if it is one operation on named points, gives the value with what the points hold when it is used, not when it was made. *)
Lemma c117_kept : forall (m : mem) (g : names) (n : nat) (e : ex), sound m g n e -> single e ->
  exists m1 h, hold m e = Ok (m1, h) /\ (forall l, l < length m -> nth_error m1 l = nth_error m l) /\
  forall m2 g2, later m1 m2 -> sound m2 g2 n e -> use m2 h = Ok (map (value g2 e) (seq 0 n)).
Proof.
  intros m g n e Sd Si. destruct (build_ok m g n e Sd) as (t & l & Bu & Rp & Ll & Lm).
  assert (Ho : hold m e = Ok (sweep (length m) (Some l) (m ++ t), l)) by (unfold hold; rewrite Bu; destruct e; auto; contradiction).
  exists (sweep (length m) (Some l) (m ++ t)), l. split; auto. split; [intros k Lk; rewrite sweep_below by auto; now rewrite nth_error_app1|].
  intros m2 g2 La S2. unfold use. apply (rep_eval m2 g2 n e l).
  assert (K : forall o, nth_error (m ++ t) l = Some (Some o) -> match o with OVec _ => False | _ => True end -> nth_error m2 l = Some (Some o)).
  { intros o H T. specialize (La l (Some o)). rewrite sweep_kept in La. specialize (La H). destruct o; auto; contradiction. }
  destruct e as [x | o a b | o s b | o a s | o a | x p]; cbn [single] in Si; [contradiction | | | | |].
  - destruct a, b; cbn in Si; try tauto. cbn [rep] in Rp |- *. destruct Rp as (la & lb & H & I & J & (-> & K1) & (-> & K2)). destruct S2 as (S2 & S3). exists x, x0. repeat split; auto; try apply S2; try apply S3; now apply (K _ H).
  - destruct s, b; cbn in Si; try tauto. cbn [rep nrep] in Rp |- *. destruct Rp as (r & lb & H & (-> & K1 & K2) & J & (-> & K3)). destruct S2 as (S2 & S3). exists (RElem x i), x0. repeat split; auto; try apply S2; try apply S3; now apply (K _ H).
  - destruct a, s; cbn in Si; try tauto. cbn [rep nrep] in Rp |- *. destruct Rp as (la & r & H & I & (-> & K1) & (-> & K2 & K3)). destruct S2 as (S2 & S3). exists x, (RElem x0 i). repeat split; auto; try apply S2; try apply S3; now apply (K _ H).
  - destruct a; cbn in Si; try tauto. cbn [rep] in Rp |- *. destruct Rp as (la & H & I & (-> & K1)). exists x. repeat split; auto; try apply S2; now apply (K _ H).
  - cbn [rep] in Rp |- *. destruct Rp as (H & I & J & _). cbn [sound] in S2. repeat split; auto; try apply S2; now apply (K _ H).
Qed.

(** C117: an expression kept with auto that has an operation inside another, or a number that is not a coordinate of a point, refers to temporaries that are gone: any use is undefined. *)
Lemma c117_kept_refuted : forall (m : mem) (g : names) (n : nat) (e : ex), sound m g n e -> ~ single e -> ~ is_var e -> 0 < n ->
  exists m1 h, hold m e = Ok (m1, h) /\ forall m2, later m1 m2 -> use m2 h = UB.
Proof.
  intros m g n e Sd Ns Nv Pn. destruct (build_ok m g n e Sd) as (t & l & Bu & Rp & Ll & Lm).
  assert (Ho : hold m e = Ok (sweep (length m) (Some l) (m ++ t), l)) by (unfold hold; rewrite Bu; destruct e; auto; destruct Nv; exact I).
  exists (sweep (length m) (Some l) (m ++ t)), l. split; auto. intros m2 La. unfold use, levaluate.
  assert (K : forall o, nth_error (m ++ t) l = Some (Some o) -> match o with OVec _ => False | _ => True end -> nth_error m2 l = Some (Some o)).
  { intros o H T. specialize (La l (Some o)). rewrite sweep_kept in La. specialize (La H). destruct o; auto; contradiction. }
  assert (Dead : forall k, length m <= k -> k < l -> nth_error m2 k = Some None).
  { intros k H1 H2. apply (La k None). apply sweep_dead; lia. }
  assert (Live : forall x v, x < length m -> nth_error (m ++ t) x = Some (Some (OVec v)) -> exists v', nth_error m2 x = Some (Some (OVec v')) /\ length v' = length v).
  { intros x v Lx H. apply (La x (Some (OVec v))). rewrite sweep_below; auto. }
  assert (Size : forall a M r, sound m g n a -> build M a = Ok r -> match a with Var _ => True | _ => length m <= snd r end -> snd r < l -> lsize l m2 (snd r) = UB \/ is_var a /\ lsize l m2 (snd r) = Ok n).
  { intros a M r Sa Ba Ha Hl. destruct l as [|f]; [lia|].
    destruct a as [x | | | | | ]; try (left; cbn [lsize]; rewrite (look_dead m2 (snd r)) by (apply Dead; auto); reflexivity).
    right. cbn [build] in Ba. injection Ba as <-. cbn [snd] in *. split; [exact I|]. destruct Sa as (H & J).
    destruct (Live x _ (nth_lt _ _ _ H) (nth_app m t _ _ H)) as (v' & E & L'). cbn [lsize]. rewrite (look_ok _ _ _ E). cbn [obind]. f_equal. lia. }
  assert (Last : forall w o, m ++ t = w ++ [Some o] -> l = length w -> match o with OVec _ => False | _ => True end -> nth_error m2 l = Some (Some o)).
  { intros w o E -> T. apply K; auto. rewrite E. apply nth_last. }
  destruct e as [x | o a b | o s b | o a s | o a | x p]; cbn [single] in Ns; [destruct Nv; exact I | | | | |]; cbn [sound] in Sd; cbn [build] in Bu.
  - destruct Sd as (Sa & Sb). destruct (build_ok m g n a Sa) as (ta & la & Ba & Ra & La' & Ma). rewrite Ba in Bu. cbn [obind fst snd] in Bu.
    destruct (build_ok (m ++ ta) g n b (sound_ext m ta g n b Sb)) as (tb & lb & Bb & Rb & Lb & Mb). rewrite Bb in Bu. cbn [obind fst snd] in Bu. injection Bu as Em El.
    rewrite !app_length in *. pose proof (Size a m _ Sa Ba Ma) as Za. pose proof (Size b (m ++ ta) _ Sb Bb) as Zb. cbn [snd] in Za, Zb.
    cbn [lsize]. rewrite (look_ok m2 l (OBin o (Ref la) (Ref lb))) by (apply (Last ((m ++ ta) ++ tb)); auto; rewrite !app_length; auto). cbn [obind].
    destruct Za as [->|(Va & ->)]; [lia | reflexivity |]. cbn [obind]. destruct Zb as [->|(Vb & ->)]; [destruct b; auto; lia | lia | reflexivity |]. tauto.
  - destruct Sd as (Ss & Sb). destruct (bnum_ok m g s Ss) as (ta & r & Bs & Rs). rewrite Bs in Bu. cbn [obind fst snd] in Bu.
    destruct (build_ok (m ++ ta) g n b (sound_ext m ta g n b Sb)) as (tb & lb & Bb & Rb & Lb & Mb). rewrite Bb in Bu. cbn [obind fst snd] in Bu. injection Bu as Em El.
    rewrite !app_length in *. pose proof (Size b (m ++ ta) _ Sb Bb) as Zb. cbn [snd] in Zb.
    assert (Lk : look m2 l = Ok (OBin o (Scal r) (Ref lb))) by (apply look_ok; apply (Last ((m ++ ta) ++ tb)); auto; rewrite !app_length; auto).
    cbn [lsize]. rewrite Lk. cbn [obind]. destruct Zb as [->|(Vb & ->)]; [destruct b; auto; lia | lia | reflexivity |]. cbn [obind Nat.eqb orb].
    destruct n as [|n]; [lia|]. cbn [seq collect]. cbn [lidx]. rewrite Lk. cbn [obind].
    destruct s as [v|x i]; [|cbn in Ns; tauto]. cbn [bnum] in Bs. injection Bs as Et <-. apply app_inv_head in Et. subst ta. cbn [length] in *. cbn [nread]. rewrite (look_dead m2 (length m)) by (apply Dead; lia). reflexivity.
  - destruct Sd as (Sa & Ss). destruct (build_ok m g n a Sa) as (ta & la & Ba & Ra & La' & Ma). rewrite Ba in Bu. cbn [obind fst snd] in Bu.
    destruct (bnum_ok (m ++ ta) g s (number_ext m ta g s Ss)) as (tb & r & Bs & Rs). rewrite Bs in Bu. cbn [obind fst snd] in Bu. injection Bu as Em El.
    rewrite !app_length in *. pose proof (Size a m _ Sa Ba Ma) as Za. cbn [snd] in Za.
    assert (Lk : look m2 l = Ok (OBin o (Ref la) (Scal r))) by (apply look_ok; apply (Last ((m ++ ta) ++ tb)); auto; rewrite !app_length; auto).
    cbn [lsize]. rewrite Lk. cbn [obind]. destruct Za as [->|(Va & ->)]; [lia | reflexivity |]. cbn [obind]. rewrite Nat.eqb_refl, !orb_true_r. cbn [orb]. destruct (Nat.eqb_spec n 0); [lia|].
    destruct n as [|n]; [lia|]. cbn [seq collect]. cbn [lidx]. rewrite Lk. cbn [obind].
    destruct a as [x| | | | |]; try contradiction. cbn [build] in Ba. injection Ba as Et <-. destruct Sa as (Hx & Lx).
    destruct (Live x _ (nth_lt _ _ _ Hx) (nth_app m t _ _ Hx)) as (v' & E & L'). destruct l as [|f]; [apply nth_lt in Hx; lia|]. cbn [lidx]. rewrite (look_ok _ _ _ E). cbn [obind seq collect]. rewrite (vget_nth _ _ None) by lia. cbn [obind].
    destruct s as [v|y i]; [|cbn in Ns; tauto]. cbn [bnum] in Bs. injection Bs as Et' <-. cbn [nread].
    rewrite app_length in *. rewrite (look_dead m2 _); [reflexivity|]. apply Dead; [lia|]. apply app_inv_head in Et'. subst tb. cbn [length] in *. lia.
  - destruct (build_ok m g n a Sd) as (ta & la & Ba & Ra & La' & Ma). rewrite Ba in Bu. cbn [obind fst snd] in Bu. injection Bu as Em El.
    rewrite !app_length in *. pose proof (Size a m _ Sd Ba Ma) as Za. cbn [snd] in Za.
    cbn [lsize]. rewrite (look_ok m2 l (OUn o la)) by (apply (Last (m ++ ta)); auto; rewrite !app_length; auto). cbn [obind].
    destruct Za as [->|(Va & _)]; [lia | reflexivity | tauto].
  - tauto.
Qed.

Lemma same_den env g n m e : (forall x, vals g x = map Some (env x)) -> sound m g n e -> forall p, same env e p -> dims n p /\ hasv p = true /\ forall i, i < n -> den p i = value g e i.
Proof.
  intros Ev. assert (Num : forall s r, same_num env s r -> nvalue g s = Some r).
  { intros [v|x i] r; cbn [same_num nvalue]; auto. intros H. rewrite Ev. apply nth_error_nth. rewrite nth_error_map, H. reflexivity. }
  induction e as [x | o a IHa b IHb | o s b IHb | o a IHa s | o a IHa | x q]; intros Sd p H; destruct p as [v | r | o' p1 p2 | o' p1]; cbn [same sound] in *; try contradiction.
  - subst v. destruct Sd as (_ & L). rewrite Ev, map_length in L. cbn [dims hasv den value]. repeat split; auto. intros i Li. rewrite Ev.
    rewrite (nth_indep (map Some (env x)) None (Some 0%R)) by (rewrite map_length; lia). now rewrite map_nth.
  - destruct H as (-> & Ha & Hb), Sd as (Sa & Sb). destruct (IHa Sa _ Ha) as (A1 & A2 & A3), (IHb Sb _ Hb) as (B1 & B2 & B3). cbn [dims hasv den value]. rewrite A2. repeat split; auto.
    intros i Li. rewrite A3, B3 by auto. reflexivity.
  - destruct p1 as [|r| |]; try contradiction. destruct H as (-> & Hs & Hb), Sd as (_ & Sb). destruct (IHb Sb _ Hb) as (B1 & B2 & B3). cbn [dims hasv den value orb]. repeat split; auto.
    intros i Li. rewrite B3, (Num _ _ Hs) by auto. reflexivity.
  - destruct p2 as [|r| |]; try contradiction. destruct H as (-> & Ha & Hs), Sd as (Sa & _). destruct (IHa Sa _ Ha) as (B1 & B2 & B3). cbn [dims hasv den value]. rewrite B2. repeat split; auto.
    intros i Li. rewrite B3, (Num _ _ Hs) by auto. reflexivity.
  - destruct H as (-> & Ha). destruct (IHa Sd _ Ha) as (B1 & B2 & B3). cbn [dims hasv den value]. repeat split; auto. intros i Li. rewrite B3 by auto. reflexivity.
Qed.
(** C117: the evaluation by value of M_Point.v, on which C24 to C28 rest, agrees with the one through references. *)
Lemma c117_by_value : forall (m : mem) (g : names) (n : nat) (e : ex) (env : nat -> vec) (p : px), sound m g n e -> (forall x, vals g x = map Some (env x)) -> same env e p ->
  exists v m', peval p = Ok v /\ declare m e = Ok (v, m').
Proof.
  intros m g n e env p Sd Ev Sm. destruct (same_den env g n m e Ev Sd p Sm) as (D & Hv & Dn). destruct (c117_now m g n e Sd) as (m' & E & _). exists (map (value g e) (seq 0 n)), m'. split; auto.
  rewrite (c24_expressions n p D Hv). f_equal. apply map_ext_in. intros i I. apply in_seq in I. apply Dn. lia.
Qed.

(** x = [1; 2], y = [3; 4]: y -= x * (x + y) and 2 * x + y are sound; x + y can be kept, 2 * x cannot. *)
Lemma c117_ex : let m := [Some (OVec [Some 1; Some 2]); Some (OVec [Some 3; Some 4])]%R in let g := mkNames (fun x => nth x [[Some 1; Some 2]; [Some 3; Some 4]]%R []) (fun _ => []) in
  sound m g 2 (Bin Mul (Var 0) (Bin Add (Var 0) (Var 1))) /\ straight 1 (Bin Mul (Var 0) (Bin Add (Var 0) (Var 1))) /\ point_at m g 2 1 /\
  sound m g 2 (Bin Add (Var 0) (Var 1)) /\ single (Bin Add (Var 0) (Var 1)) /\ sound m g 2 (BinL Mul (Lit (Some 2%R)) (Var 0)) /\ ~ single (BinL Mul (Lit (Some 2%R)) (Var 0)) /\
  nth 0 (vals g 1) None = Some 3%R /\ later m m.
Proof.
  cbn zeta. repeat split; try reflexivity; try (cbn; tauto). intros l o H. destruct l as [|[|l]]; cbn in H; [injection H as <-; cbn; eauto | injection H as <-; cbn; eauto | destruct l; discriminate].
Qed.

(** 2 * y / x[1]. *)
Lemma c117_by_value_ex : same (fun x => nth x [[1; 2]; [3; 4]]%R []) (BinR Div (BinL Mul (Lit (Some 2%R)) (Var 1)) (Elem 0 1)) (B Div (B Mul (Sc 2) (V [3; 4]%R)) (Sc 2)).
Proof. cbn. auto. Qed.

(** C117: points of different sizes in one operation, or a result that does not fit [x], end the program; nothing is computed from them. *)
Lemma c117_sizes : forall (o : bop) (m : mem) (g : names) (n k : nat) (a b : ex), sound m g n a -> sound m g k b -> n <> k -> 0 < n -> 0 < k -> declare m (Bin o a b) = Abort.
Proof.
  intros o m g n k a b Sa Sb N Pn Pk. unfold declare. cbn [build]. destruct (build_ok m g n a Sa) as (t & la & -> & Ra & La & _). cbn [obind fst snd].
  destruct (build_ok (m ++ t) g k b (sound_ext m t g k b Sb)) as (u & lb & -> & Rb & Lb & _). cbn [obind fst snd].
  unfold levaluate. assert (K := nth_last ((m ++ t) ++ u) (Some (OBin o (Ref la) (Ref lb)))). set (w := ((m ++ t) ++ u) ++ [Some (OBin o (Ref la) (Ref lb))]) in *.
  assert (Ra' : rep w g n a la) by (unfold w; apply rep_ext, rep_ext; auto). assert (Rb' : rep w g k b lb) by (unfold w; apply rep_ext; auto).
  assert (La' : la < length ((m ++ t) ++ u)) by (rewrite app_length; lia). set (l := length ((m ++ t) ++ u)) in *.
  cbn [lsize]. rewrite (look_ok _ _ _ K). cbn [obind]. rewrite (rep_size w g n a la l Ra' La'), (rep_size w g k b lb l Rb' Lb). cbn [obind].
  destruct (Nat.eqb_spec n 0), (Nat.eqb_spec k 0), (Nat.eqb_spec n k); try lia. reflexivity.
Qed.

Lemma c117_sizes_assign : forall (o : option bop) (m : mem) (g : names) (n k x : nat) (e : ex), sound m g n e -> point_at m g k x -> n <> k -> assign_e o m x e = Abort.
Proof.
  intros o m g n k x e Sd (Hx & Ln) N. unfold assign_e. destruct (build_ok m g n e Sd) as (t & l & -> & Rp & _). cbn [obind fst snd].
  rewrite (rep_size (m ++ t) g k (Var x) x (S x)) by (cbn; unfold point_at; auto using nth_app). cbn [obind].
  rewrite (rep_size _ g n e l (S l) Rp) by lia. cbn [obind]. destruct (Nat.eqb_spec k n); [lia | reflexivity].
Qed.

(** C117: auto h = x makes a point of its own: it keeps its values whatever happens to [x]. *)
Lemma c117_copied : forall (m : mem) (g : names) (n x : nat), point_at m g n x ->
  exists m1 h, hold m (Var x) = Ok (m1, h) /\ length m <= h /\ (forall l, l < length m -> nth_error m1 l = nth_error m l) /\
  forall m2, nth_error m2 h = nth_error m1 h -> use m2 h = Ok (vals g x).
Proof.
  intros m g n x (Hx & Ln). cbn [hold]. rewrite (look_ok _ _ _ Hx). cbn [obind]. exists (m ++ [Some (OVec (vals g x))]), (length m). split; auto. split; auto.
  split; [intros l Ll; now rewrite nth_error_app1|]. intros m2 E. rewrite nth_last in E. unfold use.
  rewrite (rep_eval m2 (setn g (length m) (vals g x)) n (Var (length m)) (length m)).
  - f_equal. cbn [value]. rewrite setn_same. subst n. apply (list_nth_eq _ _ None); rewrite map_length, seq_length; auto. intros i Li.
    rewrite (nth_indep _ None (nth 0 (vals g x) None)) by (rewrite map_length, seq_length; auto). rewrite (map_nth (fun i => nth i (vals g x) None)), seq_nth by auto. reflexivity.
  - cbn [rep]. split; auto. unfold point_at. rewrite setn_same. auto.
Qed.

(** [1; 2] + [3]; [3] = [1; 2]. *)
Lemma c117_sizes_ex : let m := [Some (OVec [Some 1; Some 2]); Some (OVec [Some 3])]%R in let g := mkNames (fun x => nth x [[Some 1; Some 2]; [Some 3]]%R []) (fun _ => []) in
  sound m g 2 (Var 0) /\ sound m g 1 (Var 1) /\ point_at m g 1 1 /\ point_at m g 2 0.
Proof. cbn zeta. repeat split; reflexivity. Qed.
