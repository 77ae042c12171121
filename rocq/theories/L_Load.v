(** Lemmas about number formatting and class names. *)
From Coq Require Import ZArith QArith Ascii Bool String List Lia.
From Verif Require Import Base ListLib M_Data M_Str S_Str L_Str2 L_Str3 M_Load S_Load.
Import ListNotations.
Local Open Scope nat_scope.

(** *** digits *)
Lemma int_digits_ok a : (0 <= a)%Z -> exists ds, int_digits a = Ok ds /\ Forall dig ds /\ dec ds = a /\ ((0 < a)%Z -> no_lead0 ds).
Proof.
  intro H. unfold int_digits. destruct (itos_digits_ok (S (Z.to_nat (Z.log2 a))) a) as (r & E & F & V & _ & P).
  - split; [auto|]. destruct (Z.eq_dec a 0) as [->|N]; [cbn; lia|].
    pose proof (Z.log2_spec a ltac:(lia)) as [_ L]. pose proof (Z.log2_nonneg a).
    rewrite Nat2Z.inj_succ, Z2Nat.id by auto.
    assert (2 ^ Z.succ (Z.log2 a) <= 10 ^ Z.succ (Z.log2 a))%Z by (apply Z.pow_le_mono_l; lia). lia.
  - rewrite E. cbn [obind]. exists (rev r). split; [auto|split; [now apply Forall_rev|split; [auto|]]].
    intro Q. destruct (P Q) as (c & t & R & N). exists c, t. auto.
Qed.
Lemma digits_len ds m : Forall dig ds -> no_lead0 ds -> (dec ds < 10 ^ Z.of_nat m)%Z -> List.length ds <= m.
Proof.
  intros F N H. destruct (lead_pos ds F N) as [_ [L _]]. destruct (Nat.le_gt_cases (List.length ds) m) as [|G]; auto. exfalso.
  assert (10 ^ Z.of_nat m <= 10 ^ Z.of_nat (List.length ds - 1))%Z by (apply Z.pow_le_mono_r; lia). lia.
Qed.
Lemma drop_zeros_ok s : exists z, s = repeat "0"%char z ++ drop_zeros s.
Proof.
  induction s as [|c s (z & IH)]; [now exists 0|]. cbn [drop_zeros]. destruct (Ascii.eqb_spec c "0") as [->|].
  - exists (S z). cbn [repeat app]. now rewrite <- IH.
  - now exists 0.
Qed.
Lemma rev_repeat (A : Type) (a : A) n : rev (repeat a n) = repeat a n.
Proof.
  induction n; [reflexivity|]. cbn [repeat rev]. rewrite IHn. clear IHn. induction n; [reflexivity|]. cbn. now rewrite IHn.
Qed.
Lemma strip_zeros_ok s : exists z, s = strip_zeros s ++ repeat "0"%char z.
Proof.
  destruct (drop_zeros_ok (rev s)) as (z & E). exists z. unfold strip_zeros.
  rewrite <- (rev_repeat _ "0"%char z), <- rev_app_distr, <- E. now rewrite rev_involutive.
Qed.
Lemma dec_zeros z : dec (repeat "0"%char z) = 0%Z.
Proof. induction z; [reflexivity|]. cbn [repeat]. rewrite dec_cons, IHz. change (dig_value "0") with 0%Z. lia. Qed.
Lemma dig_zeros z : Forall dig (repeat "0"%char z).
Proof. apply Forall_forall. intros c Hc. apply repeat_spec in Hc. subst c. apply isdigit_dig. reflexivity. Qed.
Lemma dec_app_zeros s z : dec (s ++ repeat "0"%char z) = (dec s * 10 ^ Z.of_nat z)%Z.
Proof. rewrite dec_app, dec_zeros, repeat_length. lia. Qed.
Lemma dec_zeros_app s z : dec (repeat "0"%char z ++ s) = dec s.
Proof. rewrite dec_app, dec_zeros. lia. Qed.
Lemma firstn_repeat (A : Type) (a : A) n m : firstn n (repeat a m) = repeat a (Nat.min n m).
Proof. revert m. induction n; intro m; [reflexivity|]. destruct m; [reflexivity|]. cbn. now rewrite IHn. Qed.

Definition numchar (c : ascii) : Prop := In c (list_ascii_of_string "0123456789.-+e").
Lemma dig_numchar c : dig c -> numchar c.
Proof. intro H. vm_compute in H. vm_compute. tauto. Qed.
Lemma digs_numchar s : Forall dig s -> Forall numchar s.
Proof. apply Forall_impl, dig_numchar. Qed.

Definition ndot (fp : str) : str := match fp with [] => [] | _ => "."%char :: fp end.

Lemma Qfrac a b p q : (0 < p)%Z -> (0 < q)%Z -> (a * q = b * p)%Z -> (inject_Z a / inject_Z p == inject_Z b / inject_Z q)%Q.
Proof.
  intros Hp Hq E. assert (~ inject_Z p == 0)%Q by (unfold Qeq; cbn; lia). assert (~ inject_Z q == 0)%Q by (unfold Qeq; cbn; lia).
  apply (Qmult_inj_r _ _ (inject_Z p * inject_Z q)).
  - intro Z. apply Qmult_integral in Z. tauto.
  - transitivity (inject_Z (a * q)); [rewrite inject_Z_mult; field; auto|]. rewrite E, inject_Z_mult. field. auto.
Qed.

Lemma atod_split neg ip fp : Forall dig ip -> ip <> [] -> Forall dig fp ->
  (atod ((if neg : bool then ["-"%char] else []) ++ ip ++ ndot fp) ==
   inject_Z (if neg then -1 else 1) * (inject_Z (dec (ip ++ fp)) / inject_Z (10 ^ Z.of_nat (List.length fp))))%Q.
Proof.
  intros F N G. set (sg := if neg then ["-"%char] else []).
  assert (is_sign sg) as SG by (unfold sg, is_sign; destruct neg; auto).
  pose proof (atod_ok [] sg ip (ndot fp) fp []) as A. cbn [app] in A. rewrite app_nil_r in A. rewrite A; auto.
  - assert (sign_of sg = (if neg then -1 else 1)%Z) as -> by (unfold sg; now destruct neg).
    apply Qmult_comp; [reflexivity|]. rewrite dec_app, inject_Z_plus, inject_Z_mult.
    assert (~ inject_Z (10 ^ Z.of_nat (List.length fp)) == 0)%Q.
    { unfold Qeq. cbn. pose proof (Z.pow_pos_nonneg 10 (Z.of_nat (List.length fp))). lia. }
    field. auto.
  - destruct fp; [right; cbn; auto|left; reflexivity].
Qed.
Lemma ndot_numchar fp : Forall dig fp -> Forall numchar (ndot fp).
Proof.
  intro F. destruct fp as [|c r]; [constructor|]. cbn [ndot]. constructor; [|now apply digs_numchar]. vm_compute. tauto.
Qed.
Lemma is_number_chars s : s <> [] -> Forall numchar s -> is_number s = true.
Proof. intros N F. apply is_number_ok. auto. Qed.

Lemma fmt_g_eq v ds : mant v <> 0%Z -> (Z.abs (mant v) < 10 ^ 6)%Z -> int_digits (Z.abs (mant v)) = Ok ds -> List.length ds <= 6 ->
  fmt_g v = (let sg := if Z.ltb (mant v) 0 then ["-"%char] else [] in
    let x := (Z.of_nat (List.length ds) - 1 - Z.of_nat (scale v))%Z in
    let sig := strip_zeros ds in
    if Z.leb (-4) x && Z.ltb x 6 then
      if Z.leb 0 x then
        let j := S (Z.to_nat x) in
        Ok (sg ++ firstn j (sig ++ repeat "0"%char j) ++ ndot (skipn j sig))
      else Ok (sg ++ ["0"; "."]%char ++ repeat "0"%char (Z.to_nat (- x - 1)) ++ sig)
    else
      let* ex := int_digits (Z.abs x) in
      Ok (sg ++ firstn 1 sig ++ (match skipn 1 sig with [] => [] | f => "."%char :: f end) ++
          ["e"%char; if Z.ltb x 0 then "-"%char else "+"%char] ++ repeat "0"%char (2 - List.length ex) ++ ex)).
Proof.
  intros N B E L. unfold fmt_g. destruct (Z.eqb_spec (mant v) 0); [contradiction|]. rewrite E. cbn [obind].
  replace (List.length ds - 6) with 0 by lia. change (10 ^ Z.of_nat 0)%Z with 1%Z. rewrite Z.div_1_r, Z.mod_1_r.
  change (Z.ltb 1 (2 * 0) || (Z.eqb (2 * 0) 1 && Z.odd (Z.abs (mant v)))) with false. cbv iota. rewrite E. cbn [obind].
  cbv zeta. replace (Z.of_nat (List.length ds) - 1 + Z.of_nat 0 - Z.of_nat (scale v))%Z with (Z.of_nat (List.length ds) - 1 - Z.of_nat (scale v))%Z by lia.
  reflexivity.
Qed.

Lemma fmt_g_short v : short v -> exists t, fmt_g v = Ok t /\ t <> [] /\ Forall numchar t /\ (atod t == dec_Q v)%Q.
Proof.
  intros [B S]. destruct (Z.eq_dec (mant v) 0) as [Z0|N].
  - exists ["0"%char]. unfold fmt_g. rewrite Z0. split; [reflexivity|]. split; [discriminate|]. split; [repeat constructor; vm_compute; tauto|].
    unfold dec_Q. rewrite Z0. change (atod ["0"%char]) with (inject_Z 0). unfold Qdiv. rewrite Qmult_0_l. reflexivity.
  - destruct S as [|S]; [contradiction|].
    destruct (int_digits_ok (Z.abs (mant v)) ltac:(lia)) as (ds & E & F & V & P).
    specialize (P ltac:(lia)). assert (List.length ds <= 6) as L by (apply digits_len; auto; rewrite V; exact B).
    rewrite (fmt_g_eq v ds N B E L). cbv zeta.
    destruct (strip_zeros_ok ds) as (z & Ez). set (sig := strip_zeros ds) in *.
    assert (Forall dig sig) as Fs by (rewrite Ez in F; apply Forall_app in F; tauto).
    assert (dec ds = dec sig * 10 ^ Z.of_nat z)%Z as Vz by (rewrite Ez at 1; apply dec_app_zeros).
    assert (List.length ds = List.length sig + z) as Lz by (rewrite Ez at 1; now rewrite app_length, repeat_length).
    assert (sig <> []) as Ns.
    { intro Q. rewrite Q in Vz. cbn in Vz. rewrite V in Vz. lia. }
    set (k := scale v) in *. set (nd := List.length ds) in *.
    assert (Z.of_nat k < Z.of_nat nd + 4)%Z as Lx.
    { destruct (Z.lt_ge_cases (Z.of_nat k) (Z.of_nat nd + 4)) as [|G]; auto. exfalso.
      assert (10 ^ (Z.of_nat nd + 4) <= 10 ^ Z.of_nat k)%Z by (apply Z.pow_le_mono_r; lia).
      destruct (lead_pos ds F P) as [_ [_ U]]. fold nd in U. rewrite V in U. rewrite Z.pow_add_r in H by lia. lia. }
    assert (1 <= nd) as Lnd by (destruct P as (c & r & Ep & _); unfold nd; rewrite Ep; cbn; lia).
    assert (forall ip fp, ip <> [] -> Forall dig ip -> Forall dig fp ->
       (dec (ip ++ fp) * 10 ^ Z.of_nat k = Z.abs (mant v) * 10 ^ Z.of_nat (List.length fp))%Z ->
       forall t, t = (if Z.ltb (mant v) 0 then ["-"%char] else []) ++ ip ++ ndot fp ->
       t <> [] /\ Forall numchar t /\ (atod t == dec_Q v)%Q) as K.
    { intros ip fp Ni Fi Ff Eq t ->. split; [destruct ip; [now elim Ni|]; destruct (Z.ltb (mant v) 0); discriminate|]. split.
      - apply Forall_app. split; [destruct (Z.ltb (mant v) 0); repeat constructor; vm_compute; tauto|].
        apply Forall_app. split; [now apply digs_numchar|now apply ndot_numchar].
      - rewrite atod_split by auto. unfold dec_Q. fold k.
        assert (0 < 10 ^ Z.of_nat k)%Z by (apply Z.pow_pos_nonneg; lia).
        assert (0 < 10 ^ Z.of_nat (List.length fp))%Z by (apply Z.pow_pos_nonneg; lia).
        rewrite (Qfrac _ (Z.abs (mant v)) _ (10 ^ Z.of_nat k)) by auto.
        unfold Qdiv. rewrite Qmult_assoc, <- inject_Z_mult.
        replace ((if Z.ltb (mant v) 0 then -1 else 1) * Z.abs (mant v))%Z with (mant v); [reflexivity|].
        destruct (Z.ltb_spec (mant v) 0); lia. }
    destruct (Z.leb_spec (-4) (Z.of_nat nd - 1 - Z.of_nat k)) as [X1|X1]; [|lia].
    destruct (Z.ltb_spec (Z.of_nat nd - 1 - Z.of_nat k) 6) as [X2|X2]; [|lia]. cbn [andb].
    destruct (Z.leb_spec 0 (Z.of_nat nd - 1 - Z.of_nat k)) as [X3|X3].
    + eexists. split; [reflexivity|].
      replace (Datatypes.S (Z.to_nat (Z.of_nat nd - 1 - Z.of_nat k))) with (nd - k) by lia.
      eapply (K (firstn (nd - k) (sig ++ repeat "0"%char (nd - k))) (skipn (nd - k) sig)); [| | | |reflexivity].
      * intro Q. apply (f_equal (@List.length ascii)) in Q. rewrite firstn_length, app_length, repeat_length in Q. cbn in Q. lia.
      * assert (Forall dig (sig ++ repeat "0"%char (nd - k))) as FF by (apply Forall_app; auto using dig_zeros).
        rewrite <- (firstn_skipn (nd - k)) in FF. now apply Forall_app in FF.
      * apply Forall_forall. intros c Hc. rewrite Forall_forall in Fs. apply Fs.
        rewrite <- (firstn_skipn (nd - k) sig). apply in_or_app. now right.
      * rewrite skipn_length. destruct (Nat.le_gt_cases (List.length sig) (nd - k)) as [Q|Q].
        -- rewrite (skipn_all2 sig) by auto. rewrite app_nil_r. rewrite firstn_app, firstn_all2 by auto. rewrite firstn_repeat.
           rewrite dec_app_zeros. replace (Nat.min (nd - k - List.length sig) (nd - k)) with (z - k) by lia.
           replace (List.length sig - (nd - k)) with 0 by lia. rewrite <- V, Vz. change (10 ^ Z.of_nat 0)%Z with 1%Z.
           rewrite <- Z.mul_assoc, <- Z.pow_add_r by lia. replace (Z.of_nat (z - k) + Z.of_nat k)%Z with (Z.of_nat z) by lia. lia.
        -- rewrite firstn_app. replace (nd - k - List.length sig) with 0 by lia. cbn [firstn]. rewrite app_nil_r, firstn_skipn.
           rewrite <- V, Vz. rewrite <- Z.mul_assoc, <- Z.pow_add_r by lia. do 2 f_equal. lia.
    + eexists. split; [reflexivity|].
      eapply (K ["0"%char] (repeat "0"%char (Z.to_nat (- (Z.of_nat nd - 1 - Z.of_nat k) - 1)) ++ sig)); [discriminate| | | |].
      * apply (dig_zeros 1).
      * apply Forall_app. auto using dig_zeros.
      * change ["0"%char] with (repeat "0"%char 1). rewrite dec_zeros_app, dec_zeros_app, app_length, repeat_length.
        rewrite <- V, Vz, <- Z.mul_assoc, <- Z.pow_add_r by lia. do 2 f_equal. lia.
      * f_equal. cbn [app]. f_equal. unfold ndot. destruct (repeat "0"%char _ ++ sig) eqn:Q; [|reflexivity].
        apply app_eq_nil in Q. now elim Ns.
Qed.
