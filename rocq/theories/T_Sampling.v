(** Property lemmas for Data::sampling: C16, C87. *)
From Coq Require Import ZArith Bool List Permutation Lia.
From Verif Require Import Base ListLib M_Data S_Data L_Data L_Insert L_Split L_Valid Loop M_Heap L_Heap M_Sampling S_Sampling T_Data T_Heap.
Import ListNotations.
Local Open Scope nat_scope.

Lemma picked_some {A} (cs : list A) l pk : Forall2 (fun i c => nth_error cs i = Some c) l pk -> map Some pk = map (nth_error cs) l.
Proof. induction 1; cbn; congruence. Qed.
Section Sampling.
Context {T : Type}.
Implicit Types (hp : heap T) (h : hdata T) (d v : data T) (p : point T).

(** *** contents read through pointers *)
Definition creads hp (refs : list nat) (cs : list (list T * Z * T)) : Prop := Forall2 (fun r c => option_map content (nth_error hp r) = Some c) refs cs.
Definition same_content hp hp' : Prop := forall j, option_map content (nth_error hp' j) = option_map content (nth_error hp j).
Lemma creads_same hp hp' refs cs : same_content hp hp' -> creads hp refs cs -> creads hp' refs cs.
Proof. intro S. unfold creads. induction 1 as [|r c rs cs E F IH]; constructor; [now rewrite S|auto]. Qed.
Lemma reads_creads hp refs pts : reads hp refs pts -> creads hp refs (map content pts).
Proof. unfold reads, creads. induction 1 as [|r p rs ps E F IH]; cbn; constructor; [now rewrite E|auto]. Qed.
Lemma creads_reads hp refs cs : creads hp refs cs -> exists pts, reads hp refs pts /\ map content pts = cs.
Proof.
  unfold reads, creads. induction 1 as [|r c rs cs E F (pts & A & B)]; [exists []; split; [constructor|auto]|]. destruct (nth_error hp r) as [p|] eqn:Ep; [|discriminate]. injection E as <-. exists (p :: pts). split; [constructor; auto|]. cbn. now rewrite B.
Qed.
Lemma data_ok_content d pts : data_ok d -> map content pts = map content (d_points d) -> data_ok (with_points pts d).
Proof.
  intros D E. assert (length pts = length (d_points d)) as L by (rewrite <- (map_length content pts), E; apply map_length). assert (labels pts = labels (d_points d)) as Ly.
  { unfold labels. rewrite (map_ext p_y (fun p => snd (fst (content p)))) by reflexivity. rewrite <- (map_map content (fun c => snd (fst c))), E, map_map. reflexivity. }
  assert (forall p, In p pts -> exists q, In q (d_points d) /\ content q = content p) as K. { intros p I. apply (in_map content) in I. rewrite E in I. apply in_map_iff in I as (q & Eq & I). eauto. }
  constructor; cbn; rewrite ?L; try apply D.
  - destruct (ok_class _ D) as [C1 C2 C3 C4 C5]. constructor; cbn; auto.
    + intros p I. destruct (K p I) as (q & J & Eq). unfold content in Eq. injection Eq as _ Ey _. rewrite <- Ey. now apply C3.
    + intros i c Ei. unfold label_count. rewrite Ly. now apply C5.
  - intros p I. destruct (K p I) as (q & J & Eq). unfold content in Eq. injection Eq as Ex _ _. rewrite <- Ex. now apply (ok_dim _ D).
  - intros ->. apply (ok_empty _ D). destruct (d_points d); [auto|discriminate].
Qed.
Lemma insert_ref hp h v r p : view hp h = Ok v -> data_ok v -> nth_error hp r = Some p -> (d_points v = [] \/ length (p_x p) = d_dim v) -> (Z.of_nat (length (d_points v)) + 1 < 2 ^ 63)%Z ->
  exists hp' h' v', h_insert hp h r false = Ok (hp', h', true) /\ view hp' h' = Ok v' /\ data_ok v' /\ map content (d_points v') = map content (d_points v) ++ [content p] /\
    same_content hp hp' /\ (forall j, j <> r -> nth_error hp' j = nth_error hp j) /\ h_refs h' = h_refs h ++ [r].
Proof.
  intros V D Er Hx Cap. unfold h_insert, vget at 1. rewrite Er. cbn [obind]. rewrite V. cbn [obind].
  assert (accepts v p) as Ac. { destruct Hx as [Hx|Hx]; [now left|]. destruct (d_points v) as [|q qs] eqn:Eq; [now left|]. right. rewrite Hx. unfold dim. rewrite Eq. symmetry. apply (ok_dim _ D). rewrite Eq. now left. }
  destruct (insertPoint_accept v p false Ac (ok_size _ D)) as (d' & E & Pts & _); [apply (ok_class _ D)|]. rewrite E. cbn [obind snd fst].
  pose proof (insertPoint_ok _ _ _ _ _ D Cap E) as D'. pose proof V as V0. apply view_ok in V0 as [R Em].
  unfold h_write. cbn [h_refs]. rewrite (ok_size _ D). replace (S (length (d_points v)) - 1) with (length (d_points v)) by lia.
  assert (vget (h_refs h ++ [r]) (length (d_points v)) = Ok r) as -> by (unfold vget; rewrite nth_error_app2 by (rewrite (reads_len _ _ _ R); lia); rewrite (reads_len _ _ _ R), Nat.sub_diag; reflexivity). cbn [obind].
  destruct (vupd_lt r (fun q => mkPoint (p_x q) (p_y q) (Z.of_nat (S (length (d_points v)))) (p_alpha q)) hp) as (hp' & U & EU); [apply nth_error_Some; congruence|]. rewrite EU. cbn [obind].
  assert (forall j, j <> r -> nth_error hp' j = nth_error hp j) as K by (intros j N; eapply upd_nth_other; eauto).
  assert (nth_error hp' r = Some (with_id (Z.of_nat (S (length (d_points v)))) p)) as Kr by (rewrite (upd_nth_same _ _ _ _ U), Er; reflexivity).
  assert (same_content hp hp') as SC. { intro j. destruct (Nat.eq_dec j r) as [->|N]; [now rewrite Kr, Er|now rewrite K]. }
  assert (creads hp' (h_refs h ++ [r]) (map content (d_points v) ++ [content p])) as CR. { apply Forall2_app; [apply (creads_same hp); [auto|now apply reads_creads]|]. constructor; [now rewrite SC, Er|constructor]. }
  destruct (creads_reads _ _ _ CR) as (pts & Rp & Cp).
  exists hp', (mkH (h_refs h ++ [r]) (strip d')), (with_points pts d'). split; [reflexivity|]. split.
  - apply view_ok. cbn [h_refs h_meta with_points d_points]. split; [auto|]. destruct d'; reflexivity.
  - split; [apply data_ok_content; [auto|]; rewrite Pts, map_app; exact Cp|]. auto.
Qed.

Lemma draw_new_ok rnd fuel b ids : in_range rnd -> forall t i t', draw_new rnd fuel b ids t = Some (i, t') -> i <= b /\ ~ In i ids.
Proof.
  intro H. induction fuel as [|f IH]; intros t i t' E; [discriminate|]. cbn in E. destruct (existsb _ ids) eqn:Ex; [eauto|]. injection E as <- <-. split; [apply H|]. intro I. assert (existsb (Nat.eqb (rnd t b)) ids = true); [|congruence]. apply existsb_exists. exists (rnd t b). split; [auto|apply Nat.eqb_refl].
Qed.
(** The state between draws: the sample is well formed with contents [cs]. *)
Record good (n : nat) (s : samp (T := T)) (cs : list (list T * Z * T)) : Prop := {
  g_view : exists v, view (sp_heap s) (sp_data s) = Ok v /\ data_ok v /\ map content (d_points v) = cs;
  g_dim : forall c, In c cs -> length (fst (fst c)) = n }.
Lemma draw_many_ok rnd repl fuel b part pcs n : in_range rnd -> (forall c, In c pcs -> length (fst (fst c)) = n) -> b < length pcs -> forall k s cs, good n s cs -> creads (sp_heap s) (h_refs part) pcs -> (Z.of_nat (length cs + k) < 2 ^ 63)%Z ->
  (repl = false /\ draw_many rnd repl fuel b k part s = Ok None) \/
  exists s' new picks, draw_many rnd repl fuel b k part s = Ok (Some s') /\ good n s' (cs ++ picks) /\ length picks = k /\ same_content (sp_heap s) (sp_heap s') /\
    (forall j, ~ In j (h_refs part) -> nth_error (sp_heap s') j = nth_error (sp_heap s) j) /\
    length new = k /\ (forall i, In i new -> i <= b) /\ Forall2 (fun i c => nth_error pcs i = Some c) (rev new) picks /\
    (repl = false -> sp_ids s' = new ++ sp_ids s /\ (NoDup (sp_ids s) -> NoDup (sp_ids s'))) /\
    (repl = true -> rev new = map (fun j => rnd (sp_t s + j) b) (seq 0 k) /\ sp_t s' = sp_t s + k).
Proof.
  intros Hr Hd Hb. induction k as [|k IH]; intros s cs G CR Cap.
  - right. exists s, [], []. cbn [draw_many]. rewrite app_nil_r. split; [auto|]. split; [auto|]. split; [auto|]. split; [intro; auto|]. split; [auto|]. split; [auto|]. split; [intros i []|]. split; [constructor|]. split; [auto|]. intros _. split; [reflexivity|lia].
  - cbn [draw_many]. unfold draw_one at 1 2.
    destruct (if repl then Some (rnd (sp_t s) b, S (sp_t s)) else draw_new rnd fuel b (sp_ids s) (sp_t s)) as [[i t]|] eqn:Ed; [|left; destruct repl; [discriminate|auto]].
    assert (i <= b /\ (repl = false -> ~ In i (sp_ids s))) as [Hi Ni]. { destruct repl; [injection Ed as <- <-; split; [apply Hr|discriminate]|]. destruct (draw_new_ok _ _ _ _ Hr _ _ _ Ed) as [A B]. auto. }
    destruct (nth_error pcs i) as [c|] eqn:Ec; [|apply nth_error_None in Ec; lia]. destruct (creads_reads _ _ _ CR) as (ppts & Rp & Ep).
    assert (exists p, nth_error ppts i = Some p /\ content p = c) as (p & Epi & Ecp). { rewrite <- Ep, nth_error_map in Ec. destruct (nth_error ppts i) as [p|]; [|discriminate]. injection Ec as <-. eauto. }
    destruct (reads_nth _ _ _ _ _ Rp Epi) as (r & Err & Eh). destruct G as [(v & V & D & Cv) Gd].
    destruct (insert_ref (sp_heap s) (sp_data s) v r p V D Eh) as (hp' & h' & v' & E & V' & D' & C' & SC & K & Rf).
    { destruct (d_points v) as [|q qs] eqn:Eq; [now left|]. right. rewrite <- (ok_dim _ D q) by (rewrite Eq; now left).
      assert (length (p_x p) = n) as -> by (rewrite <- (Hd c) by (eapply nth_error_In; eauto); rewrite <- Ecp; reflexivity). symmetry. apply (Gd (content q)). rewrite <- Cv. cbn. now left. }
    { assert (length (d_points v) = length cs) as -> by (rewrite <- Cv; now rewrite map_length). lia. }
    unfold vget. rewrite Err. cbn [obind]. rewrite E. cbn [obind fst snd]. set (s1 := mkSamp hp' h' (if repl then sp_ids s else i :: sp_ids s) t).
    assert (good n s1 (cs ++ [c])) as G1. { split; [exists v'; cbn; split; [auto|]; split; [auto|]; rewrite C', Cv, Ecp; reflexivity|]. intros x I. apply in_app_or in I as [I|[<-|[]]]; [auto|]. apply Hd. eapply nth_error_In; eauto. }
    destruct (IH s1 (cs ++ [c]) G1) as [[A B]|(s' & new & picks & A & Gs & Lp & Ss & Ks & Ln & Bn & Fn & Idn & Det)].
    + apply (creads_same (sp_heap s)); [exact SC|exact CR].
    + rewrite app_length. cbn [length]. lia.
    + left. auto.
    + right. exists s', (new ++ [i]), (c :: picks). rewrite <- app_assoc in Gs. split; [auto|]. split; [exact Gs|]. split; [cbn; lia|]. split; [intro j; rewrite Ss; apply SC|].
      split; [intros j N; rewrite Ks by auto; apply K; intros ->; apply N; eapply nth_error_In; eauto|]. split; [rewrite app_length; cbn; lia|]. split; [intros x I; apply in_app_or in I as [I|[<-|[]]]; auto|]. split; [rewrite rev_app_distr; cbn; constructor; auto|].
      split; [|intros ->; injection Ed as <- <-; destruct (Det eq_refl) as [Dt1 Dt2]; cbn [s1 sp_t] in Dt1, Dt2; split; [|lia]; rewrite rev_app_distr; cbn [rev app seq map]; rewrite Nat.add_0_r; f_equal; rewrite Dt1, <- seq_shift, map_map; apply map_ext; intro j; f_equal; lia].
      intros ->. destruct (Idn eq_refl) as [I1 I2]. cbn [s1 sp_ids] in I1, I2. split; [rewrite <- app_assoc; exact I1|]. intro ND. apply I2. constructor; auto.
Qed.
(** One class after the other. *)
Lemma draw_classes_ok rnd repl fuel n : in_range rnd -> forall qs parts pcss s cs, good n s cs -> length qs = length pcss -> Forall2 (fun part pcs => creads (sp_heap s) (h_refs part) pcs) parts pcss ->
  (forall pcs c, In pcs pcss -> In c pcs -> length (fst (fst c)) = n) -> Forall2 (fun q pcs => 1 <= q <= length pcs) qs pcss -> (Z.of_nat (length cs + list_sum qs) < 2 ^ 63)%Z ->
  (repl = false /\ draw_classes rnd repl fuel qs parts s = Ok None) \/
  exists s' picks, draw_classes rnd repl fuel qs parts s = Ok (Some s') /\ good n s' (cs ++ concat picks) /\ same_content (sp_heap s) (sp_heap s') /\
    (forall j, (forall part, In part parts -> ~ In j (h_refs part)) -> nth_error (sp_heap s') j = nth_error (sp_heap s) j) /\
    Forall2 (fun qp pk => length pk = fst qp /\ forall c, In c pk -> In c (firstn (fst qp) (snd qp))) (combine qs pcss) picks /\
    (repl = true -> map Some (concat picks) = drawn rnd (sp_t s) qs pcss).
Proof.
  intros Hr. induction qs as [|q qs IH]; intros parts pcss s cs G L F Hd Hq Cap.
  - right. exists s, []. cbn. rewrite app_nil_r. split; [auto|]. split; [auto|]. split; [intro; auto|]. split; [auto|]. split; [constructor|]. auto.
  - inversion Hq as [|q0 pcs qs0 pcss0 Hq1 Hq2]; subst. inversion F as [|part pcs0 parts0 pcss1 F1 F2]; subst. cbn [draw_classes].
    destruct (draw_many_ok rnd repl fuel (q - 1) part pcs n Hr (fun c I => Hd pcs c (or_introl eq_refl) I) ltac:(lia) q s cs G F1 ltac:(cbn in Cap; lia)) as [[A ->]|(s1 & new & pk & -> & G1 & Lp & S1 & K1 & Ln & Bn & Fn & _ & Det)].
    + cbn [obind]. left. auto.
    + cbn [obind]. destruct (IH parts0 pcss0 s1 (cs ++ pk) G1) as [[A B]|(s' & picks & A & Gs & Ss & Ks & Fs & Ds)].
      * cbn in L. lia.
      * clear -F2 S1. induction F2; constructor; [eapply creads_same; eauto|auto].
      * intros pcs' c I J. apply (Hd pcs'); [now right|auto].
      * auto.
      * rewrite app_length, Lp. change (list_sum (q :: qs)) with (q + list_sum qs) in Cap. lia.
      * left. auto.
      * right. exists s', (pk :: picks). split; [auto|]. split; [cbn [concat]; rewrite app_assoc; auto|]. split; [intro j; rewrite Ss; apply S1|]. split; [intros j N; rewrite Ks by (intros; apply N; now right); apply K1; apply N; now left|].
        split; [|intro Rt; destruct (Det Rt) as [Dt1 Dt2]; cbn [drawn concat]; rewrite map_app, (Ds Rt), Dt2, (picked_some _ _ _ Fn), Dt1, map_map; reflexivity].
        cbn [combine]. constructor; [|auto]. cbn [fst snd]. split; [auto|]. intros c I.
        assert (exists i, In i new /\ nth_error pcs i = Some c) as (i & Ii & Ei). { clear -Fn I. assert (forall l, Forall2 (fun i c => nth_error pcs i = Some c) l pk -> exists i, In i l /\ nth_error pcs i = Some c) as Q. { clear -I. intros l Fn. induction Fn as [|x y l l' E Fn IH]; [destruct I|]. destruct I as [<-|I]; [exists x; split; [now left|auto]|]. destruct (IH I) as (i & A & B). exists i. split; [now right|auto]. } destruct (Q _ Fn) as (i & A & B). exists i. split; [now apply in_rev|auto]. }
        apply Bn in Ii. apply (nth_error_In _ i). rewrite <- Ei. rewrite <- (firstn_skipn q pcs) at 2. rewrite nth_error_app1; [reflexivity|]. rewrite firstn_length. lia.
Qed.
Lemma alloc_all_ok ds : forall hp, exists hp' hs, alloc_all hp ds = (hp', hs) /\ Forall2 (fun h d => reads hp' (h_refs h) (d_points d)) hs ds /\ (exists tl, hp' = hp ++ tl) /\ (forall h r, In h hs -> In r (h_refs h) -> length hp <= r).
Proof.
  induction ds as [|d ds IH]; intro hp; cbn [alloc_all]; [exists hp, []; split; [auto|]; split; [constructor|]; split; [exists []; now rewrite app_nil_r|intros h r []]|].
  unfold alloc. destruct (IH (hp ++ d_points d)) as (hp' & hs & E & F & (tl & Et) & B). rewrite E. exists hp', (mkH (seq (length hp) (length (d_points d))) (strip d) :: hs). split; [auto|]. split.
  - constructor; [|auto]. cbn [h_refs]. rewrite Et. apply reads_app, reads_fresh.
  - split; [exists (d_points d ++ tl); rewrite Et; now rewrite app_assoc|]. intros h r [<-|I] J; [cbn in J; apply in_seq in J; lia|]. specialize (B h r I J). rewrite app_length in B. lia.
Qed.

(** *** the call *)
Lemma class_len d c : length (class_contents d c) = count_occ Z.eq_dec (labels (d_points d)) c.
Proof. unfold class_contents, labels. rewrite map_length. induction (d_points d) as [|p l IH]; cbn; [auto|]. destruct (Z.eqb_spec (p_y p) c), (Z.eq_dec (p_y p) c); cbn; congruence. Qed.
Lemma sum_cons a l : list_sum (a :: l) = a + list_sum l.
Proof. reflexivity. Qed.
Lemma counts_le (classes ys : list Z) : NoDup classes -> list_sum (map (count_occ Z.eq_dec ys) classes) <= length ys.
Proof.
  intro ND. induction ys as [|y ys IH]; cbn [length].
  - clear. induction classes; cbn; auto.
  - assert (list_sum (map (count_occ Z.eq_dec (y :: ys)) classes) <= 1 + list_sum (map (count_occ Z.eq_dec ys) classes)); [|lia]. clear IH. induction classes as [|c cs IH]; [cbn; lia|]. inversion ND; subst. specialize (IH H2). cbn [map].
    rewrite !sum_cons. destruct (Z.eq_dec y c) as [->|N]; [rewrite count_occ_cons_eq by auto|rewrite count_occ_cons_neq by auto; lia].
    assert (list_sum (map (count_occ Z.eq_dec (c :: ys)) cs) = list_sum (map (count_occ Z.eq_dec ys) cs)) as ->; [|lia]. f_equal. apply map_ext_in. intros x I. cbn. destruct (Z.eq_dec c x); [subst; contradiction|auto].
Qed.
Lemma share_bound d m c : m <= length (d_points d) -> In c (labels (d_points d)) -> 1 <= share d m c <= length (class_contents d c).
Proof.
  intros Hm I. apply (count_occ_In Z.eq_dec) in I. rewrite <- class_len in I. unfold share. set (k := length (class_contents d c)) in *. set (n := length (d_points d)) in *. assert (k * m / n <= k); [|lia]. destruct (Nat.eq_dec n 0) as [->|N]; [replace m with 0 by lia; cbn; lia|]. apply Nat.div_le_upper_bound; [auto|]. nia.
Qed.
Lemma sampling_setup rnd fuel hp src d m repl : view hp src = Ok d -> data_ok d -> (forall c, In c (d_classes d) -> In c (labels (d_points d))) -> 0 < m <= length (d_points d) ->
  exists hp1 hs, sampling rnd fuel hp src m repl = (let* r := draw_classes rnd repl fuel (map (share d m) (d_classes d)) hs (mkSamp hp1 (mkH [] (strip data_empty)) [] 0) in match r with None => Ok None | Some s => Ok (Some (sp_heap s, sp_data s)) end) /\
    Forall2 (fun part pcs => creads hp1 (h_refs part) pcs) hs (map (class_contents d) (d_classes d)) /\ (exists tl, hp1 = hp ++ tl) /\ (forall h r, In h hs -> In r (h_refs h) -> length hp <= r).
Proof.
  intros V D Hc Hm. unfold sampling. rewrite V. cbn [obind]. unfold size. destruct (Nat.ltb_spec (length (d_points d)) m) as [Hlt|_]; [lia|]. rewrite (co_len _ (ok_class _ D)), Nat.ltb_irrefl, Nat.sub_diag. cbn [repeat]. rewrite app_nil_r.
  destruct (splitByClasses_spec d false D) as (parts & -> & L & H). cbn [obind].
  assert (map_outcome (quota m (length (d_points d))) (d_dist d) = Ok (map (share d m) (d_classes d))) as ->.
  { assert (d_dist d = map (fun c => Z.of_nat (length (class_contents d c))) (d_classes d)) as ->. { apply nth_error_ext'. intro i. rewrite nth_error_map. destruct (nth_error (d_classes d) i) as [c|] eqn:Ei; cbn; [rewrite (co_count _ (ok_class _ D) i c Ei); unfold label_count; now rewrite class_len|]. apply nth_error_None. rewrite (co_len _ (ok_class _ D)). now apply nth_error_None. }
    rewrite (map_outcome_ok _ (fun c => Nat.max 1 (Z.to_nat c * m / length (d_points d)))).
    - rewrite map_map. f_equal. apply map_ext. intro c. unfold share. now rewrite Nat2Z.id.
    - intros z I. apply in_map_iff in I as (c & <- & I). unfold quota. rewrite Nat2Z.id. apply Hc in I. apply (count_occ_In Z.eq_dec) in I. rewrite <- class_len in I. destruct (Nat.eqb_spec (length (d_points d)) 0); [lia|]. destruct (Nat.eqb_spec (length (class_contents d c) * m) 0); [nia|reflexivity]. }
  cbn [obind]. destruct (alloc_all_ok parts hp) as (hp1 & hs & -> & F & Tl & B). exists hp1, hs. split; [reflexivity|]. split; [|auto].
  assert (Forall2 (fun P c => map content (d_points P) = class_contents d c) parts (d_classes d)) as FP.
  { clear -H L. revert L H. generalize (d_classes d). induction parts as [|P ps IH]; intros [|c cs] L H; try discriminate; [constructor|]. constructor.
    - destruct (H 0 c eq_refl) as (P' & E & _ & EP). injection E as <-. rewrite EP. apply renum_all_content.
    - apply IH; [cbn in L; lia|]. intros i c' Ei. apply (H (S i) c' Ei). }
  clear -F FP. revert FP. generalize (d_classes d). induction F as [|h P hs ps R F IH]; intros cs FP; inversion FP; subst; cbn; [constructor|]. constructor; [rewrite <- H1; now apply reads_creads|auto].
Qed.
Lemma data_empty_ok : data_ok (@data_empty T).
Proof.
  split.
  - reflexivity.
  - split; [reflexivity|constructor|intros p []|reflexivity|intros [|i] c E; discriminate].
  - reflexivity.
  - cbn. lia.
  - intros p [].
  - reflexivity.
  - constructor.
  - intros f [].
  - reflexivity.
  - cbn. lia.
Qed.
Lemma empty_good n hp : good n (mkSamp hp (mkH [] (strip data_empty)) [] 0) [].
Proof. split; [exists data_empty; split; [reflexivity|]; split; [apply data_empty_ok|reflexivity]|intros c []]. Qed.
Lemma shares_fit d m : data_ok d -> (forall c, In c (d_classes d) -> In c (labels (d_points d))) -> m <= length (d_points d) -> Forall2 (fun q pcs => 1 <= q <= length pcs) (map (share d m) (d_classes d)) (map (class_contents d) (d_classes d)) /\ list_sum (map (share d m) (d_classes d)) <= length (d_points d).
Proof.
  intros D Hc Hm. split.
  - revert Hc. generalize (d_classes d). induction l as [|c cs IH]; intro Hc; cbn; constructor; [apply share_bound; [auto|apply Hc; now left]|]. apply IH. intros. apply Hc. now right.
  - pose proof (counts_le (d_classes d) (labels (d_points d)) (co_nodup _ (ok_class _ D))) as Q. unfold labels at 2 in Q. rewrite map_length in Q. eapply Nat.le_trans; [|exact Q]. revert Hc. generalize (d_classes d). induction l as [|c cs IH]; intro Hc; cbn [map]; [auto|]. rewrite !sum_cons. pose proof (share_bound d m c Hm (Hc c (or_introl eq_refl))) as S. rewrite class_len in S. specialize (IH ltac:(intros; apply Hc; now right)). lia.
Qed.
Lemma contents_dim d : data_ok d -> forall pcs c, In pcs (map (class_contents d) (d_classes d)) -> In c pcs -> length (fst (fst c)) = d_dim d.
Proof. intros D pcs c I J. apply in_map_iff in I as (k & <- & _). unfold class_contents in J. apply in_map_iff in J as (p & <- & J). apply filter_In in J as [J _]. cbn. now apply (ok_dim _ D). Qed.
End Sampling.

(** C16, with replacement: from every class its share of points is drawn, and nothing that existed is changed. The draws reach only the first [share] points of the class. *)
Lemma c16_replacement : forall (T : Type) rnd fuel (hp : heap T) src d m, in_range rnd -> view hp src = Ok d -> data_ok d -> (forall c, In c (d_classes d) -> In c (labels (d_points d))) -> 0 < m <= length (d_points d) ->
  exists hp' h v picks, sampling rnd fuel hp src m true = Ok (Some (hp', h)) /\ view hp' h = Ok v /\ data_ok v /\ map content (d_points v) = concat picks /\
    Forall2 (fun c pk => length pk = share d m c /\ forall x, In x pk -> In x (firstn (share d m c) (class_contents d c))) (d_classes d) picks /\ sample_of rnd d m (concat picks) /\
    forall other do, view hp other = Ok do -> view hp' other = Ok do.
Proof.
  intros T rnd fuel hp src d m Hr V D Hc Hm. destruct (sampling_setup rnd fuel hp src d m true V D Hc Hm) as (hp1 & hs & -> & F & (tl & Tl) & B). destruct (shares_fit d m D Hc (proj2 Hm)) as [Fit Sum].
  destruct (draw_classes_ok rnd true fuel (d_dim d) Hr (map (share d m) (d_classes d)) hs (map (class_contents d) (d_classes d)) (mkSamp hp1 (mkH [] (strip data_empty)) [] 0) [] (empty_good _ _)) as [[A _]|(s' & picks & -> & [(v & Vv & Dv & Cv) _] & _ & K & Fp & Ds)]; auto.
  - now rewrite !map_length.
  - apply (contents_dim d D).
  - cbn [length Nat.add]. pose proof (ok_cap _ D). lia.
  - discriminate.
  - cbn [obind]. exists (sp_heap s'), (sp_data s'), v, picks. split; [auto|]. split; [auto|]. split; [auto|]. split; [exact Cv|]. split.
    + clear -Fp. revert picks Fp. generalize (d_classes d). induction l as [|c cs IH]; intros picks Fp; cbn in Fp; inversion Fp; subst; constructor; auto.
    + split; [exact (Ds eq_refl)|]. intros o do Vo. assert (view hp1 o = Ok do) as V1 by (rewrite Tl; apply view_ok in Vo as [R E]; apply view_ok; split; [now apply reads_app|auto]). eapply view_frame; [exact V1|]. intros r p I E. rewrite K; [exact E|]. intros part Ip J. specialize (B part r Ip J). apply view_ok in Vo as [R _]. eapply reads_lt in I; eauto. lia.
Qed.
(** C16, without replacement: with two classes or more the call never returns, whatever the random numbers. *)
Lemma pigeon (l : list nat) n : NoDup l -> (forall i, In i l -> i < n) -> length l = n -> forall i, i < n -> In i l.
Proof. intros ND B L i Hi. assert (incl (seq 0 n) l) as Q; [|apply Q, in_seq; lia]. apply NoDup_length_incl; [auto|rewrite seq_length; lia|]. intros x I. apply in_seq. specialize (B x I). lia. Qed.
Lemma c16_hangs_refuted : forall (T : Type) rnd fuel (hp : heap T) src d m, in_range rnd -> view hp src = Ok d -> data_ok d -> (forall c, In c (d_classes d) -> In c (labels (d_points d))) -> 0 < m <= length (d_points d) -> 2 <= length (d_classes d) ->
  sampling rnd fuel hp src m false = Ok None.
Proof.
  intros T rnd fuel hp src d m Hr V D Hc Hm H2. destruct (sampling_setup rnd fuel hp src d m false V D Hc Hm) as (hp1 & hs & -> & F & _). destruct (shares_fit d m D Hc (proj2 Hm)) as [Fit Sum]. pose proof (contents_dim d D) as CD. pose proof (ok_cap _ D) as Cap.
  destruct (d_classes d) as [|c1 [|c2 cs]]; try (cbn in H2; lia). cbn [map] in *. set (q1 := share d m c1) in *. set (q2 := share d m c2) in *. inversion F as [|p1 x1 ps y1 R1 F1]; subst. inversion F1 as [|p2 x2 ps2 y2 R2 F2]; subst. inversion Fit as [|a1 b1 la lb Q1 Fit1]; subst. inversion Fit1 as [|a2 b2 la2 lb2 Q2 Fit2]; subst.
  change (list_sum (q1 :: q2 :: map (share d m) cs)) with (q1 + (q2 + list_sum (map (share d m) cs))) in Sum. cbn [draw_classes].
  destruct (draw_many_ok rnd false fuel (q1 - 1) p1 (class_contents d c1) (d_dim d) Hr (fun c I => CD _ c (or_introl eq_refl) I) ltac:(lia) q1 (mkSamp hp1 (mkH [] (strip data_empty)) [] 0) [] (empty_good _ _) R1 ltac:(cbn [length Nat.add app]; lia)) as [[_ ->]|(s1 & n1 & pk1 & -> & G1 & Lp1 & S1 & _ & Ln1 & B1 & _ & Id1 & _)]; [reflexivity|]. cbn [obind].
  destruct (draw_many_ok rnd false fuel (q2 - 1) p2 (class_contents d c2) (d_dim d) Hr (fun c I => CD _ c (or_intror (or_introl eq_refl)) I) ltac:(lia) q2 s1 _ G1 (creads_same _ _ _ _ S1 R2) ltac:(cbn [length Nat.add app]; lia)) as [[_ ->]|(s2 & n2 & pk2 & _ & _ & _ & _ & _ & Ln2 & B2 & _ & Id2 & _)]; [reflexivity|]. exfalso.
  destruct (Id1 eq_refl) as [E1 N1]. destruct (Id2 eq_refl) as [E2 N2]. cbn [sp_ids] in *. rewrite app_nil_r in E1. specialize (N1 (NoDup_nil _)). specialize (N2 N1). rewrite E1 in *. rewrite E2 in N2.
  assert (In 0 n1) as I1 by (apply (pigeon n1 q1); auto; [intros i Ii; specialize (B1 i Ii)|]; lia).
  assert (In 0 n2) as I2. { apply (pigeon n2 q2); auto; [|intros i Ii; specialize (B2 i Ii); lia|lia]. clear -N2. induction n2 as [|x l IH]; [constructor|]. inversion N2; subst. constructor; [intro I; apply H1; apply in_or_app; auto|auto]. }
  clear -I1 I2 N2. induction n2 as [|x l IH]; [destruct I2|]. inversion N2; subst. destruct I2 as [->|I2]; [apply H1; apply in_or_app; auto|auto].
Qed.
Definition all_zero (t b : nat) : nat := 0.
Lemma zero_range : in_range all_zero.
Proof. intros t b. unfold all_zero. lia. Qed.
Lemma ex3_labels : forall c, In c (d_classes ex3) -> In c (labels (d_points ex3)).
Proof. intros c I. vm_compute in I. destruct I as [<-|[<-|[]]]; vm_compute; tauto. Qed.
Lemma c16_replacement_ex : in_range all_zero /\ view hp3 h3 = Ok ex3 /\ data_ok ex3 /\ (forall c, In c (d_classes ex3) -> In c (labels (d_points ex3))) /\ 0 < 2 <= length (d_points ex3) /\ 2 <= length (d_classes ex3).
Proof. split; [apply zero_range|]. split; [apply view3|]. split; [apply c02_history_ex|]. split; [apply ex3_labels|]. vm_compute. lia. Qed.
Lemma nth_prefix {A} (cs : list A) : forall m, m <= length cs -> map (nth_error cs) (seq 0 m) = map Some (firstn m cs).
Proof.
  induction cs as [|c cs IH]; intros [|m] L; try reflexivity; [cbn in L; lia|]. cbn [firstn map seq]. rewrite <- seq_shift, map_map. cbn [nth_error]. f_equal. apply IH. cbn in L. lia.
Qed.
(** C16: without replacement on one class, when the call returns the sample is a rearrangement of the first m points. *)
Lemma c16_one_class : forall (T : Type) rnd fuel (hp hp' : heap T) src h d m c, in_range rnd -> view hp src = Ok d -> data_ok d -> d_classes d = [c] -> 0 < m <= length (d_points d) ->
  sampling rnd fuel hp src m false = Ok (Some (hp', h)) -> exists v, view hp' h = Ok v /\ data_ok v /\ Permutation (map content (d_points v)) (firstn m (map content (d_points d))).
Proof.
  intros T rnd fuel hp hp' src h d m c Hr V D Ec Hm E. assert (forall p, In p (d_points d) -> p_y p = c) as Hy. { intros p I. pose proof (co_listed _ (ok_class _ D) p I) as J. rewrite Ec in J. destruct J as [J|[]]. congruence. }
  assert (forall k, In k (d_classes d) -> In k (labels (d_points d))) as Hc. { intros k I. rewrite Ec in I. destruct I as [<-|[]]. destruct (d_points d) as [|p l]; [cbn in Hm; lia|]. left. apply Hy. now left. }
  destruct (sampling_setup rnd fuel hp src d m false V D Hc Hm) as (hp1 & hs & Es & F & _). rewrite Es in E. clear Es. destruct (shares_fit d m D Hc (proj2 Hm)) as [Fit Sum]. pose proof (contents_dim d D) as CD. pose proof (ok_cap _ D) as Cap.
  assert (class_contents d c = map content (d_points d)) as CC. { unfold class_contents. f_equal. clear -Hy. induction (d_points d) as [|p l IH]; [auto|]. cbn. rewrite (Hy p), Z.eqb_refl by now left. f_equal. apply IH. intros. apply Hy. now right. }
  assert (share d m c = m) as Sh. { unfold share. rewrite CC, map_length, Nat.mul_comm, Nat.div_mul by lia. lia. }
  rewrite Ec in *. cbn [map] in *. rewrite Sh in *. rewrite CC in *. inversion F as [|p1 x1 ps y1 R1 F1]; subst. inversion F1; subst. cbn [draw_classes] in E.
  destruct (draw_many_ok rnd false fuel (m - 1) p1 (map content (d_points d)) (d_dim d) Hr (fun c I => CD _ c (or_introl eq_refl) I) ltac:(rewrite map_length; lia) m (mkSamp hp1 (mkH [] (strip data_empty)) [] 0) [] (empty_good _ _) R1 ltac:(cbn [length Nat.add app]; lia)) as [[_ A]|(s1 & n1 & pk1 & A & [(v & Vv & Dv & Cv) _] & Lp1 & _ & _ & Ln1 & B1 & Fn & Id1 & _)]; rewrite A in E; cbn [obind] in E; [discriminate|]. injection E as <- <-.
  exists v. split; [auto|]. split; [auto|]. rewrite Cv. cbn [app]. destruct (Id1 eq_refl) as [E1 N1]. cbn [sp_ids] in *. rewrite app_nil_r in E1. specialize (N1 (NoDup_nil _)). rewrite E1 in N1.
  assert (Permutation (rev n1) (seq 0 m)) as Pm. { etransitivity; [symmetry; apply Permutation_rev|]. apply NoDup_Permutation_bis; [auto|rewrite seq_length; lia|]. intros x I. apply in_seq. specialize (B1 x I). lia. }
  set (cs := map content (d_points d)) in *. assert (m <= length cs) as Lm by (unfold cs; rewrite map_length; lia). clear -Pm Fn Lm.
  pose proof (picked_some _ _ _ Fn) as Q.
  assert (Permutation (map Some pk1) (map Some (firstn m cs))) as P2. { rewrite Q. etransitivity; [apply Permutation_map, Pm|]. apply Permutation_refl'. now apply nth_prefix. }
  clear -P2. apply (Permutation_map (fun o => match o with Some c => [c] | None => [] end)) in P2. rewrite !map_map in P2. assert (forall A (l : list A), concat (map (fun x => [x]) l) = l) as Q by (induction l; cbn; congruence). rewrite <- (Q _ pk1), <- (Q _ (firstn m cs)). clear Q. revert P2. generalize (map (fun x => [x]) pk1), (map (fun x => [x]) (firstn m cs)). clear. intros a b P. induction P; cbn; auto; [now apply Permutation_app_head|rewrite !app_assoc; apply Permutation_app_tail, Permutation_app_comm|etransitivity; eauto].
Qed.
Definition two1 : data Z := build false [pt [1%Z] 5 0; pt [2%Z] 5 0].
Lemma two1_ok : data_ok two1.
Proof. apply (build_ok false 1); [intros p [<-|[<-|[]]]; reflexivity|discriminate|discriminate|cbn; lia]. Qed.
Lemma c16_one_class_ex : exists hp' h, in_range all_zero /\ view (d_points two1) (mkH [0; 1] (strip two1)) = Ok two1 /\ d_classes two1 = [5%Z] /\ sampling all_zero 3 (d_points two1) (mkH [0; 1] (strip two1)) 1 false = Ok (Some (hp', h)).
Proof. do 2 eexists. split; [apply zero_range|]. split; [vm_compute; reflexivity|]. split; vm_compute; reflexivity. Qed.
(** C16: not every point of a class can be drawn: here the second of two points never is, with or without replacement. *)
Lemma c16_eligible_refuted : exists (hp : heap Z) src d q, view hp src = Ok d /\ data_ok d /\ In q (d_points d) /\ forall rnd fuel repl hp' h v, in_range rnd -> sampling rnd fuel hp src 1 repl = Ok (Some (hp', h)) -> view hp' h = Ok v -> ~ In (content q) (map content (d_points v)).
Proof.
  exists (d_points two1), (mkH [0; 1] (strip two1)), two1, (mkPoint [2%Z] 5%Z 2%Z 0%Z). assert (view (d_points two1) (mkH [0; 1] (strip two1)) = Ok two1) as V by (vm_compute; reflexivity). assert (data_ok two1) as D by apply two1_ok. split; [exact V|]. split; [exact D|]. split; [vm_compute; auto|].
  intros rnd fuel repl hp' h v Hr E Vv I. destruct repl.
  - destruct (c16_replacement Z rnd fuel (d_points two1) (mkH [0; 1] (strip two1)) two1 1 Hr V D) as (hp2 & h2 & v2 & picks & E2 & V2 & _ & C2 & F2 & _); [intros c J; vm_compute in J; destruct J as [<-|[]]; vm_compute; tauto|vm_compute; lia|]. rewrite E in E2. injection E2 as <- <-. rewrite Vv in V2. injection V2 as <-. rewrite C2 in I.
    change (d_classes two1) with [5%Z] in F2. inversion F2 as [|c pk cs pks [_ A] F3]; subst. inversion F3; subst. cbn [concat] in I. rewrite app_nil_r in I. apply A in I. vm_compute in I. destruct I as [I|[]]. discriminate.
  - destruct (c16_one_class Z rnd fuel (d_points two1) hp' (mkH [0; 1] (strip two1)) h two1 1 5%Z Hr V D eq_refl ltac:(vm_compute; lia) E) as (v2 & V2 & _ & P). rewrite Vv in V2. injection V2 as <-. apply (Permutation_in _ P) in I. vm_compute in I. destruct I as [I|[]]. discriminate.
Qed.
(** C87: points drawn twice share their id: the ids of a sample are not distinct. *)
Lemma c87_duplicate_refuted : exists rnd fuel (hp hp' : heap Z) src h d v m, in_range rnd /\ view hp src = Ok d /\ data_ok d /\ sampling rnd fuel hp src m true = Ok (Some (hp', h)) /\ view hp' h = Ok v /\ ~ NoDup (map p_id (d_points v)).
Proof.
  exists all_zero, 0, (d_points two1). do 1 eexists. exists (mkH [0; 1] (strip two1)). do 1 eexists. exists two1. do 1 eexists. exists 2. split; [apply zero_range|]. split; [vm_compute; reflexivity|]. split; [apply two1_ok|]. split; [vm_compute; reflexivity|]. split; [vm_compute; reflexivity|]. vm_compute. intro N. inversion N; subst. apply H1. now left.
Qed.
(** C87: in a sample two entries have the same id exactly when they are the same point object, that is when the same point was drawn twice. *)
Definition ids_apart {T} (hp : heap T) (h : hdata T) : Prop :=
  d_size (h_meta h) = length (h_refs h) /\ (forall r p, In r (h_refs h) -> nth_error hp r = Some p -> (p_id p <= Z.of_nat (length (h_refs h)))%Z) /\
  (forall r r' p p', In r (h_refs h) -> In r' (h_refs h) -> nth_error hp r = Some p -> nth_error hp r' = Some p' -> p_id p = p_id p' -> r = r').
Lemma insert_size {T} (d d' : data T) p k : insertPoint d p k = Ok (d', true) -> d_size d' = S (d_size d).
Proof.
  unfold insertPoint. destruct (_ && _); [discriminate|]. cbv zeta. cbn [d_class d_classes].
  assert (forall y yl (e e' : data T), count_class y yl e = Ok e' -> d_size e' = d_size e) as C.
  { intros y yl e e' E. unfold count_class in E. cbv zeta in E. destruct (Nat.eqb _ _); [now injection E as <-|]. destruct (vupd _ _ _); [|discriminate|discriminate]. cbn [obind] in E. now injection E as <-. }
  match goal with |- context [obind ?a ?f] => destruct a as [e2| |] eqn:E2 end; cbn [obind]; [|discriminate|discriminate].
  match goal with |- context [obind ?a ?f] => destruct a as [pts'| |] end; cbn [obind]; [|discriminate|discriminate]. intro E. injection E as <-. cbn [d_size].
  destruct (d_class d); [|injection E2 as <-; reflexivity]. destruct (Nat.eqb _ _).
  - destruct (vget _ _); [|discriminate|discriminate]. cbn [obind] in E2. apply C in E2. exact E2.
  - apply C in E2. exact E2.
Qed.
Lemma insert_apart {T} (hp hp' : heap T) h h' r b : ids_apart hp h -> h_insert hp h r false = Ok (hp', h', b) -> ids_apart hp' h'.
Proof.
  intros (Sz & Bd & In1) E. unfold h_insert in E. destruct (vget hp r) as [p| |] eqn:Er; [|discriminate|discriminate]. cbn [obind] in E.
  destruct (view hp h) as [d| |] eqn:V; [|discriminate|discriminate]. cbn [obind] in E. destruct (insertPoint d p false) as [[d' b']| |] eqn:Ei; [|discriminate|discriminate]. cbn [obind fst snd] in E.
  destruct b'; [|injection E as <- <- <-; split; auto]. apply insert_size in Ei. apply view_ok in V as [_ Em]. assert (d_size d = length (h_refs h)) as Sd by (rewrite Em; exact Sz). rewrite Sd in *.
  replace (S (length (h_refs h)) - 1) with (length (h_refs h)) in E by lia. unfold h_write in E. cbn [h_refs] in E.
  assert (vget (h_refs h ++ [r]) (length (h_refs h)) = Ok r) as X by (unfold vget; rewrite nth_error_app2, Nat.sub_diag by lia; reflexivity). rewrite X in E. cbn [obind] in E.
  assert (exists q, nth_error hp r = Some q) as (q & Eq) by (unfold vget in Er; destruct (nth_error hp r); [eauto|discriminate]).
  destruct (vupd_lt r (fun q => mkPoint (p_x q) (p_y q) (Z.of_nat (S (length (h_refs h)))) (p_alpha q)) hp) as (hp1 & U & EU); [apply nth_error_Some; congruence|]. rewrite EU in E. cbn [obind] in E. injection E as <- <- <-.
  assert (forall j, j <> r -> nth_error hp1 j = nth_error hp j) as K by (intros j N; eapply upd_nth_other; eauto).
  assert (nth_error hp1 r = Some (mkPoint (p_x q) (p_y q) (Z.of_nat (S (length (h_refs h)))) (p_alpha q))) as Kr by (rewrite (upd_nth_same _ _ _ _ U), Eq; reflexivity).
  unfold ids_apart. cbn [h_refs h_meta]. rewrite app_length. cbn [length]. rewrite Nat.add_1_r.
  assert (forall j x, In j (h_refs h ++ [r]) -> j <> r -> nth_error hp1 j = Some x -> In j (h_refs h) /\ nth_error hp j = Some x /\ (p_id x <= Z.of_nat (length (h_refs h)))%Z) as Old.
  { intros j x I N Ej. rewrite K in Ej by auto. apply in_app_or in I as [I|[->|[]]]; [|congruence]. split; [auto|]. split; [auto|]. eapply Bd; eauto. }
  split; [destruct d'; exact Ei|]. split.
  - intros j x I Ej. destruct (Nat.eq_dec j r) as [->|N]; [rewrite Kr in Ej; injection Ej as <-; cbn; lia|]. destruct (Old j x I N Ej) as (_ & _ & Le). lia.
  - intros j j' x x' I I' Ej Ej' Ex. destruct (Nat.eq_dec j r) as [->|N]; destruct (Nat.eq_dec j' r) as [->|N']; auto.
    + rewrite Kr in Ej. injection Ej as <-. destruct (Old j' x' I' N' Ej') as (_ & _ & Le). cbn [p_id] in Ex. lia.
    + rewrite Kr in Ej'. injection Ej' as <-. destruct (Old j x I N Ej) as (_ & _ & Le). cbn [p_id] in Ex. lia.
    + destruct (Old j x I N Ej) as (A & B & _). destruct (Old j' x' I' N' Ej') as (A' & B' & _). eapply In1; eauto.
Qed.
Lemma draw_many_apart {T} rnd repl fuel b n part : forall (s s' : samp (T := T)), ids_apart (sp_heap s) (sp_data s) -> draw_many rnd repl fuel b n part s = Ok (Some s') -> ids_apart (sp_heap s') (sp_data s').
Proof.
  induction n as [|n IH]; intros s s' A E; cbn [draw_many] in E; [now injection E as <-|]. unfold draw_one in E.
  destruct (if repl then _ else _) as [[i t]|]; cbn [obind] in E; [|discriminate]. destruct (vget (h_refs part) i) as [r| |]; [|discriminate|discriminate]. cbn [obind] in E.
  destruct (h_insert (sp_heap s) (sp_data s) r false) as [[[hp' h'] b']| |] eqn:Ei; [|discriminate|discriminate]. cbn [obind fst snd] in E. apply IH in E; auto. cbn [sp_heap sp_data]. eapply insert_apart; eauto.
Qed.
Lemma draw_classes_apart {T} rnd repl fuel qs : forall parts (s s' : samp (T := T)), ids_apart (sp_heap s) (sp_data s) -> draw_classes rnd repl fuel qs parts s = Ok (Some s') -> ids_apart (sp_heap s') (sp_data s').
Proof.
  induction qs as [|q qs IH]; intros parts s s' A E; cbn [draw_classes] in E; [now injection E as <-|]. destruct parts as [|p parts]; [discriminate|].
  destruct (draw_many rnd repl fuel (q - 1) q p s) as [[s1|]| |] eqn:E1; cbn [obind] in E; try discriminate. apply IH in E; auto. eapply draw_many_apart; eauto.
Qed.
Lemma c87_ids : forall (T : Type) rnd fuel (hp hp' : heap T) src h m repl, sampling rnd fuel hp src m repl = Ok (Some (hp', h)) ->
  (forall i j r r' p p', nth_error (h_refs h) i = Some r -> nth_error (h_refs h) j = Some r' -> nth_error hp' r = Some p -> nth_error hp' r' = Some p' -> (p_id p = p_id p' <-> r = r')) /\
  forall v, view hp' h = Ok v -> (NoDup (map p_id (d_points v)) <-> NoDup (h_refs h)).
Proof.
  intros T rnd fuel hp hp' src h m repl E. unfold sampling in E. destruct (view hp src) as [d| |]; [|discriminate|discriminate]. cbn [obind] in E. destruct (Nat.ltb _ m); [discriminate|]. destruct (Nat.ltb _ _); [discriminate|].
  destruct (splitByClasses d false) as [parts| |]; [|discriminate|discriminate]. cbn [obind] in E. destruct (map_outcome _ _) as [qs| |]; [|discriminate|discriminate]. cbn [obind] in E. destruct (alloc_all hp parts) as [hp1 hs].
  destruct (draw_classes rnd repl fuel qs hs _) as [[s|]| |] eqn:Ed; cbn [obind] in E; try discriminate. injection E as <- <-.
  apply draw_classes_apart in Ed; [|split; [reflexivity|]; split; cbn; tauto]. destruct Ed as (_ & _ & In1).
  assert (forall i j r r' p p', nth_error (h_refs (sp_data s)) i = Some r -> nth_error (h_refs (sp_data s)) j = Some r' -> nth_error (sp_heap s) r = Some p -> nth_error (sp_heap s) r' = Some p' -> (p_id p = p_id p' <-> r = r')) as Main.
  { intros i j r r' p p' Ei Ej Ep Ep'. split; [intro X; apply (In1 r r' p p'); auto; eapply nth_error_In; eauto|]. intros ->. rewrite Ep in Ep'. now injection Ep' as <-. }
  split; [exact Main|]. intros v V. apply view_ok in V as [Rd _]. clear -Rd In1. revert In1. induction Rd as [|r p rs ps E F IH]; intro In1; cbn [map]; [split; constructor|].
  assert (forall r0 r' p0 p', In r0 rs -> In r' rs -> nth_error (sp_heap s) r0 = Some p0 -> nth_error (sp_heap s) r' = Some p' -> p_id p0 = p_id p' -> r0 = r') as In2 by (intros r0 r' p0 p' A B; apply In1; now right).
  specialize (IH In2). split; intro N; inversion N as [|? ? N1 N2]; subst; constructor; try (now apply IH).
  - intro I. apply N1. apply In_nth_error in I as (i & Ei). assert (exists q, nth_error ps i = Some q /\ nth_error (sp_heap s) r = Some q) as (q & Eq & Er).
    { clear -F Ei. revert i Ei. induction F as [|a b la lb Q F IHF]; intros [|i] Ei; cbn in *; try discriminate; [injection Ei as ->; eauto|auto]. }
    rewrite E in Er. injection Er as ->. apply in_map. eapply nth_error_In; eauto.
  - intro I. apply N1. apply in_map_iff in I as (q & Eq & I). apply In_nth_error in I as (i & Ei). destruct (reads_nth _ _ _ _ _ F Ei) as (r' & Er & Eh).
    assert (r = r') as -> by (apply (In1 r r' p q); auto; [now left|right; eapply nth_error_In; eauto]). eapply nth_error_In; eauto.
Qed.
Lemma c87_ids_ex : exists hp' h, sampling all_zero 0 (d_points two1) (mkH [0; 1] (strip two1)) 2 true = Ok (Some (hp', h)) /\ h_refs h = [2; 2].
Proof. do 2 eexists. split; vm_compute; reflexivity. Qed.
(** C16: a sample larger than the dataset is refused (the assertion fails), with and without replacement. *)
Lemma c16_too_many : forall (T : Type) rnd fuel (hp : heap T) src d m repl, view hp src = Ok d -> data_ok d -> length (d_points d) < m -> sampling rnd fuel hp src m repl = Abort.
Proof. intros T rnd fuel hp src d m repl V D L. unfold sampling. rewrite V. cbn [obind]. unfold size. now destruct (Nat.ltb_spec (length (d_points d)) m) as [_|Q]; [|lia]. Qed.
Lemma c16_too_many_ex : view hp3 h3 = Ok ex3 /\ data_ok ex3 /\ length (d_points ex3) < 4.
Proof. split; [apply view3|]. split; [apply c02_history_ex|vm_compute; lia]. Qed.
