(** Reading .data files of the expected shape. *)
From Coq Require Import ZArith QArith Ascii Bool String List Lia.
From Verif Require Import Base ListLib M_Data S_Data M_Str S_Str L_Str2 L_Str3 T_Str M_Load S_Load L_Load L_Load2 L_Load3 L_Load4 L_Load5 T_Load.
Import ListNotations.
Local Open Scope nat_scope.

Lemma feature_chars it : data_feature it -> it <> [] /\ Forall (fun c => ~ white c) it /\ In ":"%char it.
Proof.
  intros (n & v & f & -> & N & _ & _ & W). apply numeral_chars in N as [Ne Fn]. split; [now destruct n|]. split.
  - apply Forall_app. split; [now apply nospace_numchar|]. constructor; [vm_compute; intuition discriminate|auto].
  - apply in_or_app. right. now left.
Qed.
Lemma feature_safe it k x fn : data_feature it -> (0 <= k < Z.of_nat (List.length x))%Z -> List.length fn = List.length x ->
  exists k' x' fn', data_item (pieces ":" [] it) false k x fn = Ok (k', x', fn') /\ (k <= k' <= k + 1)%Z /\ List.length x' = List.length x /\ List.length fn' = List.length x.
Proof.
  intros (n & v & f & -> & N & B & C & W) K L. destruct (numeral_chars n f N) as [_ Fn].
  rewrite pieces_step by (apply numchars_not in Fn; tauto). cbn [app data_item]. rewrite no_cr by auto. rewrite (stoin_ok n f N) by lia. cbn [obind].
  destruct (zset_len _ fn k f) as (fn1 & -> & L1); [lia|]. cbn [obind]. destruct v as [|c v].
  - cbn [pieces data_item]. exists k, x, fn1. repeat split; auto; lia.
  - rewrite pieces_last by (auto; discriminate). cbn [app data_item]. destruct (is_number _); cbn [obind].
    + match goal with |- context [zset x k ?a] => destruct (zset_len _ x k a) as (x1 & -> & L2); [lia|] end. cbn [obind]. do 3 eexists. split; [reflexivity|]. repeat split; auto; lia.
    + do 3 eexists. split; [reflexivity|]. repeat split; auto; lia.
Qed.
Lemma features_safe items : forall k x fn y s, Forall data_feature items -> (0 <= k)%Z -> (k + Z.of_nat (List.length items) <= Z.of_nat (List.length x))%Z -> List.length fn = List.length x ->
  exists x' fn', data_row items k x y fn s = Ok (x', y, fn', s) /\ List.length x' = List.length x /\ List.length fn' = List.length x.
Proof.
  induction items as [|it items IH]; intros k x fn y s F K L Lf; cbn [data_row]; [eauto|]. inversion F as [|? ? H F']; subst. cbn [List.length] in L.
  destruct (feature_chars it H) as (_ & W & C). rewrite (trim_id it W). cbv zeta.
  replace (existsb (Ascii.eqb ":") it) with true by (symmetry; apply existsb_exists; exists ":"%char; split; [auto|reflexivity]).
  destruct (feature_safe it k x fn H ltac:(lia) Lf) as (k1 & x1 & fn1 & -> & K1 & L1 & L2). cbn [obind].
  destruct (IH k1 x1 fn1 y s F') as (x2 & fn2 & -> & A & B); [lia|lia|lia|]. exists x2, fn2. split; [reflexivity|]. split; lia.
Qed.
Lemma class_item cls : ~ In ":"%char cls -> existsb (Ascii.eqb ":") cls = false.
Proof. intro N. apply not_true_iff_false. intro X. apply existsb_exists in X as (c & Hc & E). apply Ascii.eqb_eq in E. subst c. auto. Qed.
Lemma shape_items l : data_shape l -> exists cls items, map fst (pieces " " [] l) = cls :: items /\ nonblank cls /\ trim cls = cls /\ ~ In ":"%char cls /\ Forall data_feature items /\
  List.length (filter (fun p => match fst p with [] => false | _ => true end) (pieces " " [] l)) = S (List.length items).
Proof.
  intros (cls & items & -> & Ne & Nc & W & F). exists cls, items.
  assert (Forall (fun t => t <> [] /\ ~ In " "%char t) (cls :: items)) as G.
  { constructor.
    - split; [auto|]. intro X. rewrite Forall_forall in W. apply (W _ X). vm_compute. tauto.
    - eapply Forall_impl; [|exact F]. cbv beta. intros it H. destruct (feature_chars it H) as (A & B & _). split; [auto|]. intro X. rewrite Forall_forall in B. apply (B _ X). vm_compute. tauto. }
  pose proof (pieces_join " " (cls :: items) G) as P. split; [exact P|]. split; [destruct cls as [|c cls]; [congruence|]; exists c; split; [now left|now inversion W]|]. split; [now apply trim_id|]. split; [auto|]. split; [auto|].
  rewrite filter_fst_id.
  - rewrite <- (map_length fst). transitivity (List.length (cls :: items)); [f_equal; exact P|reflexivity].
  - assert (Forall (fun t : list ascii => t <> []) (cls :: items)) as G2 by (eapply Forall_impl; [|exact G]; cbv beta; tauto). rewrite <- P in G2. exact G2.
Qed.
Lemma data_rows_safe dm ls0 : forall id fn s labs, cinv s labs -> (Z.of_nat (List.length labs + List.length ls0) < 2 ^ 63)%Z -> List.length fn = dm ->
  Forall (fun l => data_shape l /\ (Z.of_nat (List.length (filter (fun p => match fst p with [] => false | _ => true end) (pieces " " [] l))) - 1 <= Z.of_nat dm)%Z) ls0 ->
  data_rows dm ls0 id fn s = Abort \/ exists qs fn' s', data_rows dm ls0 id fn s = Ok (qs, fn', s') /\ cinv s' (labs ++ map p_y qs) /\ List.length fn' = dm /\
    Forall (fun p => List.length (p_x p) = dm) qs /\ List.length qs = List.length ls0 /\ map p_id qs = iota id (List.length ls0).
Proof.
  induction ls0 as [|l ls0 IH]; intros id fn s labs I B Lf F; cbn [data_rows].
  - right. exists [], fn, s. cbn [map List.length]. rewrite app_nil_r. repeat match goal with |- _ /\ _ => split end; auto.
  - inversion F as [|? ? [Sh Ln] F']; subst. cbn [List.length] in B. destruct (shape_items l Sh) as (cls & items & Ei & Nb & Tr & Nc & Fi & Le). unfold str in Le, Ln; rewrite Le in Ln. rewrite Ei. cbn [data_row]. rewrite Tr. cbv zeta.
    rewrite class_item by auto. destruct (process_class_step s labs cls I ltac:(lia) Nb) as [-> | (c & s1 & -> & I1)]; cbn [obind]; [now left|].
    destruct (features_safe items 0 (repeat 0%Q (List.length fn)) fn c s1 Fi) as (x & fn1 & -> & Lx & Lf1); [lia|rewrite repeat_length; lia|now rewrite repeat_length|]. cbn [obind]. rewrite repeat_length in *.
    destruct (IH (id + 1)%Z fn1 s1 (labs ++ [c]) I1) as [-> | (qs & fn2 & s2 & -> & I2 & L2 & Sq & Lq & Iq)]; [rewrite app_length; cbn [List.length]; lia|auto|exact F'|now left|]. cbn [obind].
    right. exists (mkPoint x c id 0%Q :: qs), fn2, s2. split; [reflexivity|]. rewrite <- app_assoc in I2. split; [exact I2|]. split; [auto|]. split; [constructor; auto|]. split; [cbn; lia|].
    cbn [map p_id List.length]. rewrite Iq. unfold iota. cbn [seq map]. f_equal; [lia|]. rewrite <- seq_shift, map_map. apply map_ext. intro i. lia.
Qed.
(** C77: a .data file of that shape is read within bounds, or stops in std::stoi on a class that does not fit; what is read has rectangular points, as many
    feature names, ids 1, 2, ..., and every label is listed and counted. *)
Lemma c77_data_shape : forall file, (Z.of_nat (List.length (lines file)) < 2 ^ 63)%Z -> Forall data_shape (lines file) ->
  load_data fresh file <> UB /\
  forall d', load_data fresh file = Ok (d', true) -> class_ok d' /\ d_size d' = List.length (d_points d') /\ List.length (d_points d') = List.length (lines file) /\
    Forall (fun p => List.length (p_x p) = d_dim d') (d_points d') /\ List.length (d_fnames d') = d_dim d' /\ map p_id (d_points d') = iota 1 (d_size d').
Proof.
  intros file B F. unfold load_data. cbv zeta. destruct (check_dims _ 0) as [m|] eqn:C; [|split; discriminate]. destruct (Z.ltb_spec m 0) as [|Hm]; [split; discriminate|].
  apply check_dims_all in C as [_ C]. rewrite Forall_map in C.
  destruct (data_rows_safe (Z.to_nat m) (lines file) 1 (iota 1 (Z.to_nat m)) (cstate_of fresh) []) as [-> | (qs & fn & s & -> & I & Lf & Sq & Lq & Iq)].
  - exact cinv_empty.
  - exact B.
  - apply iota_length.
  - rewrite Forall_forall in *. intros l Hl. split; [auto|]. specialize (C l Hl). cbv beta in C. rewrite Z2Nat.id by lia. lia.
  - split; discriminate.
  - cbn [obind]. split; [discriminate|]. intros d' E. injection E as <-. cbn [loaded d_size d_points d_dim d_fnames]. rewrite Lq. split; [|auto].
    destruct I as [ND L I Ct]. cbn [app] in *. constructor; cbn [loaded d_class d_classes d_points d_dist]; auto. intros p Hp. apply I. now apply in_map.
Qed.
Lemma c77_data_shape_ex : Forall data_shape (lines (txt "a 1:x 3:2.5" ++ newline :: txt "b 1:1 3:" ++ [newline])) /\
  exists d', load_data fresh (txt "a 1:x 3:2.5" ++ newline :: txt "b 1:1 3:" ++ [newline]) = Ok (d', true) /\ map p_x (d_points d') = [[25#10; 0]; [1; 0]]%Q /\ d_fnames d' = [1; 3]%Z.
Proof.
  split; [|eexists; split; [vm_compute; reflexivity|split; reflexivity]].
  assert (forall f name value, numeral name f -> (Z.abs f <= int_max)%Z -> ~ In ":"%char value -> Forall (fun c => ~ white c) value -> data_feature (name ++ ":"%char :: value)) as M by (intros f name value; intros; exists name, value, f; auto).
  assert (numeral (txt "1") 1%Z /\ numeral (txt "3") 3%Z) as [N1 N3] by (split; [apply (num_pos (txt "1"))|apply (num_pos (txt "3"))]; try (eexists; eexists; split; [reflexivity|discriminate]); constructor; try constructor; vm_compute; intuition discriminate).
  constructor; [|constructor; [|constructor]].
  - exists (txt "a"), [txt "1:x"; txt "3:2.5"]. repeat match goal with |- _ /\ _ => split end; [reflexivity|discriminate|vm_compute; intuition discriminate|repeat constructor; vm_compute; intuition discriminate|].
    constructor; [apply (M 1%Z (txt "1") (txt "x") N1)|constructor; [apply (M 3%Z (txt "3") (txt "2.5") N3)|constructor]]; try (vm_compute; intuition discriminate); repeat constructor; vm_compute; intuition discriminate.
  - exists (txt "b"), [txt "1:1"; txt "3:"]. repeat match goal with |- _ /\ _ => split end; [reflexivity|discriminate|vm_compute; intuition discriminate|repeat constructor; vm_compute; intuition discriminate|].
    constructor; [apply (M 1%Z (txt "1") (txt "1") N1)|constructor; [apply (M 3%Z (txt "3") [] N3)|constructor]]; try (vm_compute; intuition discriminate); repeat constructor; vm_compute; intuition discriminate.
Qed.
