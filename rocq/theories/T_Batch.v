(** Proofs about the evaluation of whole datasets. *)
From Coq Require Import ZArith Bool Reals Lia Lra List.
From Verif Require Import Base Loop M_Data M_Mod T_Mod M_IntStat T_IntStat M_IntArith T_IntArith M_Batch S_Batch.
Import ListNotations.
Local Open Scope R_scope.

(** C152: a batch is the calls of evaluate for the points in their order, for every learner, also one that changes when asked; it fails only when one of the calls does. *)
Lemma c152_calls : forall (L : Type) (ev : L -> point R -> outcome (L * R)) (s t : L) (d : data R) (ys : list R), batchEvaluate ev s d = Ok (t, ys) <-> calls ev s (d_points d) t ys.
Proof.
  intros L ev s t d ys. unfold batchEvaluate. generalize (d_points d) as pts. intro pts. revert s ys. induction pts as [|p pts IH]; intros s ys; cbn [batch].
  - split; intro H; [injection H as <- <-; constructor|inversion H; reflexivity].
  - split; intro H.
    + destruct (ev s p) as [[u y]| |] eqn:E; cbn [obind] in H; try discriminate. destruct (batch ev u pts) as [[u' r]| |] eqn:Eb; cbn [obind fst snd] in H; rewrite ?Eb in H; cbn [obind fst snd] in H; try discriminate. injection H as <- <-. econstructor; [exact E|]. apply IH. exact Eb.
    + inversion H as [|? ? u y ? ? r E C]; subst. rewrite E. cbn [obind fst snd]. apply IH in C. rewrite C. reflexivity.
Qed.
Lemma c152_calls_ex : calls (fun (n : nat) (_ : point R) => Ok (S n, INR n)) 0%nat [mkPoint [1] 0%Z 1%Z 0; mkPoint [2] 0%Z 2%Z 0] 2%nat [INR 0; INR 1].
Proof. repeat (econstructor; try reflexivity). Qed.
(** C152: for a learner that does not change, the i-th answer is that for the i-th point, whatever the others are. *)
Lemma c152_pure : forall (L : Type) (f : point R -> R) (s : L) (d : data R), batchEvaluate (fun s p => Ok (s, f p)) s d = Ok (s, map f (d_points d)).
Proof. intros L f s d. apply c152_calls. generalize (d_points d) as pts. induction pts as [|p pts IH]; cbn [map]; econstructor; [reflexivity|exact IH]. Qed.
(** C152: batchEvaluateProbability loses every probability below 1: all answers are 0, and they are 0 for all classifiers of the library. *)
Lemma c152_prob_refuted : forall (L : Type) (f : point R -> R) (s : L) (d : data R), (forall p, In p (d_points d) -> 0 <= f p < 1) ->
  batchEvaluateProbability (fun s p => Ok (s, f p)) s d = Ok (s, map (fun _ => 0%Z) (d_points d)) /\ batchEvaluateProbability evaluateProbability s d = Ok (s, map (fun _ => 0%Z) (d_points d)).
Proof.
  assert (forall (L : Type) (f : point R -> R) (s : L) pts, (forall p, In p pts -> 0 <= f p < 1) -> batch_int (fun s p => Ok (s, f p)) s pts = Ok (s, map (fun _ => 0%Z) pts)) as K.
  { intros L f s pts. induction pts as [|p pts IH]; intro H; [reflexivity|]. cbn [batch_int map obind fst snd]. unfold cut. rewrite (trunc_is (f p) 0) by (specialize (H p (or_introl eq_refl)); lra). rewrite icheck_ok by lia. cbn [obind]. rewrite IH by (intros; apply H; now right). reflexivity. }
  intros L f s d H. split; [apply K; exact H|]. apply (K L (fun _ => 0)). intros; lra.
Qed.
Lemma c152_prob_refuted_ex : forall p, In p [mkPoint [1] 0%Z 1%Z 0; mkPoint [2] 0%Z 2%Z 0] -> 0 <= nth 0 (p_x p) 0 / 3 < 1.
Proof. intros p [<-|[<-|[]]]; cbn; lra. Qed.
(** C152: with probabilities up to 1 the answer is 1 exactly for the certain points. *)
Lemma c152_certain : forall (L : Type) (f : point R -> R) (s : L) (d : data R), (forall p, In p (d_points d) -> 0 <= f p <= 1) ->
  exists ys, batchEvaluateProbability (fun s p => Ok (s, f p)) s d = Ok (s, ys) /\ Forall2 (fun p y => (y = 1%Z <-> f p = 1) /\ (y = 0%Z <-> f p < 1)) (d_points d) ys.
Proof.
  intros L f s d. unfold batchEvaluateProbability. generalize (d_points d) as pts. induction pts as [|p pts IH]; intro H; [exists []; split; [reflexivity|constructor]|].
  destruct (IH (fun q I => H q (or_intror I))) as (ys & E & F). specialize (H p (or_introl eq_refl)). cbn [batch_int obind fst snd]. unfold cut. destruct (Req_dec (f p) 1) as [E1|N1].
  - rewrite (trunc_is (f p) 1) by lra. rewrite icheck_ok by lia. cbn [obind]. rewrite E. cbn [obind fst snd]. eexists. split; [reflexivity|]. constructor; [|exact F]. split; (split; intro X); first [reflexivity|exact E1|discriminate|lra].
  - rewrite (trunc_is (f p) 0) by lra. rewrite icheck_ok by lia. cbn [obind]. rewrite E. cbn [obind fst snd]. eexists. split; [reflexivity|]. constructor; [|exact F]. split; (split; intro X); first [discriminate|contradiction|reflexivity|lra].
Qed.
Lemma c152_certain_ex : forall p, In p [mkPoint [1] 0%Z 1%Z 0; mkPoint [3] 0%Z 2%Z 0] -> 0 <= nth 0 (p_x p) 0 / 3 <= 1.
Proof. intros p [<-|[<-|[]]]; cbn; lra. Qed.
(** C152: also the batch of probabilities makes the calls one after the other; each answer loses its fraction, and none is lost when all are in the range of int. *)
Lemma c152_prob_calls : forall (L : Type) (ev : L -> point R -> outcome (L * R)) (s t : L) (d : data R),
  (forall zs, batchEvaluateProbability ev s d = Ok (t, zs) -> exists ys, calls ev s (d_points d) t ys /\ Forall2 (fun y z => Rabs (IZR z) <= Rabs y /\ Rabs (IZR z - y) < 1) ys zs) /\
  (forall ys, calls ev s (d_points d) t ys -> Forall (fun y => Rabs y < 2 ^ 31) ys -> exists zs, batchEvaluateProbability ev s d = Ok (t, zs)).
Proof.
  intros L ev s t d. unfold batchEvaluateProbability. generalize (d_points d) as pts. intro pts. revert s. induction pts as [|p pts IH]; intro s; cbn [batch_int].
  - split; intros l H; [injection H as <- <-; exists []; split; constructor|]. inversion H; subst. intros _. now exists [].
  - split.
    + intros zs H. destruct (ev s p) as [[u y]| |] eqn:E; cbn [obind fst snd] in H; try discriminate. unfold cut, icheck in H. destruct (_ && _)%bool; cbn [obind] in H; [|discriminate]. destruct (batch_int ev u pts) as [[u' r]| |] eqn:Eb; cbn [obind fst snd] in H; try discriminate. injection H as <- <-.
      destruct (proj1 (IH u) r Eb) as (ys & C & F). exists (y :: ys). split; [econstructor; [exact E|exact C]|]. constructor; [apply trunc_abs|exact F].
    + intros ys H B. inversion H as [|? ? u y ? ? r E C]; subst. inversion B as [|? ? B1 B2]; subst. destruct (proj2 (IH u) r C B2) as (zs & Eb). rewrite E. cbn [obind fst snd]. rewrite (cut_ok y B1). cbn [obind]. rewrite Eb. eexists. reflexivity.
Qed.
Lemma c152_prob_calls_ex : calls (fun (n : nat) (_ : point R) => Ok (S n, INR n / 2)) 1%nat [mkPoint [1] 0%Z 1%Z 0; mkPoint [2] 0%Z 2%Z 0] 3%nat [INR 1 / 2; INR 2 / 2] /\ Forall (fun y => Rabs y < 2 ^ 31) [INR 1 / 2; INR 2 / 2].
Proof. split; [repeat (econstructor; try reflexivity)|]. repeat constructor; cbn [INR]; rewrite Rabs_right; cbn [pow]; lra. Qed.
