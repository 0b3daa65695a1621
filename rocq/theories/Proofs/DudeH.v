(** Sequences of observations. *)
From Coq Require Import List ZArith Bool Lia Arith.
From Verif.Model Require Import Py Float Dude.
From Verif.Spec Require Import DudeSpec.
From Verif.Proofs Require Import Base InfoP PerfP DudeP DudeB.
Import ListNotations.

Section Seq.
Variable FO : fops.
Variable d : dude FO.
Notation A := (d_size FO d).

Lemma sample_total s x : d_hard FO d = true \/ 2 <= A -> in_alphabet A x -> exists r, snd (denoise_sample FO d s x) = Ok r.
Proof.
  intros H Hx. unfold denoise_sample. rewrite sample_range by auto. destruct (Z.ltb _ _); [eexists; reflexivity|]. cbn [snd].
  match goal with |- context [decide FO d ?c ?a] => destruct (decide_ok FO d c a H) as (e & q & ->) end. eexists; reflexivity.
Qed.

Lemma sequence_ok obs : d_hard FO d = true \/ 2 <= A -> Forall (in_alphabet A) obs -> forall s,
  exists rs, denoise_online FO d s obs = (fed FO d s obs, Ok rs) /\ length rs = length obs /\
    forall i x, nth_error obs i = Some x -> exists r, nth_error rs i = Some r /\ snd (denoise_sample FO d (fed FO d s (firstn i obs)) x) = Ok r.
Proof.
  intros H. induction obs as [|x obs IH]; intros Ho s.
  - exists []. split; [reflexivity|]. split; [reflexivity|]. intros [|i] y E; discriminate.
  - inversion Ho; subst. cbn [denoise_online]. destruct (sample_total s x H) as [r E]; auto. destruct (denoise_sample FO d s x) as [s1 r1] eqn:Es. cbn in E. subst r1.
    destruct (IH ltac:(auto) s1) as (rs & E & L & Hi). rewrite E. exists (r :: rs). unfold fed. cbn [fold_left]. rewrite Es. split; [reflexivity|]. split; [cbn; lia|].
    intros [|i] y Ey; cbn in Ey.
    + inversion Ey; subst. exists r. split; [reflexivity|]. cbn [firstn fold_left]. rewrite Es. reflexivity.
    + destruct (Hi i y Ey) as [r' [E1 E2]]. exists r'. split; [exact E1|]. cbn [firstn fold_left]. rewrite Es. exact E2.
Qed.

Lemma sequence_invalid a x b : d_hard FO d = true \/ 2 <= A -> Forall (in_alphabet A) a -> ~ in_alphabet A x -> forall s,
  denoise_online FO d s (a ++ x :: b) = (fed FO d s a, Err ValueError).
Proof.
  intros H. induction a as [|y a IH]; intros Ha Hx s.
  - cbn [app denoise_online]. rewrite sample_invalid by auto. reflexivity.
  - inversion Ha; subst. cbn [app denoise_online]. destruct (sample_total s y H) as [r E]; auto. destruct (denoise_sample FO d s y) as [s1 r1] eqn:Es. cbn in E. subst r1.
    rewrite IH by auto. unfold fed. cbn [fold_left]. rewrite Es. reflexivity.
Qed.

(** Context length at most 0 against context length 1. *)
Definition with_k (k : Z) : dude FO := Dude FO (d_channel FO d) (d_inv FO d) (d_loss FO d) k (d_hard FO d) A.

Definition k0_sim (x : Z) (s0 s1 : online) : Prop :=
  o_last s0 = o_last s1 /\ length (o_last s1) = 1 /\
  forall c, dict_get zs_eqb (o_contexts s0) c = match c with [] => Some (bump (repeat 0%Z A) (Z.to_nat x)) | _ => dict_get zs_eqb (o_contexts s1) c end.

Lemma k0_step x s0 s1 y : (d_k FO d <= 0)%Z -> k0_sim x s0 s1 -> in_alphabet A y ->
  snd (denoise_sample FO d s0 y) = snd (denoise_sample FO (with_k 1) s1 y) /\ k0_sim x (fst (denoise_sample FO d s0 y)) (fst (denoise_sample FO (with_k 1) s1 y)).
Proof.
  intros Hk (L & L1 & C) Hy. unfold denoise_sample. cbn [with_k d_size d_k]. rewrite (sample_range FO d y Hy). rewrite L, L1.
  rewrite (proj2 (Z.ltb_ge (Z.of_nat 1) (d_k FO d))) by lia. change (Z.of_nat 1 <? 1)%Z with false. cbn iota. cbn [fst snd].
  destruct (o_last s1) as [|z [|z2 l]] eqn:El; try discriminate L1.
  assert (E : dict_get zs_eqb (o_contexts s0) [z] = dict_get zs_eqb (o_contexts s1) [z]) by apply (C [z]). rewrite E.
  split; [reflexivity|]. split; [reflexivity|]. split; [reflexivity|]. intro c. cbn [o_contexts]. rewrite !(dict_get_set _ zs_eqb_spec).
  destruct c as [|z' c]; [cbn; apply (C [])|]. destruct (zs_eqb (z' :: c) [z]); [reflexivity|]. apply (C (z' :: c)).
Qed.

Lemma k0_run x obs : (d_k FO d <= 0)%Z -> in_alphabet A x -> Forall (in_alphabet A) obs -> k0_sim x (fed FO d online_new (x :: obs)) (fed FO (with_k 1) online_new (x :: obs)).
Proof.
  intros Hk Hx. induction obs as [|y obs IH] using rev_ind; intro Ho.
  - unfold fed. cbn [fold_left]. unfold denoise_sample. cbn [with_k d_size d_k online_new o_last o_contexts length]. rewrite (sample_range FO d x Hx).
    rewrite (proj2 (Z.ltb_ge (Z.of_nat 0) (d_k FO d))) by lia. change (Z.of_nat 0 <? 1)%Z with true. cbn iota. cbn [fst dict_get dict_set o_last o_contexts app tl].
    split; [reflexivity|]. split; [reflexivity|]. intros [|z c]; reflexivity.
  - apply Forall_app in Ho. destruct Ho as [Ho Hy]. inversion Hy; subst. change (x :: obs ++ [y]) with ((x :: obs) ++ [y]). rewrite !fed_snoc. apply k0_step; auto.
Qed.
End Seq.
