(** Real arithmetic. *)
From Coq Require Import List NArith ZArith Reals Lra Lia Bool.
From Verif.Model Require Import Py Float.
From Verif.Spec Require Import RealOps.
Import ListNotations.
Local Open Scope R_scope.

Lemma Rltb_spec x y : Rltb x y = true <-> x < y.
Proof. unfold Rltb. destruct (Rlt_dec x y); split; auto; discriminate. Qed.
Lemma Rleb_spec x y : Rleb x y = true <-> x <= y.
Proof. unfold Rleb. destruct (Rle_dec x y); split; auto; discriminate. Qed.
Lemma Reqb_spec x y : Reqb x y = true <-> x = y.
Proof. unfold Reqb. destruct (Req_EM_T x y); split; auto; discriminate. Qed.
Lemma Rltb_false x y : Rltb x y = false <-> y <= x.
Proof. unfold Rltb. destruct (Rlt_dec x y); split; auto; try discriminate; lra. Qed.
Lemma Rleb_false x y : Rleb x y = false <-> y < x.
Proof. unfold Rleb. destruct (Rle_dec x y); split; auto; try discriminate; lra. Qed.
Lemma Reqb_false x y : Reqb x y = false <-> x <> y.
Proof. unfold Reqb. destruct (Req_EM_T x y); split; auto; try discriminate; contradiction. Qed.

Lemma Rround_spec x : rounds_to x (Rround x).
Proof.
  unfold Rround, rounds_to. destruct (base_Int_part x) as [H1 H2]. set (f := Int_part x) in *. clearbody f.
  destruct (total_order_T (x - IZR f) (/ 2)) as [[L|E]|G].
  - left. rewrite Rabs_right by lra. exact L.
  - destruct (Z.even f) eqn:Ev.
    + right. split; [rewrite Rabs_right by lra; exact E|]. apply Z.even_spec; auto.
    + right. rewrite plus_IZR. split; [rewrite Rabs_left by lra; lra|]. apply Z.even_spec. rewrite Z.even_add, Ev. reflexivity.
  - left. rewrite plus_IZR. rewrite Rabs_left by lra. lra.
Qed.

Lemma rounds_to_fun x v w : rounds_to x v -> rounds_to x w -> v = w.
Proof.
  assert (G : forall v w, rounds_to x v -> rounds_to x w -> (w <= v)%Z).
  { intros a b Ha Hb.
    assert (A : Rabs (x - IZR a) <= / 2) by (destruct Ha as [?|[? _]]; lra).
    assert (B : Rabs (x - IZR b) <= / 2) by (destruct Hb as [?|[? _]]; lra).
    assert (D : IZR b - IZR a <= 1).
    { revert A B. unfold Rabs. destruct (Rcase_abs (x - IZR a)), (Rcase_abs (x - IZR b)); lra. }
    rewrite <- minus_IZR in D. apply le_IZR in D.
    destruct (Z.eq_dec (b - a) 1) as [E|]; [|lia]. exfalso.
    assert (EB : b = (a + 1)%Z) by lia. subst b. unfold rounds_to in Hb. rewrite plus_IZR in Hb.
    destruct Ha as [Ha|[Ha Ea]], Hb as [Hb|[Hb Eb]].
    1-3: clear A B; revert Ha Hb; unfold Rabs; destruct (Rcase_abs (x - IZR a)), (Rcase_abs (x - (IZR a + 1))); intros; lra.
    destruct Ea as [a' Ea], Eb as [b' Eb]. lia. }
  intros Hv Hw. apply Z.le_antisymm; apply G; auto.
Qed.

Lemma Rround_iff x v : rounds_to x v <-> Rround x = v.
Proof. split; [intros H; eapply rounds_to_fun; [apply Rround_spec|exact H]|intros <-; apply Rround_spec]. Qed.

Lemma Rround_IZR z : Rround (IZR z) = z.
Proof. apply Rround_iff. left. rewrite Rminus_eq_0, Rabs_R0. lra. Qed.

Lemma fold_left_Rplus l a : fold_left Rplus l a = a + Rsum l.
Proof. revert a; induction l; intros b; simpl; [lra|]. rewrite IHl. lra. Qed.
Lemma fsum_R l : fsum Rops l = Rsum l.
Proof. unfold fsum. cbn. rewrite fold_left_Rplus. lra. Qed.

Lemma Rsum_app a b : Rsum (a ++ b) = Rsum a + Rsum b.
Proof. induction a; simpl; lra. Qed.
Lemma Rsum_repeat x n : Rsum (repeat x n) = INR n * x.
Proof. induction n; [simpl; lra|]. rewrite S_INR. simpl Rsum. rewrite IHn. lra. Qed.
Lemma Rsum_nonneg l : Forall (fun x => 0 <= x) l -> 0 <= Rsum l.
Proof. induction 1; simpl; lra. Qed.
Lemma Rsum_zero l : Forall (fun x => 0 <= x) l -> Rsum l = 0 -> Forall (fun x => x = 0) l.
Proof.
  induction 1 as [|x l Hx Hl IH]; intros E; constructor; simpl in E.
  - pose proof (Rsum_nonneg _ Hl). lra.
  - apply IH. pose proof (Rsum_nonneg _ Hl). lra.
Qed.
