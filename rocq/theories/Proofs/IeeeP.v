(** Lemmas about IEEE 754 binary64. *)
From Coq Require Import List NArith ZArith Reals Bool Lia Lra.
From Flocq Require Import Core IEEE754.BinarySingleNaN.
From Verif.Model Require Import Py Float.
From Verif.Spec Require Import RealOps IeeeOps.
Import ListNotations.
Open Scope R_scope.

Definition big : R := bpow radix2 1023.
Notation fmt := (generic_format radix2 (FLT_exp (-1074) 53)).

(** ** Rounding *)
#[global] Instance vexp : Valid_exp (FLT_exp (-1074) 53) := FLT_exp_valid (-1074) 53 (prec_gt_0_ := prec_pos).
Lemma rnd_le a b : a <= b -> rnd a <= rnd b.
Proof. intro H. unfold rnd. apply round_le; auto with typeclass_instances. Qed.
Lemma rnd_id x : fmt x -> rnd x = x.
Proof. intro H. unfold rnd. apply round_generic; auto with typeclass_instances. Qed.
Lemma rnd_fmt x : fmt (rnd x).
Proof. unfold rnd. apply generic_format_round; auto with typeclass_instances. Qed.
Lemma rnd_opp x : rnd (- x) = - rnd x.
Proof. unfold rnd. rewrite round_NE_opp. reflexivity. Qed.
Lemma fmt_0 : fmt 0.
Proof. apply generic_format_0. Qed.
Lemma fmt_val (x : b64) : fmt (val x).
Proof. apply (generic_format_B2R 53 1024 x). Qed.
Lemma fmt_F2R m e : (Z.abs m <= 2 ^ 53)%Z -> (-1074 <= e)%Z -> fmt (IZR m * bpow radix2 e).
Proof.
  intros Hm He. destruct (Z.eq_dec (Z.abs m) (2 ^ 53)) as [E|N].
  - assert (Q : m = (2 ^ 53)%Z \/ m = (- 2 ^ 53)%Z) by lia.
    assert (P : fmt (bpow radix2 (53 + e))).
    { apply generic_format_bpow. unfold FLT_exp. lia. }
    destruct Q as [-> | -> ].
    + replace (IZR (2 ^ 53) * bpow radix2 e) with (bpow radix2 (53 + e)); [exact P|]. rewrite bpow_plus. f_equal.
    + replace (IZR (- 2 ^ 53) * bpow radix2 e) with (- bpow radix2 (53 + e)); [now apply generic_format_opp|]. rewrite bpow_plus, opp_IZR.
      change (IZR (2 ^ 53)) with (bpow radix2 53). ring.
  - apply generic_format_FLT. exists (Float radix2 m e); [unfold F2R; reflexivity| |exact He]. cbn. change (Z.pow_pos 2 53) with (2 ^ 53)%Z. lia.
Qed.
Lemma fmt_IZR z : (Z.abs z <= 2 ^ 53)%Z -> fmt (IZR z).
Proof. intro H. rewrite <- (Rmult_1_r (IZR z)). change 1 with (bpow radix2 0). apply fmt_F2R; lia. Qed.
Lemma rnd_IZR z : (Z.abs z <= 2 ^ 53)%Z -> rnd (IZR z) = IZR z.
Proof. intro H. now apply rnd_id, fmt_IZR. Qed.
Lemma rnd_0 : rnd 0 = 0.
Proof. apply rnd_id, fmt_0. Qed.
Lemma rnd_1 : rnd 1 = 1.
Proof. apply (rnd_IZR 1). lia. Qed.
Lemma rnd_ge x : fmt x -> forall y, x <= y -> x <= rnd y.
Proof. intros Fx y H. rewrite <- (rnd_id x Fx). now apply rnd_le. Qed.
Lemma rnd_le' x : fmt x -> forall y, y <= x -> rnd y <= x.
Proof. intros Fx y H. rewrite <- (rnd_id x Fx). now apply rnd_le. Qed.
Lemma fmt_big : fmt big.
Proof. apply generic_format_bpow. cbn. lia. Qed.
Lemma big_pos : 0 < big.
Proof. apply bpow_gt_0. Qed.
Lemma rnd_big x : Rabs x <= big -> Rabs (rnd x) <= big.
Proof.
  intro H. apply Rabs_le. apply Rabs_le_inv in H. split.
  - apply rnd_ge; [apply generic_format_opp, fmt_big|apply H].
  - apply rnd_le'; [apply fmt_big|apply H].
Qed.
Lemma small_round x : Rabs x <= big -> Rlt_bool (Rabs (rnd x)) (bpow radix2 1024) = true.
Proof.
  intro H. apply Rlt_bool_true. eapply Rle_lt_trans; [apply rnd_big, H|]. apply bpow_lt. reflexivity.
Qed.

(** ** The operations on finite numbers *)
Lemma make_spec m e : Rabs (IZR m * bpow radix2 e) <= big -> fin (make m e) /\ val (make m e) = rnd (IZR m * bpow radix2 e).
Proof.
  intro H. pose proof (binary_normalize_correct 53 1024 prec_pos prec_small mode_NE m e false) as C. cbv zeta in C.
  change (F2R {| Fnum := m; Fexp := e |}) with (IZR m * bpow radix2 e) in C.
  change (round radix2 (SpecFloat.fexp 53 1024) (round_mode mode_NE) (IZR m * bpow radix2 e)) with (rnd (IZR m * bpow radix2 e)) in C.
  rewrite small_round in C by exact H. destruct C as (C1 & C2 & _). split; assumption.
Qed.
Lemma big_Z z : (Z.abs z <= 2 ^ 1000)%Z -> Rabs (IZR z) <= big.
Proof.
  intro H. rewrite <- abs_IZR. apply IZR_le in H. eapply Rle_trans; [exact H|]. change (IZR (2 ^ 1000)) with (bpow radix2 1000).
  apply bpow_le. discriminate.
Qed.
Lemma z_spec z : (Z.abs z <= 2 ^ 53)%Z -> fin (b64_z z) /\ val (b64_z z) = IZR z.
Proof.
  intro H. unfold b64_z. destruct (make_spec z 0) as [A B].
  - change (bpow radix2 0) with 1. rewrite Rmult_1_r. apply big_Z. lia.
  - split; [exact A|]. rewrite B. change (bpow radix2 0) with 1. rewrite Rmult_1_r. now apply rnd_IZR.
Qed.
Lemma add_spec x y : fin x -> fin y -> Rabs (val x + val y) <= big -> fin (b64_add x y) /\ val (b64_add x y) = rnd (val x + val y).
Proof.
  intros Fx Fy H. pose proof (Bplus_correct 53 1024 prec_pos prec_small mode_NE x y Fx Fy) as C.
  change (round radix2 (SpecFloat.fexp 53 1024) (round_mode mode_NE) (B2R x + B2R y)) with (rnd (val x + val y)) in C.
  rewrite small_round in C by exact H. destruct C as (C1 & C2 & _). split; assumption.
Qed.
Lemma sub_spec x y : fin x -> fin y -> Rabs (val x - val y) <= big -> fin (b64_sub x y) /\ val (b64_sub x y) = rnd (val x - val y).
Proof.
  intros Fx Fy H. pose proof (Bminus_correct 53 1024 prec_pos prec_small mode_NE x y Fx Fy) as C.
  change (round radix2 (SpecFloat.fexp 53 1024) (round_mode mode_NE) (B2R x - B2R y)) with (rnd (val x - val y)) in C.
  rewrite small_round in C by exact H. destruct C as (C1 & C2 & _). split; assumption.
Qed.
Lemma mul_spec x y : fin x -> fin y -> Rabs (val x * val y) <= big -> fin (b64_mul x y) /\ val (b64_mul x y) = rnd (val x * val y).
Proof.
  intros Fx Fy H. pose proof (Bmult_correct 53 1024 prec_pos prec_small mode_NE x y) as C.
  change (round radix2 (SpecFloat.fexp 53 1024) (round_mode mode_NE) (B2R x * B2R y)) with (rnd (val x * val y)) in C.
  rewrite small_round in C by exact H. destruct C as (C1 & C2 & _). split; [|assumption]. unfold fin, b64_mul in *. now rewrite C2, Fx, Fy.
Qed.
Lemma div_spec x y : fin x -> val y <> 0 -> Rabs (val x / val y) <= big -> fin (b64_div x y) /\ val (b64_div x y) = rnd (val x / val y).
Proof.
  intros Fx Ny H. pose proof (Bdiv_correct 53 1024 prec_pos prec_small mode_NE x y Ny) as C.
  change (round radix2 (SpecFloat.fexp 53 1024) (round_mode mode_NE) (B2R x / B2R y)) with (rnd (val x / val y)) in C.
  rewrite small_round in C by exact H. destruct C as (C1 & C2 & _). split; [|assumption]. unfold fin, b64_div in *. now rewrite C2, Fx.
Qed.
Lemma sqrt_spec x : fin x -> 0 <= val x -> fin (b64_sqrt x) /\ val (b64_sqrt x) = rnd (sqrt (val x)).
Proof.
  intros Fx Px. destruct (Bsqrt_correct 53 1024 prec_pos prec_small mode_NE x) as (C1 & C2 & _). split; [|exact C1].
  unfold fin, b64_sqrt. rewrite C2. destruct x as [s|s| |[|] m e H]; try reflexivity; try discriminate Fx.
  exfalso. unfold val in Px. cbn [B2R] in Px. apply (Rle_not_lt _ _ Px).
  apply (F2R_lt_0 radix2 (Float radix2 (Zneg m) e)). reflexivity.
Qed.
Lemma opp_spec (x : b64) : fin x -> fin (Bopp x) /\ val (Bopp x) = - val x.
Proof. intro Fx. split; [unfold fin; now rewrite is_finite_Bopp|apply B2R_Bopp]. Qed.
Lemma ltb_spec (x y : b64) : fin x -> fin y -> (Bltb x y = true <-> val x < val y).
Proof.
  intros Fx Fy. rewrite Bltb_correct by assumption. unfold val. destruct (Rlt_bool_spec (B2R x) (B2R y)); split; intro; try lra; try easy.
Qed.
Lemma leb_spec (x y : b64) : fin x -> fin y -> (Bleb x y = true <-> val x <= val y).
Proof.
  intros Fx Fy. rewrite Bleb_correct by assumption. unfold val. destruct (Rle_bool_spec (B2R x) (B2R y)); split; intro; try lra; try easy.
Qed.
Lemma eqb_spec (x y : b64) : fin x -> fin y -> (Beqb x y = true <-> val x = val y).
Proof.
  intros Fx Fy. rewrite Beqb_correct by assumption. unfold val. destruct (Req_bool_spec (B2R x) (B2R y)); split; intro; try lra; try easy.
Qed.
Lemma fin_not_nan (x : b64) : fin x -> is_nan x = false.
Proof. destruct x; cbn; easy. Qed.

(** ** Quotients of counts *)
Lemma big_1 : 1 <= big.
Proof. change 1 with (bpow radix2 0). apply bpow_le. discriminate. Qed.
Lemma quot_range c n : (0 <= c <= n)%Z -> (0 < n)%Z -> 0 <= IZR c / IZR n <= 1.
Proof.
  intros [H0 H1] H. apply IZR_le in H0, H1. apply IZR_lt in H. split; [apply Rmult_le_pos; [lra|left; now apply Rinv_0_lt_compat]|].
  apply (Rmult_le_reg_r (IZR n)); [lra|]. unfold Rdiv. rewrite Rmult_assoc, Rinv_l by lra. lra.
Qed.
Lemma fmt_pred_1 : fmt (1 - bpow radix2 (-53)).
Proof.
  replace (1 - bpow radix2 (-53)) with (IZR (2 ^ 53 - 1) * bpow radix2 (-53)); [apply fmt_F2R; lia|].
  rewrite minus_IZR. change (IZR (2 ^ 53)) with (bpow radix2 53). rewrite Rmult_minus_distr_r, <- bpow_plus. cbn. lra.
Qed.
Lemma quot_spec c n : (0 <= c <= n)%Z -> (0 < n <= 2 ^ 53)%Z ->
  let x := b64_div (b64_z c) (b64_z n) in
  fin x /\ val x = rnd (IZR c / IZR n) /\ 0 <= val x <= 1 /\ (val x = 0 <-> c = 0%Z) /\ (val x = 1 <-> c = n).
Proof.
  intros Hc Hn x. destruct (z_spec c) as [Fc Vc]; [lia|]. destruct (z_spec n) as [Fn Vn]; [lia|].
  pose proof (quot_range c n Hc (proj1 Hn)) as R.
  assert (Pn : 0 < IZR n) by (apply IZR_lt; lia).
  destruct (div_spec (b64_z c) (b64_z n)) as [Fx Vx]; [exact Fc|rewrite Vn; lra| |].
  { rewrite Vc, Vn. rewrite Rabs_pos_eq by lra. pose proof big_1. lra. }
  rewrite Vc, Vn in Vx. fold x in Fx, Vx. split; [exact Fx|]. split; [exact Vx|].
  assert (B : 0 <= val x <= 1).
  { rewrite Vx. split; [apply rnd_ge; [apply fmt_0|lra]|apply rnd_le'; [apply (fmt_IZR 1); lia|lra]]. }
  assert (I53 : bpow radix2 (-53) <= / IZR n).
  { change (bpow radix2 (-53)) with (/ IZR (2 ^ 53)). apply Rinv_le; [exact Pn|]. apply IZR_le. lia. }
  split; [exact B|]. split; split.
  - intro E. destruct (Z.eq_dec c 0) as [|Nc]; [assumption|]. exfalso. rewrite E in Vx.
    assert (bpow radix2 (-53) <= rnd (IZR c / IZR n)).
    { apply rnd_ge; [apply generic_format_bpow; cbn; lia|]. eapply Rle_trans; [exact I53|]. rewrite <- (Rmult_1_l (/ IZR n)).
      apply Rmult_le_compat_r; [left; now apply Rinv_0_lt_compat|]. apply IZR_le. lia. }
    pose proof (bpow_gt_0 radix2 (-53)). lra.
  - intros ->. rewrite Vx. unfold Rdiv. rewrite Rmult_0_l. apply rnd_0.
  - intro E. destruct (Z.eq_dec c n) as [|Nc]; [assumption|]. exfalso. rewrite E in Vx.
    assert (rnd (IZR c / IZR n) <= 1 - bpow radix2 (-53)).
    { apply rnd_le'; [apply fmt_pred_1|]. apply Rle_trans with (1 - / IZR n); [|lra].
      apply (Rmult_le_reg_r (IZR n)); [exact Pn|]. rewrite Rmult_minus_distr_r. unfold Rdiv. rewrite Rmult_assoc, Rinv_l by lra.
      assert (Q : (c <= n - 1)%Z) by lia. apply IZR_le in Q. rewrite minus_IZR in Q. lra. }
    pose proof (bpow_gt_0 radix2 (-53)). lra.
  - intros ->. rewrite Vx. unfold Rdiv. rewrite Rinv_r by lra. apply rnd_1.
Qed.
