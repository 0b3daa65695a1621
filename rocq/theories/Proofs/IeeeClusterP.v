(** Lemmas about clustering in double precision. *)
From Coq Require Import List NArith ZArith Reals Bool Lia Lra Psatz Arith.
From Flocq Require Import Core IEEE754.BinarySingleNaN.
From Verif.Model Require Import Py Float BitOps InfoTheory Clustering.
From Verif.Spec Require Import RealOps Info Stats Cluster IeeeOps IeeeCluster.
From Verif.Proofs Require Import Base RealP StatReal ClusterP ClusterH IeeeP IeeeInfoP IeeeHellP IeeeEmleP IeeeSweepP.
Import ListNotations.
Open Scope R_scope.

Notation p2 := (bpow radix2).
Notation clip0 x := (Rmin (Rmax x (-100)) 0).

(** ** Rounding *)
Lemma rnd_abs_err x e : (-1000 <= e)%Z -> Rabs x <= p2 e -> Rabs (rnd x - x) <= p2 (e - 53).
Proof.
  intros He H. assert (E := error_le_half_ulp radix2 (FLT_exp (-1074) 53) (fun z => negb (Z.even z)) x). change (round radix2 (FLT_exp (-1074) 53) (Znearest (fun z => negb (Z.even z))) x) with (rnd x) in E.
  eapply Rle_trans; [exact E|]. assert (U : ulp radix2 (FLT_exp (-1074) 53) x <= ulp radix2 (FLT_exp (-1074) 53) (p2 e)).
  { apply ulp_le; auto with typeclass_instances. rewrite (Rabs_pos_eq (p2 e)) by apply bpow_ge_0. exact H. }
  rewrite ulp_bpow in U. replace (FLT_exp (-1074) 53 (e + 1)) with (e - 52)%Z in U by (unfold FLT_exp; lia).
  replace (e - 53)%Z with (-1 + (e - 52))%Z by lia. rewrite bpow_plus. change (p2 (-1)) with (/ 2). lra.
Qed.
(** Rounding a sum of at most k numbers of size at most 64. *)
Lemma rnd_sum_err x k : (1 <= k)%Z -> Rabs x <= 64 * IZR k -> Rabs (rnd x - x) <= p2 (-46) * IZR k.
Proof.
  intros Hk H. assert (Pk : 0 < IZR k) by (apply IZR_lt; lia).
  assert (L := Z.log2_spec k ltac:(lia)). set (e := Z.log2 k) in *. assert (He : (0 <= e)%Z) by apply Z.log2_nonneg.
  assert (B : IZR k <= p2 (e + 1)) by (replace (p2 (e + 1)) with (IZR (2 ^ (e + 1))); [apply IZR_le; replace (Z.succ e) with (e + 1)%Z in L by lia; lia|rewrite <- IZR_Zpower by lia; reflexivity]).
  assert (C : p2 e <= IZR k) by (rewrite <- IZR_Zpower by lia; apply IZR_le; change (2 ^ e <= k)%Z; lia).
  eapply Rle_trans; [apply (rnd_abs_err x (e + 7)); [lia|]|].
  - eapply Rle_trans; [exact H|]. replace (e + 7)%Z with (6 + (e + 1))%Z by lia. rewrite bpow_plus. change (p2 6) with 64. lra.
  - replace (e + 7 - 53)%Z with (-46 + e)%Z by lia. rewrite bpow_plus. apply Rmult_le_compat_l; [apply bpow_ge_0|exact C].
Qed.

(** ** Logarithms *)
Lemma ln_near r e : 0 <= e <= / 4 -> Rabs (r - 1) <= e -> Rabs (ln r) <= 2 * e.
Proof.
  intros He H. apply Rabs_le_inv in H. assert (P : 3 / 4 <= r) by lra.
  assert (U : forall x, 0 < x -> ln x <= x - 1). { intros x Px. pose proof (exp_ineq1_le (ln x)) as Q. rewrite exp_ln in Q by exact Px. lra. }
  assert (U1 := U r ltac:(lra)). assert (U2 := U (/ r) ltac:(apply Rinv_0_lt_compat; lra)). rewrite ln_Rinv in U2 by lra.
  assert (/ r - 1 = (1 - r) / r) by (field; lra). assert ((1 - r) / r <= 2 * e).
  { apply (Rmult_le_reg_r r); [lra|]. unfold Rdiv. rewrite Rmult_assoc, Rinv_l by lra. nra. }
  apply Rabs_le. lra.
Qed.
Lemma clip_lip x y e : Rabs (x - y) <= e -> Rabs (clip0 x - clip0 y) <= e.
Proof.
  intro H. apply Rabs_le_inv in H. apply Rabs_le. unfold Rmin, Rmax.
  destruct (Rle_dec x (-100)), (Rle_dec y (-100)); repeat match goal with |- context [Rle_dec ?a ?b] => destruct (Rle_dec a b) end; lra.
Qed.

Section L.
Variable l : libm.
Hypothesis AL : accurate_log l.

(** The logarithm of a share plus epsilon. *)
Lemma logp_64 c n : (0 <= c <= n)%Z -> (0 < n <= 2 ^ 50)%Z ->
  let x := l_log l (b64_add (b64_div (b64_z c) (b64_z n)) (feps (Bops l))) in
  fin x /\ -64 <= val x <= 1 /\ Rabs (val x - ln (IZR c / IZR n + / 4503599627370496)) <= p2 (-43) /\
  (c = n -> 0 <= val x) /\ (c <> n -> val x <= - p2 (-52)).
Proof.
  intros Hc Hn x. destruct (quot_spec c n Hc ltac:(lia)) as (Fp & Vp & Rp & Zp & Op). destruct (eps_spec l) as [Fe Ve].
  set (p := b64_div (b64_z c) (b64_z n)) in *. assert (P52 := bpow_gt_0 radix2 (-52)). assert (L52 : p2 (-52) <= / 4) by apply eps_small.
  assert (E52 : / 4503599627370496 = p2 (-52)) by reflexivity. rewrite E52. clear E52.
  destruct (add_spec p (feps (Bops l)) Fp Fe) as [Fy Vy]; [rewrite Ve, Rabs_pos_eq by lra; assert (2 <= big) by (change 2 with (p2 1); apply bpow_le; lia); lra|].
  rewrite Ve in Vy. set (y := b64_add p (feps (Bops l))) in *.
  pose proof u_small as U. pose proof (quot_range c n Hc ltac:(lia)) as Ra. set (a := IZR c / IZR n) in *.
  assert (Pn : 0 < IZR n) by (apply IZR_lt; lia).
  assert (Ap : a * (1 - u) <= val p <= a * (1 + u)).
  { destruct (Z.eq_dec c 0) as [Z|N]; [rewrite (proj2 Zp Z); unfold a; rewrite Z; lra|]. rewrite Vp. apply rnd_up. apply Rle_trans with (p2 (-50)); [apply bpow_le; lia|].
    change (p2 (-50)) with (/ IZR (2 ^ 50)). unfold a. apply Rle_trans with (1 / IZR n); [unfold Rdiv; rewrite Rmult_1_l; apply Rinv_le; [exact Pn|apply IZR_le; lia]|].
    apply Rmult_le_compat_r; [left; now apply Rinv_0_lt_compat|apply IZR_le; lia]. }
  set (s := a + p2 (-52)) in *. assert (Ps : p2 (-52) <= s <= 2) by (unfold s; lra).
  assert (At : s * (1 - u) <= val p + p2 (-52) <= s * (1 + u)) by (unfold s; nra).
  assert (Ay : s * ((1 - u) * (1 - u)) <= val y <= s * ((1 + u) * (1 + u))).
  { rewrite Vy. destruct (rnd_up (val p + p2 (-52))) as [Y1 Y2]; [apply Rle_trans with (p2 (-52)); [apply bpow_le; lia|lra]|]. split.
    - eapply Rle_trans; [|exact Y1]. rewrite <- Rmult_assoc. apply Rmult_le_compat_r; lra.
    - eapply Rle_trans; [exact Y2|]. rewrite <- Rmult_assoc. apply Rmult_le_compat_r; lra. }
  assert (By : p2 (-52) <= val y <= 2).
  { rewrite Vy. split; [apply rnd_ge; [apply generic_format_bpow; cbn; lia|lra]|apply rnd_le'; [apply (fmt_IZR 2); lia|lra]]. }
  assert (Ly : Rabs (ln (val y) - ln s) <= 6 * u).
  { replace (ln (val y) - ln s) with (ln (val y / s)) by (unfold Rdiv; rewrite ln_mult by (try lra; apply Rinv_0_lt_compat; lra); rewrite ln_Rinv by lra; ring).
    replace (6 * u) with (2 * (3 * u)) by ring. apply ln_near; [lra|]. apply Rabs_le.
    assert (Q : (1 - u) * (1 - u) <= val y / s <= (1 + u) * (1 + u)).
    { split; [apply (Rmult_le_reg_r s)|apply (Rmult_le_reg_r s)]; try lra; unfold Rdiv; rewrite ?Rmult_assoc, ?Rinv_l by lra; nra. }
    assert (u * u <= u) by nra. nra. }
  assert (L2 := ln2_bounds).
  assert (By2 : Rabs (ln (val y)) <= 47).
  { apply Rabs_le. split.
    - apply Rle_trans with (ln (p2 (-52))); [|apply ln_le; lra]. rewrite bpow_exp, ln_exp. change (radix2 : Z) with 2%Z. lra.
    - apply Rle_trans with (ln 2); [apply ln_le; lra|lra]. }
  destruct (AL y Fy ltac:(lra)) as [Fx Ex]. fold x in Fx, Ex.
  assert (U8 : p2 (-50) = 8 * u) by (change (-50)%Z with (3 + -53)%Z; rewrite bpow_plus; reflexivity).
  assert (Ex' : Rabs (val x - ln (val y)) <= 8 * u * 47) by (eapply Rle_trans; [exact Ex|]; rewrite U8; apply Rmult_le_compat_l; lra).
  split; [exact Fx|]. apply Rabs_le_inv in Ex'. apply Rabs_le_inv in By2. apply Rabs_le_inv in Ly.
  split; [|split; [|split]].
  - split; [lra|]. assert (ln (val y) <= ln 2) by (apply ln_le; lra). lra.
  - apply Rabs_le. assert (U1024 : p2 (-43) = 1024 * u) by (change (-43)%Z with (10 + -53)%Z; rewrite bpow_plus; reflexivity). rewrite U1024. lra.
  - intro E. assert (1 <= val y). { rewrite Vy, (proj2 Op E). apply rnd_ge; [apply fmt_1|lra]. }
    assert (0 <= ln (val y)) by (rewrite <- ln_1; apply ln_le; lra). rewrite (Rabs_pos_eq (ln (val y))) in Ex by lra. apply Rabs_le_inv in Ex. nra.
  - intro N. assert (P51 := bpow_gt_0 radix2 (-51)).
    assert (E51 : p2 (-51) = 4 * u) by (change (-51)%Z with (2 + -53)%Z; rewrite bpow_plus; reflexivity).
    assert (E52 : p2 (-52) = 2 * u) by (change (-52)%Z with (1 + -53)%Z; rewrite bpow_plus; reflexivity).
    assert (Fg : forall k, (0 <= k <= 2 ^ 53)%Z -> fmt (1 - IZR k * u)).
    { intros k Hk. replace (1 - IZR k * u) with (IZR (2 ^ 53 - k) * p2 (-53)); [apply fmt_F2R; lia|]. fold u. rewrite minus_IZR, Rmult_minus_distr_r.
      replace (IZR (2 ^ 53) * u) with 1; [reflexivity|]. rewrite u_val, Rinv_r; [reflexivity|]. apply IZR_neq. lia. }
    assert (Lp : val p <= 1 - 8 * u).
    { rewrite Vp. apply rnd_le'; [apply Fg; lia|]. rewrite <- U8. change (p2 (-50)) with (/ IZR (2 ^ 50)). unfold a. apply Rle_trans with (1 - / IZR n).
      - apply (Rmult_le_reg_r (IZR n)); [exact Pn|]. rewrite Rmult_minus_distr_r. unfold Rdiv. rewrite Rmult_assoc, Rinv_l by lra.
        assert (Q : (c <= n - 1)%Z) by lia. apply IZR_le in Q. rewrite minus_IZR in Q. lra.
      - assert (/ IZR (2 ^ 50) <= / IZR n) by (apply Rinv_le; [exact Pn|apply IZR_le; lia]). lra. }
    assert (Ly1 : val y <= 1 - 4 * u) by (rewrite Vy; apply rnd_le'; [apply Fg; lia|lra]).
    assert (Ln : ln (val y) <= - (4 * u)). { pose proof (exp_ineq1_le (ln (val y))) as Q. rewrite exp_ln in Q by lra. lra. }
    rewrite (Rabs_left1 (ln (val y))) in Ex by lra. apply Rabs_le_inv in Ex. rewrite U8 in Ex. rewrite E52. nra.
Qed.

(** np.clip(x, -100, 0). *)
Lemma clip_64 (x : b64) : fin x -> let y := fclip (Bops l) x (b64_z (-100)) (b64_z 0) in fin y /\ val y = clip0 (val x).
Proof.
  intros Fx y. destruct (z_spec (-100) ltac:(lia)) as [F1 V1]. destruct (z_spec 0 ltac:(lia)) as [F0 V0].
  assert (M : let z := fmax (Bops l) x (b64_z (-100)) in fin z /\ val z = Rmax (val x) (-100)).
  { unfold fmax. cbn [fle Bops]. destruct (Bleb (b64_z (-100)) x) eqn:E.
    - apply (leb_spec _ _ F1 Fx) in E. rewrite V1 in E. split; [exact Fx|]. symmetry. apply Rmax_left. exact E.
    - split; [exact F1|]. rewrite V1. symmetry. apply Rmax_right. destruct (Rle_lt_dec (-100) (val x)) as [G|G]; [|lra]. exfalso.
      rewrite <- V1 in G. apply (leb_spec _ _ F1 Fx) in G. rewrite G in E. discriminate. }
  destruct M as [Fz Vz]. unfold y, fclip, fmin. cbn [fle Bops]. set (z := fmax (Bops l) x (b64_z (-100))) in *. change (F (Bops l)) with b64 in *.
  destruct (Bleb z (b64_z 0)) eqn:E.
  - apply (leb_spec _ _ Fz F0) in E. rewrite V0 in E. split; [exact Fz|]. rewrite Vz in *. symmetry. apply Rmin_left. exact E.
  - split; [exact F0|]. rewrite V0. symmetry. apply Rmin_right. rewrite <- Vz. destruct (Rle_lt_dec 0 (val z)) as [G|G]; [exact G|]. exfalso.
    assert (Q : val z <= val (b64_z 0)) by lra. apply (leb_spec _ _ Fz F0) in Q. rewrite Q in E. discriminate.
Qed.

(** ** Sums of terms between -64 and 0 *)
Lemma fold_64 d ts es : 0 <= d -> Forall2 (fun t e => fin t /\ -64 <= val t <= 0 /\ Rabs (val t - e) <= d) ts es ->
  forall a A E j, fin a -> (0 <= j)%Z -> - (64 * IZR j) <= val a <= 0 -> Rabs (val a - A) <= E -> (j + Z.of_nat (length ts) <= 2 ^ 40)%Z ->
  let k := Z.of_nat (length ts) in let s := fold_left b64_add ts a in
  fin s /\ - (64 * IZR (j + k)) <= val s <= 0 /\ Rabs (val s - (A + Rsum es)) <= E + IZR k * (d + p2 (-46) * IZR (j + k)) /\
  val s <= val a /\ (forall t, In t ts -> val s <= val t) /\ ((forall t, In t ts -> val t = 0) -> val s = val a).
Proof.
  intro Hd. induction 1 as [|t e ts es (Ft & Rt & Et) F IH]; intros a A E j Fa Hj Ra Ea B k s.
  - cbn in k, s. subst k s. rewrite Z.add_0_r. unfold Rsum. cbn [fold_right]. split; [exact Fa|]. split; [exact Ra|]. split; [rewrite Rplus_0_r, Rmult_0_l, Rplus_0_r; exact Ea|].
    split; [lra|]. split; [intros ? []|auto].
  - cbn [length] in B. assert (Pj : 0 <= IZR j) by (apply IZR_le; lia).
    assert (Bs : Rabs (val a + val t) <= 64 * IZR (j + 1)) by (rewrite plus_IZR; apply Rabs_le; lra).
    destruct (add_spec a t Fa Ft) as [Fs Vs].
    { eapply Rle_trans; [exact Bs|]. rewrite <- mult_IZR. rewrite <- (Rabs_pos_eq (IZR (64 * (j + 1)))) by (apply IZR_le; lia). apply big_Z. lia. }
    assert (Rs : - (64 * IZR (j + 1)) <= val (b64_add a t) <= 0).
    { rewrite Vs. apply Rabs_le_inv in Bs. split; [|apply rnd_le'; [apply fmt_0|lra]]. rewrite <- mult_IZR, <- opp_IZR. apply rnd_ge; [apply fmt_IZR; lia|]. rewrite opp_IZR, mult_IZR. lra. }
    assert (Es : Rabs (val (b64_add a t) - (A + e)) <= E + d + p2 (-46) * IZR (j + 1)).
    { rewrite Vs. pose proof (rnd_sum_err _ (j + 1) ltac:(lia) Bs) as Q. apply Rabs_le_inv in Q. apply Rabs_le_inv in Ea. apply Rabs_le_inv in Et. apply Rabs_le. lra. }
    assert (La : val (b64_add a t) <= val a) by (rewrite Vs; apply rnd_le'; [apply fmt_val|lra]).
    assert (Lt : val (b64_add a t) <= val t) by (rewrite Vs; apply rnd_le'; [apply fmt_val|lra]).
    destruct (IH (b64_add a t) (A + e) _ (j + 1)%Z Fs ltac:(lia) Rs Es ltac:(lia)) as (S1 & S2 & S3 & S4 & S5 & S6).
    change (fold_left b64_add (t :: ts) a) with (fold_left b64_add ts (b64_add a t)) in s. fold s in S1, S2, S3, S4, S5, S6.
    assert (Ek : k = (1 + Z.of_nat (length ts))%Z) by (subst k; cbn [length]; lia).
    rewrite Ek. replace (j + (1 + Z.of_nat (length ts)))%Z with (j + 1 + Z.of_nat (length ts))%Z by lia.
    split; [exact S1|]. split; [exact S2|]. split; [|split; [lra|split]].
    + replace (A + Rsum (e :: es)) with (A + e + Rsum es) by (unfold Rsum; cbn [fold_right]; ring). eapply Rle_trans; [exact S3|].
      assert (P46 := bpow_ge_0 radix2 (-46)). assert (IZR (j + 1) <= IZR (j + 1 + Z.of_nat (length ts))) by (apply IZR_le; lia).
      assert (0 <= IZR (Z.of_nat (length ts))) by (apply IZR_le; lia). rewrite (plus_IZR 1).
      assert (p2 (-46) * IZR (j + 1) <= p2 (-46) * IZR (j + 1 + Z.of_nat (length ts))) by (apply Rmult_le_compat_l; lra). lra.
    + intros x [<-|I]; [lra|auto].
    + intro Z. rewrite S6 by (intros x Hx; apply Z; right; exact Hx). rewrite Vs, (Z t (or_introl eq_refl)), Rplus_0_r. apply rnd_id, fmt_val.
Qed.
End L.
