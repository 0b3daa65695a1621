(** Lemmas about fitting a mixture in double precision: the likelihoods of the samples. *)
From Coq Require Import List ZArith Reals Bool Lia Lra.
From Flocq Require Import Core Relative IEEE754.BinarySingleNaN.
From Verif.Model Require Import Py Float Clustering Bmm.
From Verif.Spec Require Import RealOps Info IeeeOps IeeeCluster IeeeBmmSpec.
From Verif.Proofs Require Import Base IeeeP IeeeInfoP IeeeEmleP IeeeSweepP IeeeDudeP.
Import ListNotations.
Open Scope R_scope.

(** ** Special values *)
Lemma add_nan_r x : b64_add x nan = nan. Proof. destruct x; reflexivity. Qed.
Lemma add_nan_l x : b64_add nan x = nan. Proof. reflexivity. Qed.
Lemma sub_nan_r x : b64_sub x nan = nan. Proof. destruct x; reflexivity. Qed.
Lemma sub_nan_l x : b64_sub nan x = nan. Proof. reflexivity. Qed.
Lemma mul_nan_r x : b64_mul x nan = nan. Proof. destruct x; reflexivity. Qed.
Lemma div_nan_l x : b64_div nan x = nan. Proof. reflexivity. Qed.
Lemma fold_nan xs : fold_left b64_add xs nan = nan.
Proof. induction xs as [|x xs IH]; [reflexivity|]. cbn [fold_left]. rewrite add_nan_l. exact IH. Qed.
Lemma fold_nan_in xs a : In nan xs -> fold_left b64_add xs a = nan.
Proof.
  revert a. induction xs as [|x xs IH]; intros a H; [contradiction|]. cbn [fold_left]. destruct H as [-> |H]; [rewrite add_nan_r; apply fold_nan|apply IH; exact H].
Qed.
Lemma fsum_nan l xs : In nan xs -> fsum (Bops l) xs = nan.
Proof. intro H. apply fold_nan_in. exact H. Qed.
Lemma isnan_nan l : isnan (Bops l) nan = true.
Proof. reflexivity. Qed.
Lemma isnan_fin l x : fin x -> isnan (Bops l) x = false.
Proof. intro F. unfold isnan. change (feq (Bops l) x x) with (Beqb x x). rewrite (proj2 (eqb_spec x x F F) eq_refl). reflexivity. Qed.
Lemma isnan_minf l : isnan (Bops l) minus_inf = false.
Proof. reflexivity. Qed.
Lemma isfinite_nan l : isfinite (Bops l) nan = false.
Proof. reflexivity. Qed.
Lemma isfinite_fin l x : fin x -> isfinite (Bops l) x = true.
Proof.
  intro F. unfold isfinite. change (feq (Bops l) (fsub (Bops l) x x) (fz (Bops l) 0)) with (Beqb (b64_sub x x) (b64_z 0)).
  destruct (z_spec 0) as [F0 V0]; [lia|]. destruct (sub_spec x x F F) as [G V]; [rewrite Rminus_diag_eq, Rabs_R0 by reflexivity; apply Rlt_le, big_pos|].
  apply (eqb_spec _ _ G F0). rewrite V, V0, Rminus_diag_eq by reflexivity. apply rnd_0.
Qed.
Lemma minf_add x : fin x -> b64_add minus_inf x = minus_inf.
Proof. intro F. destruct x; try discriminate F; reflexivity. Qed.
Lemma minf_sub x : fin x -> b64_sub minus_inf x = minus_inf.
Proof. intro F. destruct x; try discriminate F; reflexivity. Qed.
Lemma zero_div_zero x y : fin x -> fin y -> val x = 0 -> val y = 0 -> b64_div x y = nan.
Proof.
  intros Fx Fy Vx Vy. assert (Z : forall z : b64, fin z -> val z = 0 -> exists s, z = B754_zero s).
  { intros z Fz Vz. destruct z as [s| | |s m e B]; try discriminate Fz; [exists s; reflexivity|]. exfalso. unfold val in Vz. cbn [B2R] in Vz. unfold F2R in Vz. cbn [Fnum Fexp] in Vz.
    apply Rmult_integral in Vz. destruct Vz as [Vz|Vz]; [apply eq_IZR in Vz; destruct s; discriminate|pose proof (bpow_gt_0 radix2 e); lra]. }
  destruct (Z x Fx Vx) as [s ->]. destruct (Z y Fy Vy) as [t ->]. reflexivity.
Qed.

(** ** Sums of numbers that are not positive, and of any signs *)
Definition bounded (m : Z) (x : b64) : Prop := fin x /\ - IZR m <= val x <= 0.
Lemma fold_neg m xs : (0 <= m)%Z -> Forall (bounded m) xs -> forall a k, bounded k a -> (0 <= k)%Z -> (k + m * Z.of_nat (length xs) <= 2 ^ 53)%Z ->
  bounded (k + m * Z.of_nat (length xs)) (fold_left b64_add xs a).
Proof.
  intros Hm F. induction F as [|x xs [Fx Rx] F IH]; intros a k [Fa Ra] Hk B.
  - cbn [fold_left length]. replace (k + m * Z.of_nat 0)%Z with k by lia. split; assumption.
  - assert (Bl : (k + m <= 2 ^ 53)%Z) by (cbn [length] in B; nia). cbn [fold_left].
    destruct (add_spec a x Fa Fx) as [Fs Vs].
    { rewrite <- Rabs_Ropp. apply big_53. apply IZR_le in Bl. rewrite plus_IZR in Bl. lra. }
    replace (k + m * Z.of_nat (length (x :: xs)))%Z with (k + m + m * Z.of_nat (length xs))%Z by (cbn [length]; lia).
    apply IH; [|lia|cbn [length] in B; nia]. split; [exact Fs|]. rewrite Vs, plus_IZR. split; [|apply rnd_le'; [apply fmt_0|lra]].
    apply rnd_ge; [|lra]. rewrite <- plus_IZR, <- opp_IZR. apply fmt_IZR. lia.
Qed.
Lemma zero_bounded k : (0 <= k)%Z -> bounded k (b64_z 0).
Proof. intro H. destruct (z_spec 0) as [A B]; [lia|]. split; [exact A|]. rewrite B. apply IZR_le in H. lra. Qed.
Lemma fsum_neg l m xs : (0 <= m)%Z -> Forall (bounded m) xs -> (m * Z.of_nat (length xs) <= 2 ^ 53)%Z -> bounded (m * Z.of_nat (length xs)) (fsum (Bops l) xs).
Proof. intros Hm F B. apply (fold_neg m xs Hm F (b64_z 0) 0%Z (zero_bounded 0 ltac:(lia)) ltac:(lia) ltac:(lia)). Qed.
Lemma bounded_weaken a b x : (a <= b)%Z -> bounded a x -> bounded b x.
Proof. intros H [F R]. apply IZR_le in H. split; [exact F|lra]. Qed.

Definition around (m : Z) (x : b64) : Prop := fin x /\ Rabs (val x) <= IZR m.
Lemma big_abs x m : (0 <= m <= 2 ^ 53)%Z -> Rabs x <= IZR m -> Rabs x <= big.
Proof. intros Hm H. eapply Rle_trans; [exact H|]. rewrite <- (Rabs_pos_eq (IZR m)) by (apply IZR_le; lia). apply big_Z. lia. Qed.
Lemma fold_around m xs : (0 <= m)%Z -> Forall (around m) xs -> forall a k, around k a -> (0 <= k)%Z -> (k + m * Z.of_nat (length xs) <= 2 ^ 53)%Z ->
  around (k + m * Z.of_nat (length xs)) (fold_left b64_add xs a).
Proof.
  intros Hm F. induction F as [|x xs [Fx Rx] F IH]; intros a k [Fa Ra] Hk B.
  - cbn [fold_left length]. replace (k + m * Z.of_nat 0)%Z with k by lia. split; assumption.
  - assert (Bl : (k + m <= 2 ^ 53)%Z) by (cbn [length] in B; nia). cbn [fold_left].
    assert (Rs : Rabs (val a + val x) <= IZR (k + m)) by (rewrite plus_IZR; eapply Rle_trans; [apply Rabs_triang|lra]).
    destruct (add_spec a x Fa Fx) as [Fs Vs]; [apply (big_abs _ (k + m)); [lia|exact Rs]|].
    replace (k + m * Z.of_nat (length (x :: xs)))%Z with (k + m + m * Z.of_nat (length xs))%Z by (cbn [length]; lia).
    apply IH; [|lia|cbn [length] in B; nia]. split; [exact Fs|]. rewrite Vs.
    apply abs_round_le_generic; [apply FLT_exp_valid; reflexivity|apply valid_rnd_N|apply fmt_IZR; lia|exact Rs].
Qed.
Lemma fsum_around l m xs : (0 <= m)%Z -> Forall (around m) xs -> (m * Z.of_nat (length xs) <= 2 ^ 53)%Z -> around (m * Z.of_nat (length xs)) (fsum (Bops l) xs).
Proof.
  intros Hm F B. apply (fold_around m xs Hm F (b64_z 0) 0%Z); try lia. destruct (z_spec 0) as [F0 V0]; [lia|]. split; [exact F0|]. rewrite V0, Rabs_R0. lra.
Qed.

(** ** Logarithms *)
Lemma ln_bpow e : ln (bpow radix2 e) = IZR e * ln 2.
Proof. rewrite bpow_exp, ln_exp. reflexivity. Qed.
Lemma log_bounds l e x : good_lib l -> (0 <= e <= 2000)%Z -> fin x -> bpow radix2 (- e) <= val x <= 1 -> bounded (e + 1) (l_log l x).
Proof.
  intros (_ & A & _) He F [B1 B2]. assert (P : 0 < val x) by (pose proof (bpow_gt_0 radix2 (- e)); lra). destruct (A x F P) as [G E].
  assert (L1 : - IZR e <= ln (val x)). { apply Rle_trans with (ln (bpow radix2 (- e))); [|apply ln_le; [apply bpow_gt_0|exact B1]]. rewrite ln_bpow, opp_IZR. pose proof ln2_bounds. destruct He as [H0 _]. apply IZR_le in H0. nra. }
  assert (L2 : ln (val x) <= 0) by (rewrite <- ln_1; apply ln_le; lra). split; [exact G|].
  rewrite (Rabs_left1 (ln (val x))) in E by exact L2. apply abs_in in E. change (bpow radix2 (-50)) with (/ 1125899906842624) in E. destruct He as [_ H1]. apply IZR_le in H1. rewrite plus_IZR. lra.
Qed.
Lemma e200_bounds l : fin (e200 (Bops l)) /\ bpow radix2 (-665) <= val (e200 (Bops l)) <= 1.
Proof.
  destruct one as [F1 V1]. change (e200 (Bops l)) with (b64_div (b64_z 1) (b64_z (10 ^ 200))).
  assert (Up : IZR (10 ^ 200) <= bpow radix2 665) by (rewrite <- (IZR_Zpower radix2) by lia; apply IZR_le; change (radix2 : Z) with 2%Z; vm_compute; discriminate).
  assert (Ge : 1 <= IZR (10 ^ 200)) by (apply IZR_le; vm_compute; discriminate).
  destruct (make_spec (10 ^ 200) 0) as [F V]; [change (bpow radix2 0) with 1; rewrite Rmult_1_r, Rabs_pos_eq by lra; eapply Rle_trans; [exact Up|apply bpow_le; lia]|].
  fold (b64_z (10 ^ 200)) in F, V. change (bpow radix2 0) with 1 in V. rewrite Rmult_1_r in V.
  assert (Rg : 1 <= val (b64_z (10 ^ 200)) <= bpow radix2 665). { rewrite V. split; [apply rnd_ge; [apply fmt_1|exact Ge]|apply rnd_le'; [apply generic_format_bpow; unfold FLT_exp; lia|exact Up]]. }
  set (w := b64_z (10 ^ 200)) in *. clearbody w. clear V Up Ge.
  assert (Q : bpow radix2 (-665) <= 1 / val w <= 1).
  { split; [|apply (Rmult_le_reg_r (val w)); [lra|]; unfold Rdiv; rewrite Rmult_assoc, Rinv_l by lra; lra].
    apply (Rmult_le_reg_r (val w)); [lra|]. unfold Rdiv. rewrite Rmult_assoc, Rinv_l by lra. apply Rle_trans with (bpow radix2 (-665) * bpow radix2 665); [apply Rmult_le_compat_l; [apply bpow_ge_0|lra]|].
    rewrite <- bpow_plus. change (bpow radix2 (-665 + 665)) with 1. lra. }
  destruct (div_spec (b64_z 1) w F1) as [G W]; [lra|rewrite V1; apply (pow_big _ 0); [lia|]; change (bpow radix2 0) with 1; apply Rabs_le; pose proof (bpow_ge_0 radix2 (-665)); lra|].
  split; [exact G|]. rewrite W, V1. split; [apply rnd_ge; [apply generic_format_bpow; unfold FLT_exp; lia|apply Q]|apply rnd_le'; [apply fmt_1|apply Q]].
Qed.
Lemma e15_bounds l : fin (e15 (Bops l)) /\ bpow radix2 (-50) <= val (e15 (Bops l)) <= 1.
Proof.
  destruct one as [F1 V1]. change (e15 (Bops l)) with (b64_div (b64_z 1) (b64_z (10 ^ 15))).
  destruct (z_spec (10 ^ 15)) as [F V]; [lia|]. set (w := b64_z (10 ^ 15)) in *. clearbody w. change (IZR (10 ^ 15)) with 1000000000000000 in V.
  assert (Q : bpow radix2 (-50) <= 1 / val w <= 1) by (rewrite V; change (bpow radix2 (-50)) with (/ 1125899906842624); lra).
  destruct (div_spec (b64_z 1) w F1) as [G W]; [lra|rewrite V1; apply (pow_big _ 0); [lia|]; change (bpow radix2 0) with 1; apply Rabs_le; pose proof (bpow_ge_0 radix2 (-50)); lra|].
  split; [exact G|]. rewrite W, V1. split; [apply rnd_ge; [apply generic_format_bpow; unfold FLT_exp; lia|apply Q]|apply rnd_le'; [apply fmt_1|apply Q]].
Qed.

(** ** The likelihoods *)
Lemma place_bounds l mu row j : Forall unit64 row -> (j < length row)%nat -> fin (place (Bops l) mu row j) /\ bpow radix2 (-665) <= val (place (Bops l) mu row j) <= 1.
Proof.
  intros Hr Hj. unfold place. destruct (e200_bounds l) as [F2 B2]. destruct (e15_bounds l) as [F15 B15].
  set (m := if fle (Bops l) _ _ then e15 (Bops l) else _). assert (Hm : unit64 m).
  { unfold m. destruct (fle (Bops l) _ _); [split; [exact F15|pose proof (bpow_ge_0 radix2 (-50)); lra]|]. rewrite Forall_forall in Hr. apply Hr, nth_In. exact Hj. }
  clearbody m. destruct Hm as [Fm Bm]. cbv zeta. change (flt (Bops l) (fabs (Bops l) m) (e200 (Bops l))) with (Bltb (Babs m) (e200 (Bops l))).
  change (F (Bops l)) with b64 in *. set (e2 := e200 (Bops l)) in *. clearbody e2.
  assert (Fa : fin (Babs m)) by (unfold fin; rewrite is_finite_Babs; exact Fm). assert (Va : val (Babs m) = val m) by (unfold val; rewrite B2R_Babs; apply Rabs_pos_eq; apply Bm).
  destruct (Bltb (Babs m) e2) eqn:E; [split; [exact F2|exact B2]|]. split; [exact Fm|]. split; [|apply Bm].
  destruct (Rle_lt_dec (bpow radix2 (-665)) (val m)) as [L|L]; [exact L|]. exfalso.
  assert (T : Bltb (Babs m) e2 = true) by (apply (ltb_spec _ _ Fa F2); rewrite Va; lra). congruence.
Qed.
Lemma bit_times b y : is_bit b -> fin y -> Rabs (val y) <= big -> fin (b64_mul (b64_z b) y) /\ (val (b64_mul (b64_z b) y) = 0 \/ val (b64_mul (b64_z b) y) = val y).
Proof.
  intros Hb F B. destruct (z_spec b) as [Fb Vb]; [destruct Hb; subst; lia|]. destruct (mul_spec (b64_z b) y Fb F) as [G V].
  - rewrite Vb. destruct Hb as [-> | ->]; [rewrite Rmult_0_l, Rabs_R0; apply Rlt_le, big_pos|rewrite Rmult_1_l; exact B].
  - split; [exact G|]. rewrite V, Vb. destruct Hb as [-> | ->]; [left; rewrite Rmult_0_l; apply rnd_0|right; rewrite Rmult_1_l; apply rnd_id, fmt_val].
Qed.
Lemma single_bounds l mu row xr : good_lib l -> Forall unit64 row -> Forall is_bit xr -> length xr = length row -> (Z.of_nat (length row) <= 2 ^ 14)%Z ->
  bounded (666 * Z.of_nat (length row)) (fsum (Bops l) (map (fun j => fmul (Bops l) (fz (Bops l) (nth j xr 0%Z)) (flog (Bops l) (place (Bops l) mu row j))) (seq 0 (length xr)))).
Proof.
  intros G Hr Hx L Hd. rewrite <- L. replace (length xr) with (length (map (fun j => fmul (Bops l) (fz (Bops l) (nth j xr 0%Z)) (flog (Bops l) (place (Bops l) mu row j))) (seq 0 (length xr)))) at 1 by (rewrite map_length, seq_length; reflexivity).
  apply fsum_neg; [lia| |rewrite map_length, seq_length, L; lia]. apply Forall_forall. intros y Hy. apply in_map_iff in Hy. destruct Hy as (j & <- & Hj). apply in_seq in Hj.
  destruct (place_bounds l mu row j Hr ltac:(lia)) as [Fp Bp]. destruct (log_bounds l 665 _ G ltac:(lia) Fp Bp) as [Fl Bl]. change (665 + 1)%Z with 666%Z in Bl.
  change (fmul (Bops l)) with b64_mul. change (fz (Bops l)) with b64_z. change (flog (Bops l)) with (l_log l).
  assert (Hb : is_bit (nth j xr 0%Z)) by (rewrite Forall_forall in Hx; apply Hx, nth_In; lia).
  destruct (bit_times (nth j xr 0%Z) (l_log l (place (Bops l) mu row j)) Hb Fl) as [Fm [E|E]].
  - apply (big_abs _ 666); [lia|]. apply Rabs_le. lra.
  - split; [exact Fm|]. rewrite E. lra.
  - split; [exact Fm|]. rewrite E. exact Bl.
Qed.
