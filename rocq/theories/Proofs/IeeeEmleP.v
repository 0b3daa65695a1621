(** Lemmas about confidences, estimates and log likelihood ratios in double precision. *)
From Coq Require Import List NArith ZArith Reals Bool Lia Lra.
From Flocq Require Import Core IEEE754.BinarySingleNaN Relative.
From Verif.Model Require Import Py Float InfoTheory Clustering Emle.
From Verif.Spec Require Import RealOps Info Cluster IeeeOps EmleSpec IeeeEmleSpec.
From Verif.Proofs Require Import Base InfoP EmleP IeeeP IeeeInfoP IeeeHellP IeeeFreqP.
Import ListNotations.
Open Scope R_scope.

(** ** 1 / (1 + exp x) *)
Definition logistic (e : b64) : b64 := b64_div (b64_z 1) (b64_add (b64_z 1) e).
Lemma one : fin (b64_z 1) /\ val (b64_z 1) = 1.
Proof. apply (z_spec 1). lia. Qed.
Lemma one_plus e : e = B754_infinity false \/ fin e /\ 0 <= val e ->
  b64_add (b64_z 1) e = B754_infinity false \/
  e <> B754_infinity false /\ fin (b64_add (b64_z 1) e) /\ val (b64_add (b64_z 1) e) = rnd (1 + val e).
Proof.
  intros [-> |[Fe Pe]]; [left; vm_compute; reflexivity|]. destruct one as [F1 V1].
  pose proof (Bplus_correct 53 1024 prec_pos prec_small mode_NE (b64_z 1) e F1 Fe) as C.
  change (round radix2 (SpecFloat.fexp 53 1024) (round_mode mode_NE) (B2R (b64_z 1) + B2R e)) with (rnd (val (b64_z 1) + val e)) in C. rewrite V1 in C.
  fold (b64_add (b64_z 1) e) in C. destruct (Rlt_bool (Rabs (rnd (1 + val e))) (bpow radix2 1024)).
  - right. destruct C as (C1 & C2 & _). split; [intros ->; discriminate Fe|]. split; [exact C2|exact C1].
  - left. destruct C as [C _]. assert (S1 : Bsign (b64_z 1) = false) by (vm_compute; reflexivity). rewrite S1 in C. destruct (b64_add (b64_z 1) e) as [s|s| |s m x H]; try discriminate C. cbn in C. now injection C as ->.
Qed.
Lemma fmt_half : fmt (/ 2).
Proof. replace (/ 2) with (bpow radix2 (-1)) by reflexivity. apply generic_format_bpow. cbn. lia. Qed.
Lemma fmt_1 : fmt 1.
Proof. apply (fmt_IZR 1). lia. Qed.
Lemma logistic_spec e : e = B754_infinity false \/ fin e /\ 0 <= val e ->
  fin (logistic e) /\ 0 <= val (logistic e) <= 1 /\ (fin e -> val e <= 1 -> / 2 <= val (logistic e)) /\
  (e = B754_infinity false \/ 1 <= val e -> val (logistic e) <= / 2).
Proof.
  intro H. unfold logistic. destruct one as [F1 V1]. destruct (one_plus e H) as [E|(Ne & Fs & Vs)].
  - rewrite E. assert (D : b64_div (b64_z 1) (B754_infinity false) = B754_zero false) by (vm_compute; reflexivity). rewrite D. change (val (B754_zero false)) with 0.
    split; [reflexivity|]. split; [lra|]. split; [|intros; lra]. intros Fe Le. exfalso. destruct H as [-> |[_ Pe]]; [discriminate Fe|].
    destruct (add_spec (b64_z 1) e F1 Fe) as [Fa _]; [rewrite V1, Rabs_pos_eq by lra; pose proof (big_Z 2 ltac:(lia)) as B; rewrite Rabs_pos_eq in B by lra; lra|].
    rewrite E in Fa. discriminate Fa.
  - destruct H as [H|[Fe Pe]]; [contradiction|]. set (s := b64_add (b64_z 1) e) in *.
    assert (P1 : 1 <= val s) by (rewrite Vs; apply rnd_ge; [apply fmt_1|lra]).
    assert (Q : 0 <= 1 / val s <= 1).
    { split; [apply Rmult_le_pos; [lra|left; apply Rinv_0_lt_compat; lra]|]. apply (Rmult_le_reg_r (val s)); [lra|]. unfold Rdiv. rewrite Rmult_assoc, Rinv_l; lra. }
    destruct (div_spec (b64_z 1) s F1) as [Fd Vd]; [lra|rewrite V1, Rabs_pos_eq by lra; pose proof big_1; lra|]. rewrite V1 in Vd.
    split; [exact Fd|]. rewrite Vd. split; [split; [apply rnd_ge; [apply fmt_0|lra]|apply rnd_le'; [apply fmt_1|lra]]|]. split.
    + intros _ Le. assert (P2 : val s <= 2) by (rewrite Vs; apply rnd_le'; [apply (fmt_IZR 2); lia|lra]). apply rnd_ge; [apply fmt_half|].
      apply (Rmult_le_reg_r (val s)); [lra|]. unfold Rdiv. rewrite Rmult_assoc, Rinv_l; lra.
    + intros [C|C]; [contradiction|]. assert (P2 : 2 <= val s) by (rewrite Vs; apply rnd_ge; [apply (fmt_IZR 2); lia|lra]). apply rnd_le'; [apply fmt_half|].
      apply (Rmult_le_reg_r (val s)); [lra|]. unfold Rdiv. rewrite Rmult_assoc, Rinv_l; lra.
Qed.

(** ** The estimate of a probability behind a noisy channel *)
Lemma grid x e : fmt x -> (-1022 <= e)%Z -> bpow radix2 e <= x -> exists k, x = IZR k * bpow radix2 (e - 52).
Proof.
  intros Fx He H. assert (Px : 0 < x) by (pose proof (bpow_gt_0 radix2 e); lra).
  assert (M : (e - 52 <= cexp radix2 (FLT_exp (-1074) 53) x)%Z).
  { unfold cexp, FLT_exp. assert (e < mag radix2 x)%Z; [|lia]. apply mag_gt_bpow. rewrite Rabs_pos_eq; lra. }
  exists (Ztrunc (scaled_mantissa radix2 (FLT_exp (-1074) 53) x) * 2 ^ (cexp radix2 (FLT_exp (-1074) 53) x - (e - 52)))%Z.
  rewrite mult_IZR. assert (Ep : IZR (2 ^ (cexp radix2 (FLT_exp (-1074) 53) x - (e - 52))) = bpow radix2 (cexp radix2 (FLT_exp (-1074) 53) x - (e - 52))) by (apply (IZR_Zpower radix2); lia).
  rewrite Ep, Rmult_assoc, <- bpow_plus. replace (cexp radix2 (FLT_exp (-1074) 53) x - (e - 52) + (e - 52))%Z with (cexp radix2 (FLT_exp (-1074) 53) x) by lia. exact Fx.
Qed.
Definition estimate (f v : b64) : b64 :=
  let r := b64_div (b64_sub v f) (b64_sub (b64_z 1) (b64_mul (b64_z 2) f)) in
  let hi := if Bleb (b64_z 0) r then r else b64_z 0 in
  if Bleb hi (b64_z 1) then hi else b64_z 1.
Lemma rnd_half x : bpow radix2 (-1000) <= x -> rnd (x / 2) = rnd x / 2.
Proof.
  intro H. assert (Px : 0 < x) by (pose proof (bpow_gt_0 radix2 (-1000)); lra).
  assert (M : (-1000 < mag radix2 x)%Z) by (apply mag_gt_bpow; rewrite Rabs_pos_eq; lra).
  assert (E : x / 2 = x * bpow radix2 (-1)) by reflexivity.
  assert (C : cexp radix2 (FLT_exp (-1074) 53) (x / 2) = (cexp radix2 (FLT_exp (-1074) 53) x - 1)%Z).
  { unfold cexp. rewrite E, mag_mult_bpow by lra. unfold FLT_exp. lia. }
  unfold rnd, round, scaled_mantissa, F2R. cbn [Fnum Fexp]. rewrite C. set (c := cexp radix2 (FLT_exp (-1074) 53) x).
  replace (x / 2 * bpow radix2 (- (c - 1))) with (x * bpow radix2 (- c)).
  - replace (c - 1)%Z with (c + -1)%Z by lia. rewrite bpow_plus. change (bpow radix2 (-1)) with (/ 2). unfold Rdiv. ring.
  - rewrite E, Rmult_assoc, <- bpow_plus. do 2 f_equal. lia.
Qed.
(** [d] is 1 - 2 f. *)
Lemma denominator f : fin f -> 0 <= val f < / 2 ->
  let d := b64_sub (b64_z 1) (b64_mul (b64_z 2) f) in
  fin d /\ val d = rnd (1 - 2 * val f) /\ bpow radix2 (-53) <= 1 - 2 * val f /\ bpow radix2 (-53) <= val d <= 1.
Proof.
  intros Ff Rf d. destruct (z_spec 2 ltac:(lia)) as [F2 V2]. destruct one as [F1 V1].
  assert (Fm : fmt (2 * val f)).
  { rewrite Rmult_comm. change 2 with (bpow radix2 1).
    assert (E := fmt_val f). assert (FLT_format radix2 (-1074) 53 (val f)) as [g Eg Eb Ee] by (apply FLT_format_generic; [reflexivity|exact E]).
    apply generic_format_FLT. exists (Float radix2 (Fnum g) (Fexp g + 1)); cbn [Fnum Fexp]; [|exact Eb|lia].
    rewrite Eg. unfold F2R. cbn [Fnum Fexp]. rewrite bpow_plus. ring. }
  destruct (mul_spec (b64_z 2) f F2 Ff) as [Ft Vt]; [rewrite V2, Rabs_pos_eq by lra; pose proof big_1; lra|]. rewrite V2, (rnd_id _ Fm) in Vt.
  assert (G : 2 * val f <= 1 - bpow radix2 (-53)).
  { destruct (Rle_lt_dec (2 * val f) (1 - bpow radix2 (-53))) as [H|H]; [exact H|exfalso].
    destruct (grid (2 * val f) (-1) Fm ltac:(lia)) as [k Ek].
    { change (bpow radix2 (-1)) with (/ 2). assert (bpow radix2 (-53) <= / 4) by (change (/ 4) with (bpow radix2 (-2)); apply bpow_le; lia). lra. }
    change (-1 - 52)%Z with (-53)%Z in Ek. rewrite Ek in H.
    assert (P : 0 < bpow radix2 (-53)) by apply bpow_gt_0. assert (O : 1 = IZR (2 ^ 53) * bpow radix2 (-53)) by (change (IZR (2 ^ 53)) with (bpow radix2 53); rewrite <- bpow_plus; reflexivity).
    assert (K1 : (2 ^ 53 - 1 < k)%Z). { apply lt_IZR. apply (Rmult_lt_reg_r (bpow radix2 (-53))); [exact P|]. rewrite minus_IZR, Rmult_minus_distr_r, <- O. lra. }
    assert (K2 : (k < 2 ^ 53)%Z). { apply lt_IZR. apply (Rmult_lt_reg_r (bpow radix2 (-53))); [exact P|]. rewrite <- O, <- Ek. lra. }
    lia. }
  destruct (sub_spec (b64_z 1) _ F1 Ft) as [Fd Vd]; [rewrite V1, Vt, Rabs_pos_eq by lra; pose proof big_1; lra|]. rewrite V1, Vt in Vd. fold d in Fd, Vd.
  split; [exact Fd|]. split; [exact Vd|]. split; [lra|]. rewrite Vd. split; [apply rnd_ge; [apply generic_format_bpow; cbn; lia|lra]|apply rnd_le'; [apply fmt_1|lra]].
Qed.
Lemma gap_min f v : fmt f -> fmt v -> 0 <= f < v -> v <= 1 -> bpow radix2 (-53) <= v -> bpow radix2 (-200) <= v - f.
Proof.
  intros Ff Fv H L Hv. destruct (Rle_lt_dec (bpow radix2 (-100)) f) as [G|G].
  - destruct (grid f (-100) Ff ltac:(lia) G) as [k Ek]. destruct (grid v (-100) Fv ltac:(lia) ltac:(lra)) as [j Ej].
    rewrite Ek, Ej in H |- *. rewrite <- Rmult_minus_distr_r, <- minus_IZR. pose proof (bpow_gt_0 radix2 (-100 - 52)) as P.
    assert (K : (1 <= j - k)%Z). { assert (Q : IZR k < IZR j) by (apply (Rmult_lt_reg_r (bpow radix2 (-100 - 52))); lra). apply lt_IZR in Q. lia. }
    apply IZR_le in K. apply Rle_trans with (bpow radix2 (-100 - 52)); [apply bpow_le; lia|nra].
  - assert (bpow radix2 (-100) <= bpow radix2 (-54)) by (apply bpow_le; lia). assert (E : bpow radix2 (-53) = 2 * bpow radix2 (-54)) by (change (-53)%Z with (1 + -54)%Z; rewrite bpow_plus; reflexivity).
    apply Rle_trans with (bpow radix2 (-54)); [apply bpow_le; lia|lra].
Qed.
Lemma estimate_spec f v : fin f -> 0 <= val f < / 2 -> fin v -> 0 <= val v <= 1 ->
  let p := estimate f v in
  fin p /\ val p = Rmin 1 (Rmax 0 (rnd (rnd (val v - val f) / rnd (1 - 2 * val f)))) /\ 0 <= val p <= 1 /\ (val v <= val f -> val p = 0) /\ (val f < val v -> bpow radix2 (-53) <= val v -> bpow radix2 (-200) <= val p) /\
  (1 - val f <= val v -> val p = 1) /\ (/ 2 <= val v -> / 2 <= val p) /\ (val v <= / 2 -> val p <= / 2).
Proof.
  intros Ff Rf Fv Rv p. destruct (denominator f Ff Rf) as (Fd & Vd & Dp & Rd). cbv zeta in *.
  destruct (sub_spec v f Fv Ff) as [Fn Vn]; [pose proof big_1; apply Rabs_le; lra|].
  assert (Rn : -1 <= val (b64_sub v f) <= 1) by (rewrite Vn; split; [apply rnd_ge; [apply (fmt_IZR (-1)); lia|lra]|apply rnd_le'; [apply fmt_1|lra]]).
  unfold p, estimate. set (nm := b64_sub v f) in *. set (d := b64_sub (b64_z 1) (b64_mul (b64_z 2) f)) in *.
  pose proof (bpow_gt_0 radix2 (-53)) as P53. assert (Pd : 0 < val d) by lra.
  assert (Q : Rabs (val nm / val d) <= bpow radix2 53).
  { unfold Rdiv. rewrite Rabs_mult, (Rabs_pos_eq (/ val d)) by (left; now apply Rinv_0_lt_compat). apply (Rmult_le_reg_r (val d)); [exact Pd|]. rewrite Rmult_assoc, Rinv_l, Rmult_1_r by lra.
    apply Rle_trans with 1; [apply Rabs_le; lra|]. replace 1 with (bpow radix2 53 * bpow radix2 (-53)) by (rewrite <- bpow_plus; reflexivity). apply Rmult_le_compat_l; [apply bpow_ge_0|lra]. }
  destruct (div_spec nm d Fn) as [Fr Vr]; [lra|eapply Rle_trans; [exact Q|apply bpow_le; lia]|].
  set (r := b64_div nm d) in *. destruct (z_spec 0 ltac:(lia)) as [F0 V0]. destruct one as [F1 V1].
  assert (Hdiv : forall a, a * val d <= val nm -> a <= val nm / val d).
  { intros a Ha. apply (Rmult_le_reg_r (val d)); [exact Pd|]. unfold Rdiv. rewrite Rmult_assoc, Rinv_l; lra. }
  assert (Hdiv' : forall a, val nm <= a * val d -> val nm / val d <= a).
  { intros a Ha. apply (Rmult_le_reg_r (val d)); [exact Pd|]. unfold Rdiv. rewrite Rmult_assoc, Rinv_l; lra. }
  (* the two branches *)
  set (hi := if Bleb (b64_z 0) r then r else b64_z 0).
  assert (Hhi : fin hi /\ val hi = Rmax 0 (val r)).
  { unfold hi. destruct (Bleb (b64_z 0) r) eqn:E.
    - apply leb_spec in E; auto. rewrite V0 in E. split; [exact Fr|]. rewrite Rmax_right; lra.
    - split; [exact F0|]. rewrite V0. rewrite Rmax_left; [reflexivity|]. destruct (Rle_lt_dec (val r) 0) as [H|H]; [exact H|]. rewrite (proj2 (leb_spec (b64_z 0) r F0 Fr)) in E; [discriminate E|rewrite V0; lra]. }
  destruct Hhi as [Fh Vh].
  set (res := if Bleb hi (b64_z 1) then hi else b64_z 1).
  assert (Hres : fin res /\ val res = Rmin 1 (Rmax 0 (val r))).
  { unfold res. destruct (Bleb hi (b64_z 1)) eqn:E.
    - apply leb_spec in E; auto. rewrite V1 in E. split; [exact Fh|]. rewrite Vh in *. rewrite Rmin_right; lra.
    - split; [exact F1|]. rewrite V1. rewrite Rmin_left; [reflexivity|]. destruct (Rle_lt_dec 1 (Rmax 0 (val r))) as [H|H]; [exact H|]. rewrite (proj2 (leb_spec hi (b64_z 1) Fh F1)) in E; [discriminate E|rewrite V1, Vh; lra]. }
  destruct Hres as [Fres Vres]. split; [exact Fres|]. split; [rewrite Vres, Vr, Vn, Vd; reflexivity|]. rewrite Vres.
  assert (N0 : val v <= val f -> val r <= 0).
  { intro H. rewrite Vr. apply rnd_le'; [apply fmt_0|]. apply Hdiv'. rewrite Rmult_0_l, Vn. apply rnd_le'; [apply fmt_0|lra]. }
  assert (Nmin : val f < val v -> bpow radix2 (-53) <= val v -> bpow radix2 (-200) <= val r).
  { intros H Hv. assert (G := gap_min (val f) (val v) (fmt_val f) (fmt_val v) ltac:(lra) ltac:(lra) Hv).
    rewrite Vr. apply rnd_ge; [apply generic_format_bpow; cbn; lia|]. apply Hdiv. pose proof (bpow_gt_0 radix2 (-200)).
    apply Rle_trans with (bpow radix2 (-200)); [nra|]. rewrite Vn. apply rnd_ge; [apply generic_format_bpow; cbn; lia|exact G]. }
  assert (Big : bpow radix2 (-1000) <= 1 - 2 * val f) by (eapply Rle_trans; [|exact Dp]; apply bpow_le; lia).
  assert (Hd2 : val d / 2 = rnd ((1 - 2 * val f) / 2)) by (rewrite rnd_half by exact Big; now rewrite Vd).
  assert (N1 : 1 - val f <= val v -> 1 <= val r).
  { intro H. rewrite Vr. apply rnd_ge; [apply fmt_1|]. apply Hdiv. rewrite Rmult_1_l, Vn, Vd. apply rnd_le. lra. }
  assert (Nh : / 2 <= val v -> / 2 <= val r).
  { intro H. rewrite Vr. apply rnd_ge; [apply fmt_half|]. apply Hdiv. replace (/ 2 * val d) with (val d / 2) by (unfold Rdiv; ring). rewrite Hd2, Vn. apply rnd_le. lra. }
  assert (Nl : val v <= / 2 -> val r <= / 2).
  { intro H. rewrite Vr. apply rnd_le'; [apply fmt_half|]. apply Hdiv'. replace (/ 2 * val d) with (val d / 2) by (unfold Rdiv; ring). rewrite Hd2, Vn. apply rnd_le. lra. }
  assert (B200 : bpow radix2 (-200) <= 1) by (change 1 with (bpow radix2 0); apply bpow_le; lia). pose proof (bpow_gt_0 radix2 (-200)).
  clear - N0 Nmin N1 Nh Nl B200 H. unfold Rmin, Rmax. set (e := bpow radix2 (-200)) in *. clearbody e.
  destruct (Rle_dec 0 (val r)) as [A|A]; [destruct (Rle_dec 1 (val r)) as [B|B]|destruct (Rle_dec 1 0) as [B|B]]; (split; [lra|]); (split; [intro X; try specialize (N0 X); lra|]);
    (split; [intros X Y; specialize (Nmin X Y); lra|]); (split; [intro X; specialize (N1 X); lra|]); (split; [intro X; specialize (Nh X); lra|]); intro X; specialize (Nl X); lra.
Qed.

(** ** The log ratio of an estimate *)
Lemma eps_spec (l : libm) : fin (feps (Bops l)) /\ val (feps (Bops l)) = bpow radix2 (-52).
Proof.
  change (feps (Bops l)) with (b64_div (b64_z 1) (b64_z 4503599627370496)).
  destruct one as [F1 V1]. destruct (z_spec 4503599627370496 ltac:(lia)) as [F2 V2].
  assert (E : 1 / 4503599627370496 = bpow radix2 (-52)) by (change (bpow radix2 (-52)) with (/ IZR (2 ^ 52)); unfold Rdiv; rewrite Rmult_1_l; reflexivity).
  assert (P := bpow_gt_0 radix2 (-52)). assert (L : bpow radix2 (-52) <= 1) by (change 1 with (bpow radix2 0); apply bpow_le; lia).
  destruct (div_spec (b64_z 1) (b64_z 4503599627370496) F1) as [Fd Vd]; [rewrite V2; lra|rewrite V1, V2, E, Rabs_pos_eq by lra; pose proof big_1; lra|].
  split; [exact Fd|]. rewrite Vd, V1, V2, E. apply rnd_id, generic_format_bpow. cbn. lia.
Qed.
Lemma rest_spec p : fin p -> 0 <= val p <= 1 -> fin (b64_sub (b64_z 1) p) /\ val (b64_sub (b64_z 1) p) = rnd (1 - val p) /\ 0 <= val (b64_sub (b64_z 1) p) <= 1 /\
  (/ 2 <= val p -> val (b64_sub (b64_z 1) p) <= / 2) /\ (val p <= / 2 -> / 2 <= val (b64_sub (b64_z 1) p)) /\
  (val p < 1 -> bpow radix2 (-53) <= val (b64_sub (b64_z 1) p)).
Proof.
  intros Fp Rp. destruct one as [F1 V1]. destruct (sub_spec (b64_z 1) p F1 Fp) as [Fs Vs]; [rewrite V1, Rabs_pos_eq by lra; pose proof big_1; lra|]. rewrite V1 in Vs.
  split; [exact Fs|]. split; [exact Vs|]. rewrite Vs. split; [split; [apply rnd_ge; [apply fmt_0|lra]|apply rnd_le'; [apply fmt_1|lra]]|].
  split; [intro; apply rnd_le'; [apply fmt_half|lra]|]. split; [intro; apply rnd_ge; [apply fmt_half|lra]|]. intro L.
  apply rnd_ge; [apply generic_format_bpow; cbn; lia|]. destruct (Rle_lt_dec (/ 2) (val p)) as [H|H].
  - destruct (grid (val p) (-1) (fmt_val p) ltac:(lia) H) as [k Ek]. change (-1 - 52)%Z with (-53)%Z in Ek.
    assert (P : 0 < bpow radix2 (-53)) by apply bpow_gt_0. assert (O : 1 = IZR (2 ^ 53) * bpow radix2 (-53)) by (change (IZR (2 ^ 53)) with (bpow radix2 53); rewrite <- bpow_plus; reflexivity).
    assert (K : (k < 2 ^ 53)%Z) by (apply lt_IZR, (Rmult_lt_reg_r (bpow radix2 (-53))); [exact P|]; rewrite <- O, <- Ek; lra).
    assert (K' : (k + 1 <= 2 ^ 53)%Z) by lia. apply IZR_le in K'. rewrite plus_IZR in K'.
    assert (Q : (IZR k + 1) * bpow radix2 (-53) <= IZR (2 ^ 53) * bpow radix2 (-53)) by (apply Rmult_le_compat_r; lra). rewrite <- O in Q. rewrite Ek. lra.
  - assert (bpow radix2 (-53) <= / 2) by (change (/ 2) with (bpow radix2 (-1)); apply bpow_le; lia). lra.
Qed.
(** log of a quotient of numbers of ordinary size *)
Lemma log_quot (l : libm) a b : good_log l -> fin a -> fin b -> bpow radix2 (-52) <= val a <= 2 -> bpow radix2 (-52) <= val b <= 2 ->
  let x := l_log l (b64_div a b) in
  fin x /\ Rabs (val x) <= 1000 /\ (val a <= val b -> val x <= 0) /\ (val b <= val a -> 0 <= val x) /\
  (2 * val a <= val b -> val x <= - / 2) /\ (2 * val b <= val a -> / 2 <= val x).
Proof.
  intros G Fa Fb Ra Rb x. pose proof (bpow_gt_0 radix2 (-52)) as P52. assert (Pb : 0 < val b) by lra.
  assert (Hdiv : forall c, c * val b <= val a -> c <= val a / val b) by (intros c H; apply (Rmult_le_reg_r (val b)); [exact Pb|]; unfold Rdiv; rewrite Rmult_assoc, Rinv_l; lra).
  assert (Hdiv' : forall c, val a <= c * val b -> val a / val b <= c) by (intros c H; apply (Rmult_le_reg_r (val b)); [exact Pb|]; unfold Rdiv; rewrite Rmult_assoc, Rinv_l; lra).
  assert (One : 1 = bpow radix2 52 * bpow radix2 (-52)) by (rewrite <- bpow_plus; reflexivity).
  assert (Lo : bpow radix2 (-53) <= val a / val b).
  { apply Hdiv. apply Rle_trans with (bpow radix2 (-53) * 2); [apply Rmult_le_compat_l; [apply bpow_ge_0|lra]|]. change 2 with (bpow radix2 1). rewrite <- bpow_plus. exact (proj1 Ra). }
  assert (Hi : val a / val b <= bpow radix2 53).
  { apply Hdiv'. apply Rle_trans with (bpow radix2 53 * bpow radix2 (-52)); [rewrite <- bpow_plus; exact (proj2 Ra)|apply Rmult_le_compat_l; [apply bpow_ge_0|lra]]. }
  assert (P53 := bpow_gt_0 radix2 (-53)). assert (Bg : bpow radix2 53 <= big) by (apply bpow_le; lia).
  destruct (div_spec a b Fa) as [Fq Vq]; [lra|rewrite Rabs_pos_eq; lra|].
  assert (Pq : 0 < val (b64_div a b)) by (rewrite Vq; apply Rlt_le_trans with (bpow radix2 (-53)); [exact P53|apply rnd_ge; [apply generic_format_bpow; cbn; lia|exact Lo]]).
  destruct (G _ Fq Pq) as (G1 & G2 & G3 & G4 & G5 & G6). unfold x. split; [exact G1|]. split; [exact G2|]. rewrite Vq in G3, G4, G5, G6.
  split; [intro; apply G3, rnd_le'; [apply fmt_1|apply Hdiv'; lra]|]. split; [intro; apply G4, rnd_ge; [apply fmt_1|apply Hdiv; lra]|].
  split; [intro; apply G5, rnd_le'; [apply fmt_half|apply Hdiv'; lra]|]. intro; apply G6, rnd_ge; [apply (fmt_IZR 2); lia|apply Hdiv; lra].
Qed.
Lemma padded (l : libm) a : fin a -> 0 <= val a <= 1 ->
  fin (b64_add a (feps (Bops l))) /\ val (b64_add a (feps (Bops l))) = rnd (val a + bpow radix2 (-52)) /\ bpow radix2 (-52) <= val (b64_add a (feps (Bops l))) <= 2.
Proof.
  intros Fa Ra. destruct (eps_spec l) as [Fe Ve]. assert (L : bpow radix2 (-52) <= 1) by (change 1 with (bpow radix2 0); apply bpow_le; lia). pose proof (bpow_gt_0 radix2 (-52)).
  destruct (add_spec a (feps (Bops l)) Fa Fe) as [Fs Vs]; [rewrite Ve, Rabs_pos_eq by lra; apply Rle_trans with 2; [lra|]; pose proof (big_Z 2 ltac:(lia)) as B; rewrite Rabs_pos_eq in B; lra|].
  rewrite Ve in Vs. split; [exact Fs|]. split; [exact Vs|]. rewrite Vs. split; [apply rnd_ge; [apply generic_format_bpow; cbn; lia|lra]|apply rnd_le'; [apply (fmt_IZR 2); lia|lra]].
Qed.
Lemma eps_small : bpow radix2 (-52) <= / 4.
Proof. change (/ 4) with (bpow radix2 (-2)). apply bpow_le. lia. Qed.
Lemma padded' (l : libm) a : fin a -> 0 <= val a <= 1 ->
  fin (b64_add (feps (Bops l)) a) /\ val (b64_add (feps (Bops l)) a) = rnd (val a + bpow radix2 (-52)) /\ bpow radix2 (-52) <= val (b64_add (feps (Bops l)) a) <= 2.
Proof.
  intros Fa Ra. destruct (eps_spec l) as [Fe Ve]. pose proof eps_small. pose proof (bpow_gt_0 radix2 (-52)).
  destruct (add_spec (feps (Bops l)) a Fe Fa) as [Fs Vs]; [rewrite Ve, Rabs_pos_eq by lra; apply Rle_trans with 2; [lra|]; pose proof (big_Z 2 ltac:(lia)) as B; rewrite Rabs_pos_eq in B; lra|].
  rewrite Ve, Rplus_comm in Vs. split; [exact Fs|]. split; [exact Vs|]. rewrite Vs. split; [apply rnd_ge; [apply generic_format_bpow; cbn; lia|lra]|apply rnd_le'; [apply (fmt_IZR 2); lia|lra]].
Qed.
(** log ((a + eps) / (b + eps)) *)
Lemma ratio_of (l : libm) A B a b : good_log l -> fin A -> fin B -> val A = rnd (a + bpow radix2 (-52)) -> val B = rnd (b + bpow radix2 (-52)) ->
  bpow radix2 (-52) <= val A <= 2 -> bpow radix2 (-52) <= val B <= 2 ->
  let x := l_log l (b64_div A B) in
  fin x /\ Rabs (val x) <= 1000 /\ (a <= b -> val x <= 0) /\ (b <= a -> 0 <= val x) /\ (a = 0 -> b = 1 -> val x <= - / 2) /\ (a = 1 -> b = 0 -> / 2 <= val x).
Proof.
  intros G FA FB VA VB RA RB x.
  destruct (log_quot l _ _ G FA FB RA RB) as (H1 & H2 & H3 & H4 & H5 & H6). cbv zeta in *. fold x in H1, H2, H3, H4, H5, H6. pose proof eps_small as S.
  split; [exact H1|]. split; [exact H2|]. rewrite VA, VB in H3, H4, H5, H6.
  assert (E0 : rnd (0 + bpow radix2 (-52)) = bpow radix2 (-52)) by (rewrite Rplus_0_l; apply rnd_id, generic_format_bpow; cbn; lia).
  assert (E1 : 1 <= rnd (1 + bpow radix2 (-52))) by (apply rnd_ge; [apply fmt_1|pose proof (bpow_gt_0 radix2 (-52)); lra]).
  split; [intro; apply H3, rnd_le; lra|]. split; [intro; apply H4, rnd_le; lra|]. split; intros Ea Eb; rewrite Ea, Eb, E0 in *; [apply H5|apply H6]; lra.
Qed.
Lemma ratio_spec (l : libm) a b : good_log l -> fin a -> fin b -> 0 <= val a <= 1 -> 0 <= val b <= 1 ->
  let x := l_log l (b64_div (b64_add a (feps (Bops l))) (b64_add b (feps (Bops l)))) in
  fin x /\ Rabs (val x) <= 1000 /\ (val a <= val b -> val x <= 0) /\ (val b <= val a -> 0 <= val x) /\
  (val a = 0 -> val b = 1 -> val x <= - / 2) /\ (val a = 1 -> val b = 0 -> / 2 <= val x).
Proof.
  intros G Fa Fb Ra Rb x. destruct (padded l a Fa Ra) as (FA & VA & RA). destruct (padded l b Fb Rb) as (FB & VB & RB). apply ratio_of; assumption.
Qed.
Lemma model_llr_spec (l : libm) p : good_log l -> fin p -> 0 <= val p <= 1 ->
  let x := model_llr (Bops l) p in
  fin x /\ Rabs (val x) <= 1000 /\ (/ 2 <= val p -> val x <= 0) /\ (val p <= / 2 -> 0 <= val x) /\ (val p = 1 -> val x <= - / 2) /\ (val p = 0 -> / 2 <= val x).
Proof.
  intros G Fp Rp x. destruct (rest_spec p Fp Rp) as (Fr & Vr & Rr & Hr & Lr & _). destruct (ratio_spec l (b64_sub (b64_z 1) p) p G Fr Fp Rr Rp) as (H1 & H2 & H3 & H4 & H5 & H6).
  change (l_log l (b64_div (b64_add (b64_sub (b64_z 1) p) (feps (Bops l))) (b64_add p (feps (Bops l))))) with x in *. split; [exact H1|]. split; [exact H2|].
  split; [intro Hp; specialize (Hr Hp); apply H3; lra|]. split; [intro Hp; specialize (Lr Hp); apply H4; lra|]. split; intro E.
  - apply H5; [|exact E]. rewrite Vr, E, Rminus_diag_eq by reflexivity. apply rnd_0.
  - apply H6; [|exact E]. rewrite Vr, E, Rminus_0_r. apply rnd_1.
Qed.

(** ** The entropy of an estimate *)
Lemma estimate_entropy (l : libm) p : good_log l -> fin p -> 0 <= val p <= 1 -> val p = 0 \/ bpow radix2 (-200) <= val p ->
  let h := row_entropy (Bops l) 2 [b64_sub (b64_z 1) p; p] in
  fin h /\ 0 <= val h /\ (val h = 0 <-> val p = 0 \/ val p = 1).
Proof.
  intros G Fp Rp Mp h. destruct (rest_spec p Fp Rp) as (Fr & Vr & Rr & Hr & Lr & Gr).
  assert (Ok2 : row_ok [b64_sub (b64_z 1) p; p]) by (split; [constructor; [split; [exact Fr|exact Rr]|constructor; [split; [exact Fp|exact Rp]|constructor]]|cbn; lia]).
  destruct (Req_dec (val p) 0) as [E0|E0]; [|destruct (Req_dec (val p) 1) as [E1|E1]].
  - destruct (entropy_zero l G 2 [] (b64_sub (b64_z 1) p) [p] ltac:(lia)) as [A B].
    + split; [exact Fr|exact Rr].
    + specialize (Lr ltac:(lra)). lra.
    + constructor; [split; [exact Fp|exact E0]|constructor].
    + change ([] ++ b64_sub (b64_z 1) p :: [p]) with [b64_sub (b64_z 1) p; p] in *. fold h in A, B. rewrite B. split; [exact A|]. split; [lra|tauto].
  - destruct (entropy_zero l G 2 [b64_sub (b64_z 1) p] p [] ltac:(lia)) as [A B].
    + split; [exact Fp|exact Rp].
    + lra.
    + constructor; [split; [exact Fr|]|constructor]. rewrite Vr, E1, Rminus_diag_eq by reflexivity. apply rnd_0.
    + change ([b64_sub (b64_z 1) p] ++ [p]) with [b64_sub (b64_z 1) p; p] in *. fold h in A, B. rewrite B. split; [exact A|]. split; [lra|tauto].
  - assert (Pp : 0 < val p) by lra. destruct (entropy_within l G 2 _ p ltac:(lia) Ok2 ltac:(right; now left) Pp) as [A B]. fold h in A, B. split; [exact A|]. split; [apply B|].
    assert (Pos : 0 < val h).
    { apply (entropy_pos l G 2 [] (b64_sub (b64_z 1) p) [] p []); [lia|exact Ok2| |destruct Mp; [contradiction|assumption]].
      eapply Rle_trans; [|apply Gr; lra]. apply bpow_le. lia. }
    split; [lra|tauto].
Qed.

(** ** The confidence in a model *)
Lemma exp_arg k s : (Z.abs k <= 2 ^ 53)%Z -> fin s -> Rabs (val s) <= bpow radix2 900 -> fin (b64_mul (b64_z k) s) /\ val (b64_mul (b64_z k) s) = rnd (IZR k * val s).
Proof.
  intros Hk Fs Hs. destruct (z_spec k Hk) as [Fk Vk]. destruct (mul_spec (b64_z k) s Fk Fs) as [A B]; [|rewrite Vk in B; split; [exact A|exact B]].
  rewrite Vk, Rabs_mult, <- abs_IZR. apply IZR_le in Hk.
  apply Rle_trans with (IZR (2 ^ 53) * bpow radix2 900); [apply Rmult_le_compat; auto using Rabs_pos; rewrite abs_IZR; apply Rabs_pos|].
  change (IZR (2 ^ 53)) with (bpow radix2 53). rewrite <- bpow_plus. apply bpow_le. lia.
Qed.
Lemma logistic_exp (l : libm) a : good_exp l -> fin a -> let w := logistic (l_exp l a) in
  fin w /\ 0 <= val w <= 1 /\ (val a <= 0 -> / 2 <= val w) /\ (0 <= val a -> val w <= / 2).
Proof.
  intros G Fa w. destruct (G a (fin_not_nan a Fa)) as (G1 & G2 & G3). destruct (logistic_spec (l_exp l a) G1) as (L1 & L2 & L3 & L4).
  split; [exact L1|]. split; [exact L2|]. split.
  - intro H. destruct (G2 Fa H) as [X Y]. apply L3; assumption.
  - intro H. apply L4, G3; assumption.
Qed.
Lemma confidence_spec (l : libm) (c : emle_conf (Bops l)) size : good_exp l -> fin (e_slope _ c) -> Rabs (val (e_slope _ c)) <= bpow radix2 900 ->
  (Z.abs (size - e_center _ c) <= 2 ^ 53)%Z ->
  let w := confidence (Bops l) c size in
  fin w /\ 0 <= val w <= 1 /\ ((size <= 1)%Z -> val w = 0) /\
  (0 <= val (e_slope _ c) -> (2 <= size)%Z -> (e_center _ c <= size)%Z -> / 2 <= val w) /\
  (0 <= val (e_slope _ c) -> (size <= e_center _ c)%Z -> val w <= / 2).
Proof.
  intros G Fs Hs Hk w. destruct (z_spec 0 ltac:(lia)) as [F0 V0]. unfold w, confidence. destruct (Z.leb_spec size 1) as [L|L].
  - change (fz (Bops l) 0) with (b64_z 0). split; [exact F0|]. rewrite V0. repeat split; intros; try lra; try lia.
  - destruct (exp_arg (- (size - e_center _ c)) (e_slope _ c) ltac:(lia) Fs Hs) as [Fa Va].
    destruct (logistic_exp l (b64_mul (b64_z (- (size - e_center _ c))) (e_slope _ c)) G Fa) as (W1 & W2 & W3 & W4).
    change (fdiv (Bops l) (fz (Bops l) 1) (fadd (Bops l) (fz (Bops l) 1) (Float.fexp (Bops l) (fmul (Bops l) (fz (Bops l) (- (size - e_center _ c))) (e_slope _ c)))))
      with (logistic (l_exp l (b64_mul (b64_z (- (size - e_center _ c))) (e_slope _ c)))).
    split; [exact W1|]. split; [exact W2|]. split; [lia|]. rewrite Va in W3, W4. split.
    + intros S2 _ C. apply W3, rnd_le'; [apply fmt_0|]. apply IZR_le in C. rewrite opp_IZR, minus_IZR. nra.
    + intros S2 C. apply W4, rnd_ge; [apply fmt_0|]. apply IZR_le in C. rewrite opp_IZR, minus_IZR. nra.
Qed.

(** ** How far the estimate is from the exact one *)
Definition unit_clip (x : R) : R := Rmin 1 (Rmax 0 x).
Lemma unit_rnd x : unit_clip (rnd x) = rnd (unit_clip x).
Proof.
  unfold unit_clip, Rmin, Rmax. pose proof (rnd_ge 0 fmt_0 x) as A. pose proof (rnd_le' 0 fmt_0 x) as B. pose proof (rnd_ge 1 fmt_1 x) as C. pose proof (rnd_le' 1 fmt_1 x) as D.
  pose proof rnd_0. pose proof rnd_1.
  destruct (Rle_dec 0 x) as [E|E].
  - specialize (A E). destruct (Rle_dec 0 (rnd x)); [|lra]. destruct (Rle_dec 1 x) as [F|F].
    + specialize (C F). destruct (Rle_dec 1 (rnd x)); lra.
    + specialize (D ltac:(lra)). destruct (Rle_dec 1 (rnd x)); lra.
  - specialize (B ltac:(lra)). destruct (Rle_dec 0 (rnd x)); repeat match goal with |- context [Rle_dec ?a ?b] => destruct (Rle_dec a b) end; lra.
Qed.
Lemma unit_lip x y e : Rabs (x - y) <= e -> Rabs (unit_clip x - unit_clip y) <= e.
Proof.
  intro H. apply Rabs_le_inv in H. apply Rabs_le. unfold unit_clip, Rmin, Rmax.
  destruct (Rle_dec 0 x), (Rle_dec 0 y); repeat match goal with |- context [Rle_dec ?a ?b] => destruct (Rle_dec a b) end; lra.
Qed.
Lemma rnd_err x : Rabs x <= 1 -> Rabs (rnd x - x) <= bpow radix2 (-53).
Proof.
  intro H. assert (E := error_le_half_ulp radix2 (FLT_exp (-1074) 53) (fun z => negb (Z.even z)) x). change (round radix2 (FLT_exp (-1074) 53) (Znearest (fun z => negb (Z.even z))) x) with (rnd x) in E.
  eapply Rle_trans; [exact E|]. assert (U : ulp radix2 (FLT_exp (-1074) 53) x <= ulp radix2 (FLT_exp (-1074) 53) (bpow radix2 0)).
  { apply ulp_le; auto with typeclass_instances. change (bpow radix2 0) with 1. rewrite (Rabs_pos_eq 1) by lra. exact H. }
  rewrite ulp_bpow in U. change (FLT_exp (-1074) 53 (0 + 1)) with (-52)%Z in U. change (bpow radix2 (-53)) with (bpow radix2 (-1 + -52)). rewrite bpow_plus. change (bpow radix2 (-1)) with (/ 2). lra.
Qed.
Lemma rnd_rel x : bpow radix2 (-1000) <= x -> Rabs (rnd x - x) <= bpow radix2 (-53) * x.
Proof.
  intro H. assert (Px : 0 < x) by (pose proof (bpow_gt_0 radix2 (-1000)); lra).
  assert (E := relative_error_N_FLT radix2 (-1074) 53 eq_refl (fun z => negb (Z.even z)) x). rewrite (Rabs_pos_eq x) in E by lra.
  assert (Q : bpow radix2 (-53) = / 2 * bpow radix2 (-52)) by (change (-53)%Z with (-1 + -52)%Z; rewrite bpow_plus; reflexivity).
  eapply Rle_trans; [apply E; eapply Rle_trans; [|exact H]; apply bpow_le; lia|]. rewrite Q.
  change (bpow radix2 (Z.opp 53 + 1)) with (bpow radix2 (-52)). lra.
Qed.
Lemma unit_scale y k u : 0 <= u <= / 4 -> Rabs (k - 1) <= u -> Rabs (unit_clip (y * k) - unit_clip y) <= 2 * u.
Proof.
  intros Hu Hk. apply Rabs_le_inv in Hk. destruct (Rle_lt_dec y 0) as [N|N].
  - assert (Z : forall z, z <= 0 -> unit_clip z = 0) by (intros z Hz; unfold unit_clip; rewrite Rmax_left by exact Hz; apply Rmin_right; lra).
    rewrite !Z by nra. rewrite Rminus_diag_eq, Rabs_R0 by reflexivity. lra.
  - destruct (Rle_lt_dec y 2) as [S|S].
    + apply unit_lip. apply Rabs_le. nra.
    + assert (O : forall z, 1 <= z -> unit_clip z = 1) by (intros z Hz; unfold unit_clip; rewrite Rmax_right by lra; apply Rmin_left; lra).
      rewrite !O by nra. rewrite Rminus_diag_eq, Rabs_R0 by reflexivity. lra.
Qed.
Lemma explains_clip f m p : 0 <= f < / 2 -> explains f m p -> p = unit_clip ((m - f) / (1 - 2 * f)).
Proof.
  intros Hf H. assert (D : 0 < 1 - 2 * f) by lra. set (x := (m - f) / (1 - 2 * f)). assert (E : m - f = x * (1 - 2 * f)) by (unfold x; field; lra).
  unfold unit_clip, Rmin, Rmax. destruct H as [[A ->]|[[A ->]|(A & B & C)]].
  - assert (x <= 0) by nra. destruct (Rle_dec 0 x); destruct (Rle_dec 1 x); destruct (Rle_dec 1 0); lra.
  - assert (1 <= x) by nra. destruct (Rle_dec 0 x); destruct (Rle_dec 1 x); destruct (Rle_dec 1 0); lra.
  - assert (x = p) by nra. destruct (Rle_dec 0 x); destruct (Rle_dec 1 x); destruct (Rle_dec 1 0); lra.
Qed.
Lemma estimate_close f v m : fin f -> 0 <= val f < / 2 -> fin v -> 0 <= m <= 1 -> val v = rnd m ->
  Rabs (val (estimate f v) - unit_clip ((m - val f) / (1 - 2 * val f))) <= bpow radix2 (-50) / (1 - 2 * val f).
Proof.
  intros Ff Rf Fv Rm Ev. assert (Rv : 0 <= val v <= 1) by (rewrite Ev; split; [apply rnd_ge; [apply fmt_0|lra]|apply rnd_le'; [apply fmt_1|lra]]).
  destruct (estimate_spec f v Ff Rf Fv Rv) as (_ & E & _). destruct (denominator f Ff Rf) as (_ & _ & Dp & _). cbv zeta in *.
  change (Rmin 1 (Rmax 0 (rnd (rnd (val v - val f) / rnd (1 - 2 * val f))))) with (unit_clip (rnd (rnd (val v - val f) / rnd (1 - 2 * val f)))) in E. rewrite E, unit_rnd. clear E.
  set (D := 1 - 2 * val f) in *. set (e := bpow radix2 (-53)) in *. assert (Pe : 0 < e) by apply bpow_gt_0. assert (Le : e <= / 8) by (change (/ 8) with (bpow radix2 (-3)); apply bpow_le; lia).
  assert (D1 : D <= 1) by (unfold D; lra). assert (PD : 0 < D) by lra.
  assert (E1 : Rabs (val v - m) <= e) by (rewrite Ev; apply rnd_err; apply Rabs_le; lra).
  assert (E2 : Rabs (rnd (val v - val f) - (val v - val f)) <= e) by (apply rnd_err; apply Rabs_le; lra).
  assert (E3 : Rabs (rnd D - D) <= e * D) by (apply rnd_rel; eapply Rle_trans; [|exact Dp]; apply bpow_le; lia).
  apply Rabs_le_inv in E1, E2, E3. set (a := rnd (val v - val f)) in *. set (d := rnd D) in *. assert (Pd : 0 < d) by nra.
  set (y := a / D). set (x := (m - val f) / D).
  assert (Ex : Rabs (y - x) <= 2 * e / D).
  { unfold y, x. replace (a / D - (m - val f) / D) with ((a - (m - val f)) / D) by (field; lra). unfold Rdiv. rewrite Rabs_mult, (Rabs_pos_eq (/ D)) by (left; now apply Rinv_0_lt_compat).
    apply Rmult_le_compat_r; [left; now apply Rinv_0_lt_compat|]. apply Rabs_le. lra. }
  assert (Eq : a / d = y * (D / d)) by (unfold y; field; lra).
  assert (Ek : Rabs (D / d - 1) <= 2 * e).
  { replace (D / d - 1) with ((D - d) / d) by (field; lra). unfold Rdiv. rewrite Rabs_mult, (Rabs_pos_eq (/ d)) by (left; now apply Rinv_0_lt_compat).
    apply (Rmult_le_reg_r d); [exact Pd|]. rewrite Rmult_assoc, Rinv_l, Rmult_1_r by lra. apply Rabs_le. nra. }
  assert (S1 := unit_lip y x _ Ex). assert (S2 := unit_scale y (D / d) (2 * e) ltac:(lra) Ek). rewrite <- Eq in S2.
  assert (S3 : Rabs (rnd (unit_clip (a / d)) - unit_clip (a / d)) <= e).
  { apply rnd_err. unfold unit_clip, Rmin, Rmax. apply Rabs_le. destruct (Rle_dec 0 (a / d)); repeat match goal with |- context [Rle_dec ?a ?b] => destruct (Rle_dec a b) end; lra. }
  assert (Inv : 1 <= / D) by (rewrite <- Rinv_1; apply Rinv_le_contravar; lra).
  assert (E8 : bpow radix2 (-50) = 8 * e) by (unfold e; change (-50)%Z with (3 + -53)%Z; rewrite bpow_plus; reflexivity). rewrite E8.
  apply Rabs_le_inv in S1, S2, S3. unfold Rdiv in *. assert (e <= e * / D) by nra. apply Rabs_le. lra.
Qed.

(** ** The state of the denoiser *)
Lemma estimate_eq (l : libm) (c : emle_conf (Bops l)) v : estimate_of (Bops l) c v = estimate (e_f _ c) v.
Proof. reflexivity. Qed.
Lemma votes_le g v i : (votes g v i <= length g)%nat.
Proof. unfold votes. induction g as [|b g IH]; cbn; [lia|]; destruct (nth i b (-1)%Z =? v)%Z; cbn; lia. Qed.
Lemma row_means_64 (l : libm) n cols i : Forall (bits_of_length n) cols -> (i < n)%nat ->
  nth_error (row_means (Bops l) n cols) i = Some (quot (Z.of_nat (votes cols 1 i)) (Z.of_nat (length cols))).
Proof.
  intros H Hi. unfold row_means. rewrite nth_error_map. rewrite (nth_error_nth' _ 0%nat) by (rewrite seq_length; lia). rewrite seq_nth by lia. cbn [option_map plus].
  rewrite ones_votes; [reflexivity|]. eapply Forall_impl; [|exact H]. intros b [L B]. split; auto. lia.
Qed.
Lemma half_quot (k m : nat) : (0 < m)%nat -> ((m <= 2 * k)%nat -> / 2 <= INR k / INR m) /\ ((2 * k <= m)%nat -> INR k / INR m <= / 2).
Proof.
  intro Pm. apply lt_INR in Pm. cbn [INR] in Pm. split; intro H; apply le_INR in H; rewrite mult_INR in H; cbn [INR] in H; apply (Rmult_le_reg_r (INR m)); try exact Pm;
    unfold Rdiv; rewrite Rmult_assoc, Rinv_l by lra; lra.
Qed.
Lemma know_bit (l : libm) f k m : good_log l -> fin f -> 0 <= val f < / 2 -> (k <= m)%nat -> (0 < m)%nat -> (Z.of_nat m <= 2 ^ 53)%Z ->
  let p := estimate f (quot (Z.of_nat k) (Z.of_nat m)) in knows_bit f k m p (row_entropy (Bops l) 2 [b64_sub (b64_z 1) p; p]).
Proof.
  intros G Ff Rf L Pm Bm p. destruct (quot_spec (Z.of_nat k) (Z.of_nat m) ltac:(lia) ltac:(lia)) as (Fv & Vv & Rv & Zv & Ov). cbv zeta in *. fold (quot (Z.of_nat k) (Z.of_nat m)) in *.
  rewrite <- !INR_IZR_INZ in Vv. set (v := quot (Z.of_nat k) (Z.of_nat m)) in *.
  destruct (estimate_spec f v Ff Rf Fv Rv) as (P1 & _ & P2 & P3 & P4 & P5 & P6 & P7). cbv zeta in *. fold p in P1, P2, P3, P4, P5, P6, P7.
  destruct (half_quot k m Pm) as [Hh Hl]. pose proof (bpow_gt_0 radix2 (-200)) as B200.
  assert (Mv : 0 < val v -> bpow radix2 (-53) <= val v).
  { intro H. rewrite Vv. apply rnd_ge; [apply generic_format_bpow; cbn; lia|]. assert (K : (1 <= k)%nat) by (destruct k; [exfalso; pose proof (proj2 Zv eq_refl); lra|lia]).
    change (bpow radix2 (-53)) with (/ IZR (2 ^ 53)). apply le_INR in K. change (INR 1) with 1 in K. apply lt_INR in Pm. cbn [INR] in Pm. apply IZR_le in Bm. rewrite <- INR_IZR_INZ in Bm.
    apply Rle_trans with (1 * / INR m); [rewrite Rmult_1_l; now apply Rinv_le_contravar|]. apply Rmult_le_compat_r; [left; now apply Rinv_0_lt_compat|exact K]. }
  assert (Min : val p = 0 \/ bpow radix2 (-200) <= val p).
  { destruct (Rle_lt_dec (val v) (val f)) as [A|A]; [left; auto|right]. apply P4; [exact A|]. apply Mv. lra. }
  split; [exact P1|]. split; [exact P2|]. split; [|split; [|split; [|split; [|split]]]].
  - rewrite <- Vv. split; [|exact P3]. intro E. destruct (Rle_lt_dec (val v) (val f)) as [A|A]; [exact A|]. specialize (P4 A ltac:(apply Mv; lra)). lra.
  - intros ->. apply P5. rewrite (proj2 Ov eq_refl). lra.
  - intro H. apply P6. rewrite Vv. apply rnd_ge; [apply fmt_half|auto].
  - intro H. apply P7. rewrite Vv. apply rnd_le'; [apply fmt_half|auto].
  - intros q Eq. rewrite (explains_clip _ _ _ Rf Eq). apply estimate_close; auto. pose proof (quot_range (Z.of_nat k) (Z.of_nat m) ltac:(lia) ltac:(lia)) as R. rewrite <- !INR_IZR_INZ in R. exact R.
  - apply estimate_entropy; auto.
Qed.
Lemma emle_bits (l : libm) (c : emle_conf (Bops l)) n obs s i : good_log l -> fin (e_f _ c) -> 0 <= val (e_f _ c) < / 2 -> obs <> [] -> Forall (bits_of_length n) obs ->
  (Z.of_nat (length obs) <= 2 ^ 53)%Z -> emle_inv (Bops l) c n obs s -> (i < n)%nat ->
  let g := in_window (e_window _ c) obs in
  exists p h, nth_error (e_p1 _ s) i = Some p /\ nth_error (e_entropy _ s) i = Some h /\ knows_bit (e_f _ c) (votes g 1 i) (length g) p h.
Proof.
  intros G Ff Rf Hne Hobs B (_ & _ & Hp & He) Hi g.
  assert (Hg : Forall (bits_of_length n) g). { apply Forall_forall. intros b Hb. rewrite Forall_forall in Hobs. eapply Hobs, in_window_in, Hb. }
  assert (Lg : (0 < length g <= length obs)%nat).
  { unfold g. rewrite in_window_length. assert (1 <= length obs)%nat by (destruct obs; [congruence|cbn; lia]). destruct (Z.ltb_spec 0 (e_window _ c)); lia. }
  set (v := quot (Z.of_nat (votes g 1 i)) (Z.of_nat (length g))).
  assert (Ep : nth_error (e_p1 _ s) i = Some (estimate (e_f _ c) v)).
  { rewrite Hp. destruct obs as [|o t]; [congruence|]. fold g. rewrite nth_error_map, (row_means_64 l n g i Hg Hi). reflexivity. }
  exists (estimate (e_f _ c) v), (row_entropy (Bops l) 2 [b64_sub (b64_z 1) (estimate (e_f _ c) v); estimate (e_f _ c) v]). split; [exact Ep|]. split; [rewrite He, nth_error_map, Ep; reflexivity|].
  apply know_bit; auto; [apply votes_le|lia|lia].
Qed.

(** ** Adding an opinion *)
Lemma shift_spec x w z : fin x -> Rabs (val x) <= bpow radix2 1000 -> fin w -> 0 <= val w <= 1 -> fin z -> Rabs (val z) <= 1000 ->
  let y := b64_add x (b64_mul w z) in
  fin y /\ Rabs (val y) <= bpow radix2 1001 /\ (0 <= val z -> val x <= val y) /\ (val z <= 0 -> val y <= val x) /\
  (/ 2 <= val w -> / 2 <= val z -> rnd (val x + / 4) <= val y) /\ (/ 2 <= val w -> val z <= - / 2 -> val y <= rnd (val x - / 4)) /\
  (val x = 0 -> Rabs (val y) <= 1000).
Proof.
  intros Fx Bx Fw Rw Fz Bz y. apply Rabs_le_inv in Bz, Bx. assert (B1000 : bpow radix2 1000 + 1000 <= bpow radix2 1001).
  { change 1001%Z with (1 + 1000)%Z. rewrite bpow_plus. change (bpow radix2 1) with 2. assert (bpow radix2 10 <= bpow radix2 1000) by (apply bpow_le; lia). change (bpow radix2 10) with 1024 in H. lra. }
  assert (Bb : bpow radix2 1001 <= big) by (apply bpow_le; lia).
  assert (Rp : -1000 <= val w * val z <= 1000) by nra.
  destruct (mul_spec w z Fw Fz) as [Fm Vm]; [pose proof (bpow_ge_0 radix2 1000); apply Rabs_le; lra|].
  assert (Rm : -1000 <= val (b64_mul w z) <= 1000) by (rewrite Vm; split; [apply rnd_ge; [apply (fmt_IZR (-1000)); lia|lra]|apply rnd_le'; [apply (fmt_IZR 1000); lia|lra]]).
  destruct (add_spec x (b64_mul w z) Fx Fm) as [Fy Vy]; [apply Rabs_le; lra|]. fold y in Fy, Vy. split; [exact Fy|]. rewrite Vy.
  assert (F1001 : fmt (bpow radix2 1001)) by (apply generic_format_bpow; cbn; lia).
  assert (F4 : fmt (/ 4)) by (change (/ 4) with (bpow radix2 (-2)); apply generic_format_bpow; cbn; lia).
  split. { apply Rabs_le. split; [apply rnd_ge; [apply generic_format_opp, F1001|lra]|apply rnd_le'; [exact F1001|lra]]. }
  split. { intro H. apply rnd_ge; [apply fmt_val|]. assert (0 <= val (b64_mul w z)); [rewrite Vm; apply rnd_ge; [apply fmt_0|nra]|lra]. }
  split. { intro H. apply rnd_le'; [apply fmt_val|]. assert (val (b64_mul w z) <= 0); [rewrite Vm; apply rnd_le'; [apply fmt_0|nra]|lra]. }
  split; [|split].
  - intros Hw Hz. apply rnd_le. assert (/ 4 <= val (b64_mul w z)); [rewrite Vm; apply rnd_ge; [exact F4|nra]|lra].
  - intros Hw Hz. apply rnd_le. assert (val (b64_mul w z) <= - / 4); [rewrite Vm; apply rnd_le'; [apply generic_format_opp, F4|nra]|lra].
  - intros ->. rewrite Rplus_0_l. apply Rabs_le. split; [apply rnd_ge; [apply (fmt_IZR (-1000)); lia|lra]|apply rnd_le'; [apply (fmt_IZR 1000); lia|lra]].
Qed.

Lemma predict_64 (l : libm) (c : emle_conf (Bops l)) n obs s (llr : list b64) : good_exp l -> good_log l -> sane c -> Forall (bits_of_length n) obs -> (Z.of_nat (length obs) <= 2 ^ 52)%Z ->
  emle_inv (Bops l) c n obs s -> length llr = n -> Forall modest llr ->
  let g := in_window (e_window _ c) obs in let size := Z.of_nat (admitted (e_window _ c) (length obs)) in
  exists out : list b64, predict (Bops l) c s llr = Ok out /\ length out = n /\
    forall i x, nth_error llr i = Some x -> exists y, nth_error out i = Some y /\ fin y /\ Rabs (val y) <= bpow radix2 1001 /\
      ((2 * votes g 1 i <= length g)%nat -> val x <= val y) /\ ((length g <= 2 * votes g 1 i)%nat -> val y <= val x) /\
      (fin (e_threshold _ c) -> 0 < val (e_threshold _ c) -> 0 <= val (e_slope _ c) -> (2 <= size)%Z -> (e_center _ c <= size)%Z ->
        (votes g 1 i = 0%nat -> rnd (val x + / 4) <= val y) /\ (votes g 1 i = length g -> val y <= rnd (val x - / 4))).
Proof.
  intros Ge Gl [[Ff Rf] (Fs & Bs & Bc)] Hobs B I Ll Hl g size.
  assert (Same : forall x : b64, modest x -> fin x /\ Rabs (val x) <= bpow radix2 1001 /\ val x <= val x).
  { intros x [Fx Bx]. split; [exact Fx|]. split; [eapply Rle_trans; [exact Bx|apply bpow_le; lia]|lra]. }
  assert (Hm : forall i x, nth_error llr i = Some x -> modest x) by (intros i x E; rewrite Forall_forall in Hl; apply Hl; eapply nth_error_In, E).
  assert (Hsz : (Z.abs (size - e_center _ c) <= 2 ^ 53)%Z).
  { unfold size, admitted. destruct (e_window _ c =? 0)%Z; lia. }
  destruct (confidence_spec l c size Ge Fs Bs Hsz) as (Fw & Rw & _ & W1 & _). cbv zeta in *.
  destruct (list_eq_dec (list_eq_dec Z.eq_dec) obs []) as [Eo|Hne].
  { destruct I as (_ & Es & Ep & Ee). rewrite Eo in Ep. exists llr. unfold predict. rewrite Ee, Ep. cbn [map existsb negb]. split; [reflexivity|]. split; [exact Ll|]. intros i x E. exists x. split; [exact E|].
    destruct (Same x (Hm i x E)) as (S1 & S2 & S3). split; [exact S1|]. split; [exact S2|]. split; [auto|]. split; [auto|]. intros _ _ _ Sz _. exfalso. unfold size, admitted in Sz. rewrite Eo in Sz. cbn [length] in Sz. destruct (e_window _ c =? 0)%Z; lia. }
  assert (Bits : forall i, (i < n)%nat -> exists p h, nth_error (e_p1 _ s) i = Some p /\ nth_error (e_entropy _ s) i = Some h /\ knows_bit (e_f _ c) (votes g 1 i) (length g) p h).
  { intros i Hi. apply (emle_bits l c n obs s i); auto. lia. }
  destruct (p1_length (Bops l) c n obs s Hne I) as [Lp Le]. destruct I as (_ & Es & _).
  assert (Lt : forall i x, nth_error llr i = Some x -> (i < n)%nat) by (intros i x E; rewrite <- Ll; apply nth_error_Some; congruence).
  (* constant bits are structural *)
  assert (Const : forall i h, nth_error (e_entropy _ s) i = Some h -> (i < n)%nat -> fin (e_threshold _ c) -> 0 < val (e_threshold _ c) -> votes g 1 i = 0%nat \/ votes g 1 i = length g ->
    Bltb h (e_threshold _ c) = true).
  { intros i h Eh Hi Ft Pt V. destruct (Bits i Hi) as (p & h' & _ & Eh' & K). rewrite Eh in Eh'. injection Eh' as <-. destruct K as (_ & _ & K0 & K1 & _ & _ & _ & Kf & _ & Kz).
    apply ltb_spec; auto. assert (val h = 0); [|lra]. apply Kz. destruct V as [V|V]; [left|right; auto]. apply K0. rewrite V. unfold Rdiv. cbn [INR]. rewrite Rmult_0_l, rnd_0. lra. }
  set (structural := map (fun h => flt (Bops l) h (e_threshold _ c)) (e_entropy _ s)).
  assert (Unchanged : (forall i, (i < n)%nat -> fin (e_threshold _ c) -> 0 < val (e_threshold _ c) -> 0 <= val (e_slope _ c) -> (2 <= size)%Z -> (e_center _ c <= size)%Z ->
      ~ (votes g 1 i = 0%nat \/ votes g 1 i = length g)) -> predict (Bops l) c s llr = Ok llr -> exists out : list b64, predict (Bops l) c s llr = Ok out /\ length out = n /\
    forall i x, nth_error llr i = Some x -> exists y, nth_error out i = Some y /\ fin y /\ Rabs (val y) <= bpow radix2 1001 /\
      ((2 * votes g 1 i <= length g)%nat -> val x <= val y) /\ ((length g <= 2 * votes g 1 i)%nat -> val y <= val x) /\
      (fin (e_threshold _ c) -> 0 < val (e_threshold _ c) -> 0 <= val (e_slope _ c) -> (2 <= size)%Z -> (e_center _ c <= size)%Z ->
        (votes g 1 i = 0%nat -> rnd (val x + / 4) <= val y) /\ (votes g 1 i = length g -> val y <= rnd (val x - / 4)))).
  { intros No E. exists llr. split; [exact E|]. split; [exact Ll|]. intros i x Ex. exists x. split; [exact Ex|]. destruct (Same x (Hm i x Ex)) as (S1 & S2 & S3).
    split; [exact S1|]. split; [exact S2|]. split; [auto|]. split; [auto|]. intros A1 A2 A3 A4 A5. specialize (No i (Lt i x Ex) A1 A2 A3 A4 A5). split; intro; exfalso; auto. }
  unfold predict in Unchanged |- *. fold structural in Unchanged |- *. destruct (existsb (fun b => b) structural) eqn:Ex; cbn [negb] in Unchanged |- *.
  2:{ apply Unchanged; [|reflexivity]. intros i Hi A1 A2 _ _ _ V. destruct (Bits i Hi) as (p & h & _ & Eh & _). specialize (Const i h Eh Hi A1 A2 V).
      assert (X : existsb (fun b => b) structural = true); [|congruence]. apply existsb_exists. exists true. split; [|reflexivity]. unfold structural. apply in_map_iff. exists h. split; [exact Const|eapply nth_error_In, Eh]. }
  rewrite Es in Unchanged |- *. fold size in Unchanged |- *. destruct (flt (Bops l) (fz (Bops l) 0) (confidence (Bops l) c size)) eqn:Ew.
  2:{ apply Unchanged; [|reflexivity]. intros i Hi A1 A2 A3 A4 A5 V. specialize (W1 A3 A4 A5). destruct (z_spec 0 ltac:(lia)) as [F0 V0].
      assert (X : Bltb (b64_z 0) (confidence (Bops l) c size) = true) by (apply ltb_spec; auto; rewrite V0; lra). change (flt (Bops l) (fz (Bops l) 0) (confidence (Bops l) c size) = true) in X. congruence. }
  clear Unchanged. set (w := confidence (Bops l) c size) in *.
  assert (Ls : length structural = n) by (unfold structural; rewrite map_length; exact Le). change (F (Bops l)) with b64 in *.
  rewrite Ll, Ls, Nat.eqb_refl. eexists. split; [reflexivity|].
  assert (Lc : length (combine structural (e_p1 _ s)) = n) by (rewrite combine_length, Ls; change (F (Bops l)) with b64 in *; rewrite Lp; lia).
  split; [rewrite zip_with_length; change (F (Bops l)) with b64 in *; lia|].
  intros i x Exi. pose proof (Lt i x Exi) as Hi. destruct (Bits i Hi) as (p & h & Ep & Eh & K).
  assert (Est : nth_error structural i = Some (Bltb h (e_threshold _ c))) by (unfold structural; rewrite nth_error_map, Eh; reflexivity).
  exists (if Bltb h (e_threshold _ c) then b64_add x (b64_mul w (model_llr (Bops l) p)) else x).
  split. { rewrite (nth_error_nth' _ x) by (rewrite zip_with_length; change (F (Bops l)) with b64 in *; lia). f_equal.
    rewrite (zip_with_nth _ _ _ _ x (false, p)) by (change (F (Bops l)) with b64 in *; lia). rewrite (nth_error_nth _ _ _ Exi).
    rewrite combine_nth by (rewrite Ls; symmetry; exact Lp). rewrite (nth_error_nth _ _ _ Est), (nth_error_nth _ _ _ Ep). reflexivity. }
  pose proof (Const i h Eh Hi) as Con. destruct K as (K1 & K2 & K3 & K4 & K5 & K6 & _). destruct (Hm i x Exi) as [Fx Bx].
  destruct (model_llr_spec l p Gl K1 K2) as (M1 & M2 & M3 & M4 & M5 & M6). cbv zeta in *.
  destruct (shift_spec x w (model_llr (Bops l) p) Fx Bx Fw Rw M1 M2) as (H1 & H2 & H3 & H4 & H5 & H6 & _). cbv zeta in *.
  destruct (Bltb h (e_threshold _ c)) eqn:Et.
  - split; [exact H1|]. split; [exact H2|]. split; [auto|]. split; [auto|]. intros A1 A2 A3 A4 A5. specialize (W1 A3 A4 A5). split; intro V.
    + apply H5; [exact W1|]. apply M6, K3. rewrite V. unfold Rdiv. cbn [INR]. rewrite Rmult_0_l, rnd_0. lra.
    + apply H6; [exact W1|]. apply M5, K4, V.
  - destruct (Same x (conj Fx Bx)) as (S1 & S2 & S3). split; [exact S1|]. split; [exact S2|]. split; [auto|]. split; [auto|]. intros A1 A2 _ _ _. specialize (Con A1 A2). split; intro V; exfalso; [specialize (Con (or_introl V))|specialize (Con (or_intror V))]; discriminate Con.
Qed.

(** ** Hard input *)
Lemma channel_llr (l : libm) f : good_log l -> fin f -> bpow radix2 (-900) <= val f <= / 3 ->
  let L := l_log l (b64_div (b64_sub (b64_z 1) f) f) in fin L /\ / 2 <= val L <= 1000.
Proof.
  intros G Ff Rf L. assert (P : 0 < bpow radix2 (-900)) by apply bpow_gt_0. assert (Pf : 0 < val f) by lra.
  destruct (rest_spec f Ff ltac:(lra)) as (Fr & Vr & Rr & _). set (r := b64_sub (b64_z 1) f) in *.
  assert (Lo : 2 * val f <= val r).
  { rewrite Vr. destruct (z_spec 2 ltac:(lia)) as [F2 V2]. apply rnd_ge; [|lra]. rewrite Rmult_comm. change 2 with (bpow radix2 1).
    assert (E := fmt_val f). assert (FLT_format radix2 (-1074) 53 (val f)) as [g Eg Eb Ee] by (apply FLT_format_generic; [reflexivity|exact E]).
    apply generic_format_FLT. exists (Float radix2 (Fnum g) (Fexp g + 1)); cbn [Fnum Fexp]; [|exact Eb|lia].
    rewrite Eg. unfold F2R. cbn [Fnum Fexp]. rewrite bpow_plus. ring. }
  assert (Q : 2 <= val r / val f <= bpow radix2 900).
  { split; apply (Rmult_le_reg_r (val f)); try exact Pf; unfold Rdiv; rewrite Rmult_assoc, Rinv_l, Rmult_1_r by lra; [exact Lo|].
    apply Rle_trans with (bpow radix2 900 * bpow radix2 (-900)); [rewrite <- bpow_plus; change (bpow radix2 (900 + -900)) with 1; lra|apply Rmult_le_compat_l; [apply bpow_ge_0|lra]]. }
  destruct (div_spec r f Fr) as [Fq Vq]; [lra|rewrite Rabs_pos_eq by lra; eapply Rle_trans; [apply Q|apply bpow_le; lia]|].
  assert (Q2 : 2 <= val (b64_div r f)) by (rewrite Vq; apply rnd_ge; [apply (fmt_IZR 2); lia|apply Q]).
  destruct (G (b64_div r f) Fq ltac:(lra)) as (G1 & G2 & _ & _ & _ & G6). apply Rabs_le_inv in G2. split; [exact G1|]. split; [apply G6, Q2|apply G2].
Qed.
Lemma sign_mul s L : (s = 1 \/ s = -1)%Z -> fin L -> 0 <= val L <= 1000 -> fin (b64_mul (b64_z s) L) /\ val (b64_mul (b64_z s) L) = IZR s * val L.
Proof.
  intros Hs FL RL. destruct (z_spec s ltac:(lia)) as [Fs Vs]. assert (B : 1000 <= big) by (pose proof (big_Z 1000 ltac:(lia)) as X; rewrite Rabs_pos_eq in X; lra).
  destruct (mul_spec (b64_z s) L Fs FL) as [Fm Vm]; [rewrite Vs; destruct Hs as [-> | -> ]; apply Rabs_le; lra|]. split; [exact Fm|]. rewrite Vm, Vs. apply rnd_id.
  destruct Hs as [-> | -> ]; [rewrite Rmult_1_l; apply fmt_val|]. replace (-1 * val L) with (- val L) by ring. apply generic_format_opp, fmt_val.
Qed.
Lemma bsc_llr_64 (l : libm) f bits : good_log l -> fin f -> bpow radix2 (-900) <= val f <= / 3 -> Forall is_bit bits ->
  exists llr : list b64, bsc_llr (Bops l) f bits = Ok llr /\ length llr = length bits /\ Forall modest llr /\
    forall i b, nth_error bits i = Some b -> exists x, nth_error llr i = Some x /\ (b = 0%Z -> / 2 <= val x) /\ (b = 1%Z -> val x <= - / 2).
Proof.
  intros G Ff Rf Hb. destruct (channel_llr l f G Ff Rf) as [FL RL]. cbv zeta in *. set (L := l_log l (b64_div (b64_sub (b64_z 1) f) f)) in *.
  assert (Nb : existsb (fun b => (b <? 0)%Z) bits = false).
  { destruct (existsb _ bits) eqn:E; [|reflexivity]. apply existsb_exists in E as (b & Ib & E). rewrite Forall_forall in Hb. destruct (Hb b Ib) as [-> | -> ]; discriminate E. }
  exists (map (fun b => b64_mul (b64_z (if Z.even b then 1 else -1)) L) bits). unfold bsc_llr. rewrite Nb. split; [reflexivity|]. split; [apply map_length|].
  assert (S : forall b, fin (b64_mul (b64_z (if Z.even b then 1 else -1)) L) /\ val (b64_mul (b64_z (if Z.even b then 1 else -1)) L) = IZR (if Z.even b then 1 else -1) * val L).
  { intro b. apply sign_mul; [destruct (Z.even b); auto|exact FL|lra]. }
  split.
  - apply Forall_forall. intros x Hx. apply in_map_iff in Hx as (b & <- & _). destruct (S b) as [A B]. split; [exact A|]. rewrite B. assert (1000 <= bpow radix2 1000).
    { apply Rle_trans with (bpow radix2 10); [change (bpow radix2 10) with 1024; lra|apply bpow_le; lia]. }
    destruct (Z.even b); apply Rabs_le; lra.
  - intros i b E. destruct (S b) as [A B]. eexists. split; [apply map_nth_error, E|]. rewrite B. split; intros ->; cbn [Z.even]; lra.
Qed.
Lemma signs_spec (l : libm) (est : list b64) i y : nth_error est i = Some y -> fin y -> nth_error (signs (Bops l) est) i = Some (if Rlt_dec (val y) 0 then 1%Z else 0%Z).
Proof.
  intros E Fy. unfold signs. destruct (z_spec 0 ltac:(lia)) as [F0 V0].
  refine (eq_trans (map_nth_error (fun x : b64 => if Bltb x (b64_z 0) then 1%Z else 0%Z) i est E) _). f_equal. destruct (Bltb y (b64_z 0)) eqn:Q.
  - apply ltb_spec in Q; auto. rewrite V0 in Q. destruct (Rlt_dec (val y) 0); [reflexivity|contradiction].
  - destruct (Rlt_dec (val y) 0) as [H|H]; [|reflexivity]. rewrite <- V0 in H. apply ltb_spec in H; auto. congruence.
Qed.
Lemma signs_bits (l : libm) est : Forall is_bit (signs (Bops l) est).
Proof. apply Forall_forall. intros b H. apply in_map_iff in H as (x & <- & _). destruct (flt _ x _); [right|left]; reflexivity. Qed.
