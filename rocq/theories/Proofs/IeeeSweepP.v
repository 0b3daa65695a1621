(** Lemmas about flip probabilities and numbers of errors in double precision, and a correctly rounded library. *)
From Coq Require Import List NArith ZArith Reals Bool Lia Lra.
From Flocq Require Import Core IEEE754.BinarySingleNaN.
From Verif.Model Require Import Py Float Sweep.
From Verif.Spec Require Import RealOps IeeeOps.
From Verif.Proofs Require Import Base IeeeP IeeeInfoP IeeeHellP.
Import ListNotations.
Open Scope R_scope.

(** ** int(n * p) *)
Lemma trunc_val (x : b64) : 0 <= val x -> Btrunc x = Zfloor (val x).
Proof.
  intro H. apply eq_IZR. rewrite Btrunc_correct by exact prec_small. unfold round, scaled_mantissa, cexp, FIX_exp, F2R. cbn [Fnum Fexp Z.opp bpow].
  rewrite !Rmult_1_r. f_equal. apply Ztrunc_floor. exact H.
Qed.
Lemma errors_spec (l : libm) n p : (0 <= n <= 2 ^ 53)%Z -> fin p -> 0 <= val p <= 1 ->
  exists z, no_errors (Bops l) b64_int n p = Ok z /\ z = Zfloor (rnd (IZR n * val p)) /\ (0 <= z <= n)%Z /\
    (Zfloor (IZR n * val p) <= z <= Zfloor (IZR n * val p) + 1)%Z.
Proof.
  intros Hn Fp Rp. destruct (z_spec n ltac:(lia)) as [Fn Vn].
  assert (N0 : 0 <= IZR n) by (apply IZR_le; lia).
  assert (R : 0 <= IZR n * val p <= IZR n) by nra.
  destruct (mul_spec (b64_z n) p Fn Fp) as [Fx Vx].
  { rewrite Vn. apply big_53. split; [lra|]. apply Rle_trans with (IZR n); [lra|apply IZR_le; lia]. }
  rewrite Vn in Vx.
  assert (P0 : 0 <= rnd (IZR n * val p)) by (apply rnd_ge; [apply fmt_0|lra]).
  assert (P1 : rnd (IZR n * val p) <= IZR n) by (apply rnd_le'; [apply fmt_IZR; lia|lra]).
  exists (Zfloor (rnd (IZR n * val p))). split.
  { unfold no_errors. change (fmul (Bops l)) with b64_mul. change (fz (Bops l)) with b64_z. unfold b64_int. unfold fin in Fx. rewrite Fx. f_equal.
    rewrite trunc_val by (rewrite Vx; exact P0). now rewrite Vx. }
  split; [reflexivity|].
  assert (L0 : (0 <= Zfloor (rnd (IZR n * val p)))%Z) by (apply Zfloor_lub; exact P0).
  assert (L1 : (Zfloor (rnd (IZR n * val p)) <= n)%Z).
  { apply le_IZR. eapply Rle_trans; [apply Zfloor_lb|exact P1]. }
  split; [lia|]. set (f := Zfloor (IZR n * val p)).
  assert (Hf : (0 <= f <= n)%Z) by (unfold f; split; [apply Zfloor_lub; lra|apply le_IZR; eapply Rle_trans; [apply Zfloor_lb|lra]]).
  assert (Lf : IZR f <= IZR n * val p) by apply Zfloor_lb.
  assert (Uf : IZR n * val p < IZR f + 1) by apply Zfloor_ub.
  split.
  - apply Zfloor_lub. apply rnd_ge; [apply fmt_IZR; lia|exact Lf].
  - destruct (Z.eq_dec f n) as [E|E]; [lia|]. apply le_IZR. eapply Rle_trans; [apply Zfloor_lb|]. apply rnd_le'; [apply fmt_IZR; lia|]. rewrite plus_IZR. lra.
Qed.
Lemma errors_mono n p q : (0 <= n)%Z -> val p <= val q -> (Zfloor (rnd (IZR n * val p)) <= Zfloor (rnd (IZR n * val q)))%Z.
Proof. intros Hn H. apply Zfloor_le, rnd_le. apply Rmult_le_compat_l; [apply IZR_le; lia|exact H]. Qed.
Lemma errors_quot k n : (0 <= k <= n)%Z -> (0 < n <= 2 ^ 51)%Z ->
  (k - 1 <= Zfloor (rnd (IZR n * val (quot k n))) <= k)%Z.
Proof.
  intros Hk Hn. destruct (quot_spec k n Hk ltac:(lia)) as (_ & V & _ & _ & _). fold (quot k n) in V. rewrite V.
  assert (Pn : 0 < IZR n) by (apply IZR_lt; lia).
  destruct (Z.eq_dec k 0) as [->|Nk].
  { replace (0 / IZR n) with 0 by (field; lra). rewrite rnd_0, Rmult_0_r, rnd_0. rewrite Zfloor_IZR. lia. }
  assert (Pk : 1 <= IZR k) by (apply IZR_le; lia).
  assert (Qm : bpow radix2 (-1000) <= IZR k / IZR n).
  { apply Rle_trans with (bpow radix2 (-52)); [apply bpow_le; lia|]. change (bpow radix2 (-52)) with (/ IZR (2 ^ 52)).
    rewrite <- (Rmult_1_l (/ IZR (2 ^ 52))). apply Rmult_le_compat; [lra|left; apply Rinv_0_lt_compat, IZR_lt; lia|lra|]. apply Rinv_le; [exact Pn|apply IZR_le; lia]. }
  pose proof (rnd_up _ Qm) as [Q1 Q2].
  assert (C : IZR n * (IZR k / IZR n) = IZR k) by (field; lra).
  assert (U : IZR k * u <= / 2).
  { rewrite u_val. assert (IZR k <= IZR (2 ^ 52)) by (apply IZR_le; lia). apply Rle_trans with (IZR (2 ^ 52) * / IZR (2 ^ 53)).
    - apply Rmult_le_compat_r; [left; apply Rinv_0_lt_compat, IZR_lt; lia|lra].
    - change (2 ^ 53)%Z with (2 * 2 ^ 52)%Z. rewrite mult_IZR. assert (0 < IZR (2 ^ 52)) by (apply IZR_lt; lia). right. field. lra. }
  set (q := rnd (IZR k / IZR n)) in *. clearbody q. pose proof u_small as Us.
  assert (B1 : IZR k - / 2 <= IZR n * q).
  { apply Rle_trans with (IZR n * (IZR k / IZR n * (1 - u))); [|apply Rmult_le_compat_l; lra]. rewrite <- Rmult_assoc, C. lra. }
  assert (B2 : IZR n * q <= IZR k + / 2).
  { apply Rle_trans with (IZR n * (IZR k / IZR n * (1 + u))); [apply Rmult_le_compat_l; lra|]. rewrite <- Rmult_assoc, C. lra. }
  assert (H2 : forall z, IZR z / 2 = IZR z * bpow radix2 (-1)) by (intro; reflexivity).
  assert (F1 : fmt (IZR k - / 2)).
  { replace (IZR k - / 2) with (IZR (2 * k - 1) * bpow radix2 (-1)) by (rewrite <- H2, minus_IZR, mult_IZR; lra). apply fmt_F2R; lia. }
  assert (F2 : fmt (IZR k + / 2)).
  { replace (IZR k + / 2) with (IZR (2 * k + 1) * bpow radix2 (-1)) by (rewrite <- H2, plus_IZR, mult_IZR; lra). apply fmt_F2R; lia. }
  pose proof (rnd_ge _ F1 _ B1) as R1. pose proof (rnd_le' _ F2 _ B2) as R2.
  split.
  - apply Zfloor_lub. rewrite minus_IZR. lra.
  - assert (Zfloor (rnd (IZR n * q)) < k + 1)%Z; [|lia]. apply lt_IZR. eapply Rle_lt_trans; [apply Zfloor_lb|]. rewrite plus_IZR. lra.
Qed.

(** ** np.linspace *)
Definition scaled (delta : b64) (div : Z) (y : b64) : b64 :=
  if (0 <? div)%Z
  then let step := b64_div delta (b64_z div) in if Beqb step (b64_z 0) then b64_mul (b64_div y (b64_z div)) delta else b64_mul y step
  else b64_mul y delta.
Lemma linspace_eq (l : libm) (start stop : b64) num : (0 <= num)%Z ->
  linspace (Bops l) start stop num =
  Ok (map (fun i => if (1 <? num)%Z && Z.eqb (Z.of_nat i) (num - 1) then stop
                    else b64_add (scaled (b64_sub stop start) (num - 1) (b64_z (Z.of_nat i))) start) (seq 0 (Z.to_nat num))).
Proof. intro H. unfold linspace. replace (num <? 0)%Z with false by (symmetry; apply Z.ltb_ge; lia). reflexivity. Qed.

Lemma scaled_spec (start stop : b64) num : fin start -> fin stop -> Rabs (val start) <= bpow radix2 100 -> Rabs (val stop) <= bpow radix2 100 ->
  val start = val stop \/ bpow radix2 (-900) <= val stop - val start -> (1 <= num <= 2 ^ 40)%Z ->
  exists st, 0 <= st /\ forall i, (0 <= i)%Z -> i = 0%Z \/ (i < num - 1)%Z ->
    let y := scaled (b64_sub stop start) (num - 1) (b64_z i) in
    fin y /\ val y = rnd (IZR i * st) /\ 0 <= val y <= val stop - val start.
Proof.
  intros Fa Fb Ra Rb HD Hn.
  assert (D0 : 0 <= val stop - val start <= bpow radix2 101).
  { split; [destruct HD as [H|H]; [lra|pose proof (bpow_gt_0 radix2 (-900)); lra]|]. apply Rabs_le_inv in Ra, Rb. change 101%Z with (1 + 100)%Z. rewrite bpow_plus.
    change (bpow radix2 1) with 2. lra. }
  assert (B101 : bpow radix2 101 <= big) by (apply bpow_le; lia).
  destruct (sub_spec stop start Fb Fa) as [Fd Vd]; [rewrite Rabs_pos_eq by lra; lra|].
  set (D := val stop - val start) in *. set (d := b64_sub stop start) in *.
  assert (Rd : 0 <= val d <= bpow radix2 101).
  { rewrite Vd. split; [apply rnd_ge; [apply fmt_0|lra]|apply rnd_le'; [apply generic_format_bpow; cbn; lia|lra]]. }
  destruct (z_spec 0 ltac:(lia)) as [F0 V0].
  unfold scaled. destruct (Z.ltb_spec 0 (num - 1)) as [Hd|Hd].
  2:{ exists 0. split; [lra|]. intros i Hi Ci. assert (i = 0%Z) by lia. subst i. cbv zeta.
      destruct (mul_spec (b64_z 0) d F0 Fd) as [Fm Vm]; [rewrite V0, Rmult_0_l, Rabs_R0; pose proof big_1; lra|].
      split; [exact Fm|]. rewrite Vm, V0, !Rmult_0_l, rnd_0. split; [reflexivity|lra]. }
  set (div := (num - 1)%Z) in *.
  destruct (z_spec div ltac:(lia)) as [Fv Vv]. assert (Pv : 1 <= IZR div <= IZR (2 ^ 40)) by (split; apply IZR_le; lia).
  assert (Qr : 0 <= val d / IZR div <= bpow radix2 101).
  { split; [apply Rmult_le_pos; [lra|left; apply Rinv_0_lt_compat; lra]|]. apply (Rmult_le_reg_r (IZR div)); [lra|]. unfold Rdiv. rewrite Rmult_assoc, Rinv_l by lra.
    pose proof (bpow_ge_0 radix2 101). nra. }
  destruct (div_spec d (b64_z div) Fd) as [Fs Vs]; [rewrite Vv; lra|rewrite Vv, Rabs_pos_eq by lra; lra|]. rewrite Vv in Vs.
  set (step := b64_div d (b64_z div)) in *.
  assert (Rs : 0 <= val step <= bpow radix2 101).
  { rewrite Vs. split; [apply rnd_ge; [apply fmt_0|lra]|apply rnd_le'; [apply generic_format_bpow; cbn; lia|lra]]. }
  destruct HD as [E|HD].
  - (* equal ends *)
    assert (D = 0) by (unfold D; lra). assert (Zd : val d = 0) by (rewrite Vd, H; apply rnd_0).
    assert (Zs : val step = 0) by (rewrite Vs, Zd; replace (0 / IZR div) with 0 by (field; lra); apply rnd_0).
    assert (Eq : Beqb step (b64_z 0) = true) by (apply eqb_spec; auto; now rewrite V0).
    exists 0. split; [lra|]. intros i Hi Ci. rewrite Eq. cbv zeta.
    destruct (z_spec i ltac:(lia)) as [Fi Vi].
    assert (Ri : 0 <= IZR i / IZR div <= 1) by (apply quot_range; lia).
    destruct (div_spec (b64_z i) (b64_z div) Fi) as [Fq Vq]; [rewrite Vv; lra|rewrite Vi, Vv, Rabs_pos_eq by lra; pose proof big_1; lra|].
    destruct (mul_spec (b64_div (b64_z i) (b64_z div)) d Fq Fd) as [Fm Vm]; [rewrite Zd, Rmult_0_r, Rabs_R0; pose proof big_1; lra|].
    split; [exact Fm|]. rewrite Vm, Zd, !Rmult_0_r, rnd_0. split; [reflexivity|lra].
  - assert (Pd : bpow radix2 (-900) <= val d) by (rewrite Vd; apply rnd_ge; [apply generic_format_bpow; cbn; lia|exact HD]).
    assert (Pq : bpow radix2 (-940) <= val d / IZR div).
    { change (-940)%Z with (-900 + -40)%Z. rewrite bpow_plus. apply Rmult_le_compat; [apply bpow_ge_0|apply bpow_ge_0|exact Pd|].
      change (bpow radix2 (-40)) with (/ IZR (2 ^ 40)). apply Rinv_le; lra. }
    assert (Ps : bpow radix2 (-940) <= val step) by (rewrite Vs; apply rnd_ge; [apply generic_format_bpow; cbn; lia|exact Pq]).
    pose proof (bpow_gt_0 radix2 (-940)) as P940.
    assert (Ne : Beqb step (b64_z 0) = false).
    { destruct (Beqb step (b64_z 0)) eqn:Q; [|reflexivity]. apply eqb_spec in Q; auto. rewrite V0 in Q. lra. }
    exists (val step). split; [lra|]. intros i Hi Ci. rewrite Ne. cbv zeta.
    destruct (z_spec i ltac:(lia)) as [Fi Vi].
    destruct (Z.eq_dec i 0) as [->|Ni].
    { destruct (mul_spec (b64_z 0) step F0 Fs) as [Fm Vm]; [rewrite V0, Rmult_0_l, Rabs_R0; pose proof big_1; lra|].
      split; [exact Fm|]. rewrite Vm, V0. split; [reflexivity|]. rewrite !Rmult_0_l, rnd_0. lra. }
    assert (Li : (i < div)%Z) by lia. assert (Pi : 1 <= IZR i <= IZR div - 1) by (rewrite <- minus_IZR; split; apply IZR_le; lia).
    assert (U1 : val d <= D * (1 + u)).
    { rewrite Vd. apply rnd_up. eapply Rle_trans; [|exact HD]. apply bpow_le. lia. }
    assert (U2 : val step <= val d / IZR div * (1 + u)).
    { rewrite Vs. apply rnd_up. eapply Rle_trans; [|exact Pq]. apply bpow_le. lia. }
    assert (P3 : bpow radix2 (-1000) <= IZR i * val step).
    { apply Rle_trans with (bpow radix2 (-940)); [apply bpow_le; lia|]. nra. }
    pose proof (rnd_up _ P3) as [U0 U3]. pose proof u_small as Us.
    assert (U4 : IZR i * val step * (1 + u) <= D).
    { pose proof cube as Cu. assert (Hu : 4 * u * IZR div <= 1).
      { rewrite u_val. assert (0 < IZR (2 ^ 53)) by (apply IZR_lt; lia). apply (Rmult_le_reg_r (IZR (2 ^ 53))); [lra|].
        replace (4 * / IZR (2 ^ 53) * IZR div * IZR (2 ^ 53)) with (4 * IZR div) by (field; lra).
        apply Rle_trans with (4 * IZR (2 ^ 40)); [lra|]. rewrite Rmult_1_l, <- mult_IZR. apply IZR_le. lia. }
      assert (S1 : val step * IZR div <= D * (1 + u) * (1 + u)).
      { apply Rle_trans with (val d / IZR div * (1 + u) * IZR div); [apply Rmult_le_compat_r; lra|].
        replace (val d / IZR div * (1 + u) * IZR div) with (val d * (1 + u)) by (field; lra). apply Rmult_le_compat_r; lra. }
      assert (S2 : IZR i * val step <= val step * IZR div - val step) by nra.
      apply (Rmult_le_reg_r (IZR div)); [lra|].
      assert (S3 : IZR i * (val step * IZR div) <= (IZR div - 1) * (D * (1 + u) * (1 + u))).
      { apply Rmult_le_compat; try lra. apply Rmult_le_pos; lra. }
      replace (IZR i * val step * (1 + u) * IZR div) with (IZR i * (val step * IZR div) * (1 + u)) by ring.
      apply Rle_trans with ((IZR div - 1) * (D * (1 + u) * (1 + u)) * (1 + u)); [apply Rmult_le_compat_r; lra|].
      replace ((IZR div - 1) * (D * (1 + u) * (1 + u)) * (1 + u)) with (D * ((IZR div - 1) * ((1 + u) * (1 + u) * (1 + u)))) by ring.
      apply Rmult_le_compat_l; [lra|]. apply Rle_trans with ((IZR div - 1) * (1 + 4 * u)); [apply Rmult_le_compat_l; lra|]. nra. }
    assert (U5 : 0 <= IZR i * val step) by (apply Rmult_le_pos; lra).
    assert (U6 : IZR i * val step <= D) by nra.
    destruct (mul_spec (b64_z i) step Fi Fs) as [Fm Vm]; [rewrite Vi, Rabs_pos_eq by lra; lra|].
    split; [exact Fm|]. rewrite Vm, Vi. split; [reflexivity|]. split; [apply rnd_ge; [apply fmt_0|lra]|lra].
Qed.
Lemma linspace_spec (l : libm) (start stop : b64) num : fin start -> fin stop -> Rabs (val start) <= bpow radix2 100 -> Rabs (val stop) <= bpow radix2 100 ->
  val start = val stop \/ bpow radix2 (-900) <= val stop - val start -> (1 <= num <= 2 ^ 40)%Z ->
  exists ps : list b64, linspace (Bops l) start stop num = Ok ps /\ Z.of_nat (length ps) = num /\
    (forall p, In p ps -> fin p /\ val start <= val p <= val stop) /\
    (forall i j, (i <= j < length ps)%nat -> val (nth i ps start) <= val (nth j ps start)) /\
    val (nth 0 ps start) = val start /\ ((2 <= num)%Z -> nth (length ps - 1) ps start = stop).
Proof.
  intros Fa Fb Ra Rb HD Hn. destruct (scaled_spec start stop num Fa Fb Ra Rb HD Hn) as (st & Ps & H).
  assert (Hle : val start <= val stop) by (destruct HD; [lra|pose proof (bpow_gt_0 radix2 (-900)); lra]).
  set (pt := fun i => if (1 <? num)%Z && Z.eqb (Z.of_nat i) (num - 1) then stop
                    else b64_add (scaled (b64_sub stop start) (num - 1) (b64_z (Z.of_nat i))) start).
  exists (map pt (seq 0 (Z.to_nat num)) : list b64). rewrite linspace_eq by lia. split; [reflexivity|].
  assert (Len : length (map pt (seq 0 (Z.to_nat num))) = Z.to_nat num) by now rewrite map_length, seq_length.
  rewrite Len. split; [lia|].
  assert (Ra' := Rabs_le_inv _ _ Ra). assert (Rb' := Rabs_le_inv _ _ Rb).
  assert (B100 : bpow radix2 100 <= big) by (apply bpow_le; lia).
  assert (Pt : forall i, (i < Z.to_nat num)%nat ->
     (pt i = stop /\ Z.of_nat i = (num - 1)%Z /\ (2 <= num)%Z) \/
     (fin (pt i) /\ val (pt i) = rnd (rnd (IZR (Z.of_nat i) * st) + val start) /\ val start <= val (pt i) <= val stop /\ (Z.of_nat i = 0 \/ Z.of_nat i < num - 1)%Z)).
  { intros i Hi. unfold pt. destruct ((1 <? num)%Z && Z.eqb (Z.of_nat i) (num - 1)) eqn:E.
    - left. apply andb_prop in E as [E1 E2]. apply Z.ltb_lt in E1. apply Z.eqb_eq in E2. split; [reflexivity|lia].
    - right. assert (C : (Z.of_nat i = 0 \/ Z.of_nat i < num - 1)%Z).
      { apply andb_false_iff in E as [E|E]; [apply Z.ltb_ge in E; lia|apply Z.eqb_neq in E; lia]. }
      destruct (H (Z.of_nat i) ltac:(lia) C) as (Fy & Vy & Ry). cbv zeta in *.
      destruct (add_spec _ start Fy Fa) as [Fp Vp]; [apply Rabs_le; lra|]. split; [exact Fp|]. rewrite <- Vy. split; [exact Vp|]. split; [|exact C].
      rewrite Vp. split; [apply rnd_ge; [apply fmt_val|lra]|apply rnd_le'; [apply fmt_val|lra]]. }
  assert (Nth : forall i, (i < Z.to_nat num)%nat -> nth i (map pt (seq 0 (Z.to_nat num))) start = pt i).
  { intros i Hi. rewrite (nth_indep _ start (pt 0%nat)) by now rewrite Len. rewrite map_nth, seq_nth by exact Hi. reflexivity. }
  split; [|split; [|split]].
  - intros p I. apply in_map_iff in I as (i & <- & I). apply in_seq in I. destruct (Pt i ltac:(lia)) as [(-> & _)|(F1 & _ & F2 & _)]; [split; [exact Fb|lra]|tauto].
  - intros i j Hij. rewrite !Nth by lia.
    destruct (Pt i ltac:(lia)) as [(-> & Ei & E2)|(F1 & V1 & R1 & _)]; destruct (Pt j ltac:(lia)) as [(-> & Ej & _)|(G1 & W1 & S1 & Cj)]; try lra; try (exfalso; lia).
    rewrite V1, W1. apply rnd_le. apply Rplus_le_compat_r. apply rnd_le. apply Rmult_le_compat_r; [exact Ps|]. apply IZR_le. lia.
  - rewrite Nth by lia. destruct (Pt 0%nat ltac:(lia)) as [(_ & E & E2)|(_ & V & _)]; [exfalso; lia|]. rewrite V. cbn [Z.of_nat]. rewrite Rmult_0_l, rnd_0, Rplus_0_l. apply rnd_id, fmt_val.
  - intro H2. rewrite Nth by lia. destruct (Pt (Z.to_nat num - 1)%nat ltac:(lia)) as [(-> & _)|(_ & _ & _ & C)]; [reflexivity|exfalso; lia].
Qed.

(** ** A correctly rounded library *)
Definition near (r : R) : b64 := make (ZnearestE (scaled_mantissa radix2 (FLT_exp (-1074) 53) r)) (cexp radix2 (FLT_exp (-1074) 53) r).
Lemma near_spec r : Rabs r <= big -> fin (near r) /\ val (near r) = rnd r.
Proof.
  intro H. unfold near. set (m := ZnearestE _). set (e := cexp _ _ r).
  assert (E : IZR m * bpow radix2 e = rnd r) by reflexivity.
  destruct (make_spec m e) as [A B]; [rewrite E; now apply rnd_big|]. split; [exact A|]. rewrite B, E. apply rnd_id, rnd_fmt.
Qed.
Lemma near_pos r : 0 <= r -> near r = B754_infinity false \/ fin (near r) /\ 0 <= val (near r) /\ val (near r) = rnd r.
Proof.
  intro H. unfold near. set (m := ZnearestE _). set (e := cexp _ _ r).
  assert (E : IZR m * bpow radix2 e = rnd r) by reflexivity.
  assert (P : 0 <= rnd r) by (apply rnd_ge; [apply fmt_0|exact H]).
  pose proof (binary_normalize_correct 53 1024 prec_pos prec_small mode_NE m e false) as C. cbv zeta in C.
  change (F2R {| Fnum := m; Fexp := e |}) with (IZR m * bpow radix2 e) in C. rewrite E in C.
  change (round radix2 (SpecFloat.fexp 53 1024) (round_mode mode_NE) (rnd r)) with (rnd (rnd r)) in C. rewrite (rnd_id _ (rnd_fmt r)) in C.
  fold (make m e) in C. destruct (Rlt_bool (Rabs (rnd r)) (bpow radix2 1024)).
  - right. destruct C as (C1 & C2 & _). split; [exact C2|]. unfold val. rewrite C1. split; [exact P|reflexivity].
  - left. replace (Rlt_bool (rnd r) 0) with false in C by (symmetry; apply Rlt_bool_false; exact P). destruct (make m e) as [s|s| |s mm ee Hb]; try discriminate C. cbn in C. now injection C as ->.
Qed.
Definition lift (f : R -> R) (inf_neg inf_pos : b64) (x : b64) : b64 :=
  match x with
  | B754_nan => B754_nan
  | B754_infinity true => inf_neg
  | B754_infinity false => inf_pos
  | _ => near (f (val x))
  end.
(** log of 0 is -inf and of a negative number nan. *)
Definition lift_log (f : R -> R) (x : b64) : b64 :=
  match x with
  | B754_zero _ => B754_infinity true
  | B754_infinity false => B754_infinity false
  | B754_finite false _ _ _ => near (f (val x))
  | _ => B754_nan
  end.
Definition rounded : libm :=
  Libm (lift exp (b64_z 0) (B754_infinity false)) (lift_log ln) (lift_log (fun x => ln x / ln 2)) (fun x y => near (Rpower (val x) (val y))).
Lemma ln_le x y : 0 < x -> x <= y -> ln x <= ln y.
Proof. intros Px [H|H]; [left; now apply ln_increasing|rewrite H; lra]. Qed.
Lemma exp_half : 3 / 2 <= exp (/ 2) <= 2.
Proof.
  split; [pose proof (exp_ineq1_le (/ 2)); lra|]. assert (exp (/ 2) * exp (/ 2) <= 3) by (rewrite <- exp_plus; replace (/ 2 + / 2) with 1 by lra; apply exp_le_3).
  pose proof (exp_pos (/ 2)). nra.
Qed.
Lemma ln2_bounds : / 2 <= ln 2 <= 9 / 10.
Proof.
  split.
  - rewrite <- (ln_exp (/ 2)). apply ln_le; [apply exp_pos|apply exp_half].
  - rewrite <- (ln_exp (9 / 10)). apply ln_le; [lra|]. replace (9 / 10) with (9 / 20 + 9 / 20) by lra. rewrite exp_plus. pose proof (exp_ineq1_le (9 / 20)). nra.
Qed.
Lemma rounded_exp : good_exp rounded.
Proof.
  intros x Nx. cbn [l_exp rounded]. split; [|split].
  - destruct x as [s|[|]| |s m e H]; cbn [lift]; try discriminate Nx;
      try (match goal with |- near ?r = _ \/ _ => destruct (near_pos r) as [N|(N1 & N2 & _)]; [left; apply exp_pos|now left|now right] end); [|now left].
    right. destruct (z_spec 0 ltac:(lia)) as [F V]. split; [exact F|rewrite V; lra].
  - intros Fx Lx. assert (E : lift exp (b64_z 0) (B754_infinity false) x = near (exp (val x))) by (destruct x as [s|[|]| |s m e H]; try discriminate Fx; reflexivity).
    rewrite E. assert (B : 0 <= exp (val x) <= 1).
    { split; [left; apply exp_pos|]. rewrite <- exp_0. destruct Lx as [Lx|Lx]; [left; now apply exp_increasing|right; now rewrite Lx]. }
    destruct (near_spec (exp (val x))) as [F V]; [rewrite Rabs_pos_eq by lra; pose proof big_1; lra|]. split; [exact F|]. rewrite V. apply rnd_le'; [apply (fmt_IZR 1); lia|lra].
  - intros Fx Lx. assert (E : lift exp (b64_z 0) (B754_infinity false) x = near (exp (val x))) by (destruct x as [s|[|]| |s m e H]; try discriminate Fx; reflexivity).
    rewrite E. assert (B : 1 <= exp (val x)) by (rewrite <- exp_0; destruct Lx as [Lx|Lx]; [left; now apply exp_increasing|right; now rewrite <- Lx]).
    destruct (near_pos (exp (val x))) as [N|(_ & _ & N)]; [left; apply exp_pos|now left|right]. rewrite N. apply rnd_ge; [apply (fmt_IZR 1); lia|exact B].
Qed.
Lemma rounded_log : good_log rounded.
Proof.
  intros x Fx Px. cbn [l_log rounded].
  assert (E : lift_log ln x = near (ln (val x))).
  { destruct x as [s|s| |[|] m e H]; try discriminate Fx; try reflexivity; exfalso; unfold val in Px; cbn [B2R] in Px; [lra|].
    apply (Rlt_not_le _ _ Px). left. now apply F2R_lt_0. }
  rewrite E. pose proof ln2_bounds as L2.
  assert (B1 : bpow radix2 (-1074) <= val x).
  { destruct (Rle_lt_dec (bpow radix2 (-1074)) (val x)) as [G|G]; [exact G|]. exfalso.
    assert (FLT_format radix2 (-1074) 53 (val x)) as [f Ef Em Ee] by (apply FLT_format_generic; [reflexivity|apply fmt_val]).
    assert (Pm : (0 < Fnum f)%Z). { apply (gt_0_F2R radix2 (Fnum f) (Fexp f)). destruct f as [fm fe]. cbn [Fnum Fexp]. now rewrite <- Ef. }
    apply (Rlt_not_le _ _ G). rewrite Ef. unfold F2R. rewrite <- (Rmult_1_l (bpow radix2 (-1074))). apply Rmult_le_compat; [lra|apply bpow_ge_0|apply IZR_le; lia|apply bpow_le; exact Ee]. }
  assert (B2 : val x <= bpow radix2 1024) by (left; eapply Rle_lt_trans; [apply Rle_abs|apply abs_B2R_lt_emax]).
  assert (Lb : forall e, ln (bpow radix2 e) = IZR e * ln 2) by (intro e; rewrite bpow_exp, ln_exp; reflexivity).
  assert (L1 : -1000 <= ln (val x)).
  { apply Rle_trans with (ln (bpow radix2 (-1074))); [rewrite Lb; lra|]. apply ln_le; [apply bpow_gt_0|exact B1]. }
  assert (L3 : ln (val x) <= 1000).
  { apply Rle_trans with (ln (bpow radix2 1024)); [apply ln_le; [exact Px|exact B2]|]. rewrite Lb. lra. }
  assert (B3 : Rabs (ln (val x)) <= 1000) by (apply Rabs_le; lra).
  assert (B4 : 1000 <= big) by (change 1000 with (IZR 1000); rewrite <- (Rabs_pos_eq (IZR 1000)) by (apply IZR_le; lia); apply big_Z; lia).
  destruct (near_spec (ln (val x))) as [F V]; [lra|]. split; [exact F|]. rewrite V.
  assert (F1000 : fmt 1000) by (apply (fmt_IZR 1000); lia).
  assert (Fh : fmt (/ 2)) by (replace (/ 2) with (bpow radix2 (-1)) by reflexivity; apply generic_format_bpow; cbn; lia).
  split; [apply Rabs_le; split; [apply rnd_ge; [now apply generic_format_opp|lra]|apply rnd_le'; [exact F1000|lra]]|].
  split; [intro H; apply rnd_le'; [apply fmt_0|]; rewrite <- ln_1; apply ln_le; lra|].
  split; [intro H; apply rnd_ge; [apply fmt_0|]; rewrite <- ln_1; apply ln_le; lra|].
  split.
  - intro H. apply rnd_le'; [now apply generic_format_opp|]. apply Rle_trans with (ln (/ 2)); [apply ln_le; lra|]. rewrite ln_Rinv by lra. lra.
  - intro H. apply rnd_ge; [exact Fh|]. apply Rle_trans with (ln 2); [lra|apply ln_le; lra].
Qed.
