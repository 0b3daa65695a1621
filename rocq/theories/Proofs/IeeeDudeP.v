(** Lemmas about the denoisers in double precision: hard decisions. *)
From Coq Require Import List ZArith Reals Bool Lia Lra.
From Flocq Require Import Core Relative IEEE754.BinarySingleNaN.
From Verif.Model Require Import Py Float Dude.
From Verif.Spec Require Import RealOps DudeSpec IeeeOps IeeeDudeSpec.
From Verif.Proofs Require Import Base DudeP IeeeP IeeeInfoP IeeeEmleP.
Import ListNotations.
Open Scope R_scope.

Lemma abs_in x e : Rabs x <= e -> - e <= x <= e.
Proof. intro H. split; [|eapply Rle_trans; [apply Rle_abs|exact H]]. pose proof (Rle_abs (- x)) as K. rewrite Rabs_Ropp in K. lra. Qed.
Definition u : R := bpow radix2 (-53).
Lemma u_val : u = / 9007199254740992.
Proof. reflexivity. Qed.
Lemma rnd_near x : Rabs (rnd x - x) <= u * Rabs x + u * u.
Proof.
  destruct (error_N_FLT radix2 (-1074) 53 eq_refl (fun z => negb (Z.even z)) x) as (eps & eta & H1 & H2 & _ & H3).
  unfold rnd. rewrite H3. replace (x * (1 + eps) + eta - x) with (x * eps + eta) by ring.
  eapply Rle_trans; [apply Rabs_triang|]. apply Rplus_le_compat.
  - rewrite Rabs_mult, Rmult_comm. apply Rmult_le_compat_r; [apply Rabs_pos|]. eapply Rle_trans; [exact H1|].
    apply Req_le. unfold u. change (- (53) + 1)%Z with (-52)%Z. change (/ 2) with (bpow radix2 (-1)). rewrite <- bpow_plus. reflexivity.
  - eapply Rle_trans; [exact H2|]. unfold u. change (/ 2) with (bpow radix2 (-1)). rewrite <- !bpow_plus. apply bpow_le. lia.
Qed.
Lemma rnd_bound x e : (-1000 <= e)%Z -> Rabs x <= bpow radix2 e -> Rabs (rnd x) <= bpow radix2 e.
Proof.
  intros He H. apply abs_round_le_generic; [apply FLT_exp_valid; reflexivity|apply valid_rnd_N| |exact H].
  apply generic_format_bpow. unfold FLT_exp. lia.
Qed.
Lemma pow_big x e : (e <= 1023)%Z -> Rabs x <= bpow radix2 e -> Rabs x <= big.
Proof. intros He H. eapply Rle_trans; [exact H|]. apply bpow_le. exact He. Qed.

(** The estimated number of inputs, in double precision. *)
Definition inputs (c0 c1 : Z) (i0 i1 : R) : R := rnd (rnd (IZR c0 * i0) + rnd (IZR c1 * i1)).
Definition count_ok (c : Z) : Prop := (0 <= c <= 2 ^ 53)%Z.
Definition entry_ok (x : b64) : Prop := fin x /\ Rabs (val x) <= bpow radix2 900.

Lemma count_mul c x : count_ok c -> entry_ok x -> fin (b64_mul (b64_z c) x) /\ val (b64_mul (b64_z c) x) = rnd (IZR c * val x) /\ Rabs (rnd (IZR c * val x)) <= bpow radix2 953.
Proof.
  intros Hc [Fx Bx]. destruct (z_spec c) as [Fz Vz]; [unfold count_ok in Hc; lia|].
  assert (B : Rabs (IZR c * val x) <= bpow radix2 953).
  { rewrite Rabs_mult. replace (bpow radix2 953) with (bpow radix2 53 * bpow radix2 900) by (rewrite <- bpow_plus; reflexivity).
    apply Rmult_le_compat; try apply Rabs_pos; [|exact Bx]. rewrite <- abs_IZR. change (bpow radix2 53) with (IZR (2 ^ 53)). apply IZR_le. unfold count_ok in Hc. lia. }
  destruct (mul_spec (b64_z c) x) as [F V]; [exact Fz|exact Fx| |].
  { rewrite Vz. eapply pow_big; [|exact B]. lia. }
  rewrite Vz in V. split; [exact F|]. split; [exact V|]. apply rnd_bound; [lia|exact B].
Qed.

Lemma sum_two_pow a b e : (-1000 <= e <= 1000)%Z -> Rabs a <= bpow radix2 e -> Rabs b <= bpow radix2 e -> Rabs (a + b) <= bpow radix2 (e + 1).
Proof.
  intros He Ha Hb. eapply Rle_trans; [apply Rabs_triang|]. rewrite bpow_plus. change (bpow radix2 1) with 2. lra.
Qed.
Lemma zero_plus (x : b64) : fin x -> Rabs (val x) <= big -> fin (b64_add (b64_z 0) x) /\ val (b64_add (b64_z 0) x) = val x.
Proof.
  intros F B. destruct (z_spec 0) as [F0 V0]; [cbn; lia|]. destruct (add_spec (b64_z 0) x) as [G V]; [exact F0|exact F|rewrite V0, Rplus_0_l; exact B|].
  split; [exact G|]. rewrite V, V0, Rplus_0_l. apply rnd_id, fmt_val.
Qed.

Lemma sum_pair (l : libm) x y e : (-1000 <= e <= 1000)%Z -> fin x -> fin y -> Rabs (val x) <= bpow radix2 e -> Rabs (val y) <= bpow radix2 e ->
  fin (fsum (Bops l) [x; y]) /\ val (fsum (Bops l) [x; y]) = rnd (val x + val y) /\ Rabs (rnd (val x + val y)) <= bpow radix2 (e + 1).
Proof.
  intros He Fx Fy Bx By. change (fsum (Bops l) [x; y]) with (b64_add (b64_add (b64_z 0) x) y).
  destruct (zero_plus x Fx) as [F V]; [eapply pow_big; [|exact Bx]; lia|].
  pose proof (sum_two_pow _ _ e He Bx By) as B. destruct (add_spec (b64_add (b64_z 0) x) y F Fy) as [G W].
  { rewrite V. eapply pow_big; [|exact B]. lia. }
  rewrite V in W. split; [exact G|]. split; [exact W|]. apply rnd_bound; [lia|exact B].
Qed.

Lemma inputs_spec (l : libm) c0 c1 i0 i1 : count_ok c0 -> count_ok c1 -> entry_ok i0 -> entry_ok i1 ->
  let t := fsum (Bops l) [b64_mul (b64_z c0) i0; b64_mul (b64_z c1) i1] in
  fin t /\ val t = inputs c0 c1 (val i0) (val i1) /\ Rabs (val t) <= bpow radix2 954.
Proof.
  intros H0 H1 E0 E1 t. destruct (count_mul c0 i0 H0 E0) as (F0 & V0 & B0). destruct (count_mul c1 i1 H1 E1) as (F1 & V1 & B1).
  destruct (sum_pair l _ _ 953 ltac:(lia) F0 F1) as (F & V & B); [rewrite V0; exact B0|rewrite V1; exact B1|].
  rewrite V0, V1 in V, B. split; [exact F|]. split; [exact V|]. unfold t. rewrite V. exact B.
Qed.

Definition prob_ok (x : b64) : Prop := fin x /\ 0 <= val x <= 1.
Lemma weight_spec t h : fin t -> Rabs (val t) <= bpow radix2 954 -> prob_ok h ->
  fin (b64_mul t h) /\ val (b64_mul t h) = rnd (val t * val h) /\ Rabs (rnd (val t * val h)) <= bpow radix2 954.
Proof.
  intros F B [Fh [H0 H1]]. assert (B' : Rabs (val t * val h) <= bpow radix2 954).
  { rewrite Rabs_mult, (Rabs_pos_eq (val h)) by exact H0. rewrite <- (Rmult_1_r (bpow radix2 954)). apply Rmult_le_compat; auto. apply Rabs_pos. }
  destruct (mul_spec t h F Fh) as [G V]; [eapply pow_big; [|exact B']; lia|]. split; [exact G|]. split; [exact V|]. apply rnd_bound; [lia|exact B'].
Qed.

Lemma times_0 x : fin x -> fin (b64_mul x (b64_z 0)) /\ val (b64_mul x (b64_z 0)) = 0.
Proof.
  intro F. destruct (z_spec 0) as [F0 V0]; [cbn; lia|]. destruct (mul_spec x (b64_z 0) F F0) as [G V].
  - rewrite V0, Rmult_0_r, Rabs_R0. apply Rlt_le, big_pos.
  - split; [exact G|]. rewrite V, V0, Rmult_0_r. apply rnd_0.
Qed.
Lemma times_1 x : fin x -> Rabs (val x) <= big -> fin (b64_mul x (b64_z 1)) /\ val (b64_mul x (b64_z 1)) = val x.
Proof.
  intros F B. destruct one as [F1 V1]. destruct (mul_spec x (b64_z 1) F F1) as [G V]; [rewrite V1, Rmult_1_r; exact B|].
  split; [exact G|]. rewrite V, V1, Rmult_1_r. apply rnd_id, fmt_val.
Qed.

(** A hard decision compares the two weights. *)
Definition weight (c0 c1 : Z) (i0 i1 h : R) : R := rnd (inputs c0 c1 i0 i1 * h).
Definition verdict (w0 w1 : R) : Z := if Rlt_dec w0 w1 then 1%Z else 0%Z.

Lemma hard_64 (l : libm) (d : dude (Bops l)) c0 c1 obs a b c e i00 i01 i10 i11 : d_size _ d = 2%nat -> d_hard _ d = true -> d_loss _ d = hamming64 ->
  d_channel _ d = [[a; b]; [c; e]] -> d_inv _ d = [[i00; i01]; [i10; i11]] -> count_ok c0 -> count_ok c1 ->
  Forall prob_ok [a; b; c; e] -> Forall entry_ok [i00; i01; i10; i11] -> (obs < 2)%nat ->
  let h0 := nth obs [a; b] (b64_z 0) in let h1 := nth obs [c; e] (b64_z 0) in
  exists cost, decide (Bops l) d [c0; c1] obs = Ok (Hard (verdict (weight c0 c1 (val i00) (val i10) (val h0)) (weight c0 c1 (val i01) (val i11) (val h1))), cost).
Proof.
  intros En Eh El Ec Ei H0 H1 Hp He Ho h0 h1.
  inversion_clear He as [|? ? E00 He']; inversion_clear He' as [|? ? E01 He]; inversion_clear He as [|? ? E10 He']; inversion_clear He' as [|? ? E11 _].
  assert (P0 : prob_ok h0 /\ prob_ok h1).
  { inversion_clear Hp as [|? ? Pa Hp']; inversion_clear Hp' as [|? ? Pb Hp]; inversion_clear Hp as [|? ? Pc Hp']; inversion_clear Hp' as [|? ? Pe _].
    unfold h0, h1. destruct obs as [|[|]]; [split; assumption|split; assumption|lia]. }
  destruct P0 as [P0 P1].
  destruct (inputs_spec l c0 c1 i00 i10 H0 H1 E00 E10) as (F0 & V0 & B0). destruct (inputs_spec l c0 c1 i01 i11 H0 H1 E01 E11) as (F1 & V1 & B1).
  destruct (weight_spec _ h0 F0 B0 P0) as (G0 & W0 & D0). destruct (weight_spec _ h1 F1 B1 P1) as (G1 & W1 & D1).
  rewrite V0 in W0, D0. rewrite V1 in W1, D1.
  unfold decide. rewrite Eh, El, Ec, Ei, En. cbv zeta.
  set (t0 := fsum (Bops l) [b64_mul (b64_z c0) i00; b64_mul (b64_z c1) i10]) in *. set (t1 := fsum (Bops l) [b64_mul (b64_z c0) i01; b64_mul (b64_z c1) i11]) in *.
  assert (Ep : vmul (Bops l) (vecmat (Bops l) 2 (map (fz (Bops l)) [c0; c1]) [[i00; i01]; [i10; i11]]) (mcol (Bops l) [[a; b]; [c; e]] obs) = [b64_mul t0 h0; b64_mul t1 h1]) by reflexivity.
  rewrite Ep. set (w0 := b64_mul t0 h0) in *. set (w1 := b64_mul t1 h1) in *.
  assert (Eq : vecmat (Bops l) 2 [w0; w1] hamming64 = [fsum (Bops l) [b64_mul w0 (b64_z 0); b64_mul w1 (b64_z 1)]; fsum (Bops l) [b64_mul w0 (b64_z 1); b64_mul w1 (b64_z 0)]]) by reflexivity.
  rewrite Eq. clear Eq Ep.
  assert (K0 : Rabs (val w0) <= bpow radix2 954) by (rewrite W0; exact D0). assert (K1 : Rabs (val w1) <= bpow radix2 954) by (rewrite W1; exact D1).
  destruct (times_0 w0 G0) as [Z0 U0]. destruct (times_0 w1 G1) as [Z1 U1].
  destruct (times_1 w0 G0) as [O0 T0]; [eapply pow_big; [|exact K0]; lia|]. destruct (times_1 w1 G1) as [O1 T1]; [eapply pow_big; [|exact K1]; lia|].
  assert (Kz : Rabs 0 <= bpow radix2 954) by (rewrite Rabs_R0; apply bpow_ge_0).
  destruct (sum_pair l (b64_mul w0 (b64_z 0)) (b64_mul w1 (b64_z 1)) 954 ltac:(lia) Z0 O1) as (C0 & X0 & _); [rewrite U0; exact Kz|rewrite T1; exact K1|].
  destruct (sum_pair l (b64_mul w0 (b64_z 1)) (b64_mul w1 (b64_z 0)) 954 ltac:(lia) O0 Z1) as (C1 & X1 & _); [rewrite T0; exact K0|rewrite U1; exact Kz|].
  rewrite U0, T1, Rplus_0_l, (rnd_id (val w1)) in X0 by apply fmt_val. rewrite U1, T0, Rplus_0_r, (rnd_id (val w0)) in X1 by apply fmt_val.
  set (k0 := fsum (Bops l) [b64_mul w0 (b64_z 0); b64_mul w1 (b64_z 1)]) in *. set (k1 := fsum (Bops l) [b64_mul w0 (b64_z 1); b64_mul w1 (b64_z 0)]) in *.
  assert (Ea : argmin (Bops l) [k0; k1] = if Bltb k1 k0 then 1%nat else 0%nat) by (unfold argmin; cbn [argmin_from]; change (flt (Bops l) k1 k0) with (Bltb k1 k0); destruct (Bltb k1 k0); reflexivity).
  rewrite Ea. unfold verdict, weight. rewrite <- W0, <- W1, <- X0, <- X1.
  eexists. f_equal. f_equal. f_equal.
  destruct (Rlt_dec (val k1) (val k0)) as [L|L].
  - apply (ltb_spec k1 k0 C1 C0) in L. rewrite L. reflexivity.
  - destruct (Bltb k1 k0) eqn:E; [apply (ltb_spec k1 k0 C1 C0) in E; contradiction|reflexivity].
Qed.

(** The weights are monotone in the counts. *)
Lemma weight_mono c0 c1 c0' c1' i0 i1 h : (c0 <= c0')%Z -> (c1' <= c1)%Z -> 0 <= i0 -> i1 <= 0 -> 0 <= h -> weight c0 c1 i0 i1 h <= weight c0' c1' i0 i1 h.
Proof.
  intros H0 H1 I0 I1 Hh. unfold weight, inputs. apply rnd_le. apply Rmult_le_compat_r; [exact Hh|]. apply rnd_le. apply IZR_le in H0, H1.
  apply Rplus_le_compat; apply rnd_le; [apply Rmult_le_compat_r; assumption|]. nra.
Qed.
Lemma weight_mono' c0 c1 c0' c1' i0 i1 h : (c0' <= c0)%Z -> (c1 <= c1')%Z -> i0 <= 0 -> 0 <= i1 -> 0 <= h -> weight c0 c1 i0 i1 h <= weight c0' c1' i0 i1 h.
Proof.
  intros H0 H1 I0 I1 Hh. unfold weight, inputs. apply rnd_le. apply Rmult_le_compat_r; [exact Hh|]. apply rnd_le. apply IZR_le in H0, H1.
  apply Rplus_le_compat; apply rnd_le; [nra|apply Rmult_le_compat_r; assumption].
Qed.

(** How far the weights are from the exact ones. *)
Definition eta : R := bpow radix2 (-40).
Lemma inputs_err c0 c1 i0 i1 A B : (0 <= c0)%Z -> (0 <= c1)%Z -> (1 <= c0 + c1)%Z -> Rabs A <= 64 -> Rabs B <= 64 -> Rabs (i0 - A) <= eta -> Rabs (i1 - B) <= eta ->
  Rabs (inputs c0 c1 i0 i1 - (IZR c0 * A + IZR c1 * B)) <= IZR (c0 + c1) * (2 * eta) /\ Rabs (IZR c0 * A + IZR c1 * B) <= 64 * IZR (c0 + c1).
Proof.
  intros H0 H1 H2 HA HB E0 E1. unfold inputs. apply IZR_le in H0, H1, H2. rewrite plus_IZR in *.
  set (x0 := IZR c0) in *. set (x1 := IZR c1) in *. clearbody x0 x1.
  pose proof (rnd_near (x0 * i0)) as N0. pose proof (rnd_near (x1 * i1)) as N1. set (y0 := rnd (x0 * i0)) in *. set (y1 := rnd (x1 * i1)) in *. clearbody y0 y1.
  pose proof (rnd_near (y0 + y1)) as N2. set (z := rnd (y0 + y1)) in *. clearbody z.
  rewrite u_val in *. unfold eta in *. change (bpow radix2 (-40)) with (/ 1099511627776) in *.
  assert (Hi0 : Rabs i0 <= 65) by (apply Rabs_le; apply abs_in in HA; apply abs_in in E0; lra).
  assert (Hi1 : Rabs i1 <= 65) by (apply Rabs_le; apply abs_in in HB; apply abs_in in E1; lra).
  rewrite (Rabs_mult x0 i0), (Rabs_pos_eq x0) in N0 by assumption. rewrite (Rabs_mult x1 i1), (Rabs_pos_eq x1) in N1 by assumption.
  assert (M0 : x0 * Rabs i0 <= x0 * 65) by (apply Rmult_le_compat_l; assumption). assert (M1 : x1 * Rabs i1 <= x1 * 65) by (apply Rmult_le_compat_l; assumption).
  apply abs_in in N0; apply abs_in in N1; apply abs_in in N2; apply abs_in in E0; apply abs_in in E1; apply abs_in in HA; apply abs_in in HB.
  apply abs_in in Hi0. apply abs_in in Hi1.
  assert (Q0 : - (x0 * / 1099511627776) <= x0 * i0 - x0 * A <= x0 * / 1099511627776) by (split; nra).
  assert (Q1 : - (x1 * / 1099511627776) <= x1 * i1 - x1 * B <= x1 * / 1099511627776) by (split; nra).
  assert (R0 : - (x0 * 64) <= x0 * A <= x0 * 64) by (split; nra). assert (R1 : - (x1 * 64) <= x1 * B <= x1 * 64) by (split; nra).
  assert (Y : Rabs (y0 + y1) <= 66 * (x0 + x1)) by (apply Rabs_le; lra).
  split; apply Rabs_le; lra.
Qed.
Lemma weight_err n t T h H : 1 <= n -> Rabs (t - T) <= n * (2 * eta) -> Rabs T <= 64 * n -> 0 <= h <= 1 -> Rabs (h - H) <= u -> Rabs (rnd (t * h) - T * H) <= n * (4 * eta).
Proof.
  intros Hn Et ET Hh Eh. pose proof (rnd_near (t * h)) as N. set (w := rnd (t * h)) in *. clearbody w.
  rewrite Rabs_mult, (Rabs_pos_eq h) in N by lra. pose proof u_val as Eu. unfold eta in *. change (bpow radix2 (-40)) with (/ 1099511627776) in *.
  assert (Bt : Rabs t <= 65 * n) by (apply abs_in in Et; apply abs_in in ET; apply Rabs_le; lra).
  assert (Bth : Rabs t * h <= 65 * n) by (pose proof (Rabs_pos t); nra).
  assert (D1 : Rabs ((t - T) * h) <= n * (2 * / 1099511627776)) by (rewrite Rabs_mult, (Rabs_pos_eq h) by lra; pose proof (Rabs_pos (t - T)); nra).
  assert (D2 : Rabs (T * (h - H)) <= 64 * n * u) by (rewrite Rabs_mult; apply Rmult_le_compat; auto; apply Rabs_pos).
  rewrite Eu in *. apply abs_in in D1; apply abs_in in D2; apply abs_in in N. apply Rabs_le. lra.
Qed.
