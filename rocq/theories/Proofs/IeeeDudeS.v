(** Lemmas about the denoisers in double precision: soft decisions. *)
From Coq Require Import List ZArith Reals Bool Lia Lra.
From Flocq Require Import Core Relative IEEE754.BinarySingleNaN.
From Verif.Model Require Import Py Float Dude.
From Verif.Spec Require Import RealOps DudeSpec IeeeOps IeeeDudeSpec.
From Verif.Proofs Require Import Base DudeP IeeeP IeeeInfoP IeeeEmleP IeeeDudeP IeeeDudeQ.
Import ListNotations.
Open Scope R_scope.

(** The two counts after smoothing. *)
Definition smoothed64 (l : libm) (t0 t1 : b64) : b64 * b64 :=
  if Bltb t0 (b64_z 1) then (b64_z 1, b64_sub (fsum (Bops l) [b64_z 1; t1]) (b64_z 1))
  else if Bltb t1 (b64_z 1) then (b64_sub (fsum (Bops l) [t0; b64_z 1]) (b64_z 1), b64_z 1) else (t0, t1).
Lemma posterior_eq (l : libm) (d : dude (Bops l)) c0 c1 obs (a b c e i00 i01 i10 i11 : b64) : d_size _ d = 2%nat -> d_channel _ d = [[a; b]; [c; e]] -> d_inv _ d = [[i00; i01]; [i10; i11]] ->
  let t0 := fsum (Bops l) [b64_mul (b64_z c0) i00; b64_mul (b64_z c1) i10] in let t1 := fsum (Bops l) [b64_mul (b64_z c0) i01; b64_mul (b64_z c1) i11] in
  let w0 := b64_mul (fst (smoothed64 l t0 t1)) (nth obs [a; b] (b64_z 0)) in let w1 := b64_mul (snd (smoothed64 l t0 t1)) (nth obs [c; e] (b64_z 0)) in
  smooth_posterior (Bops l) d [c0; c1] obs = Ok [b64_div w0 (fsum (Bops l) [w0; w1]); b64_div w1 (fsum (Bops l) [w0; w1])].
Proof.
  intros En Ec Ei t0 t1. unfold smooth_posterior. rewrite En, Ec, Ei.
  assert (Ev : vecmat (Bops l) 2 (map (fz (Bops l)) [c0; c1]) [[i00; i01]; [i10; i11]] = [t0; t1]) by reflexivity. rewrite Ev. clearbody t0 t1. clear Ev.
  cbv beta iota zeta. change (flt (Bops l)) with (@Bltb 53 1024). change (fz (Bops l) 1) with (b64_z 1). change (fsub (Bops l)) with b64_sub. unfold smoothed64.
  destruct (Bltb t0 (b64_z 1)); [|destruct (Bltb t1 (b64_z 1))]; reflexivity.
Qed.

Lemma one_pow : Rabs 1 <= bpow radix2 954.
Proof. rewrite Rabs_pos_eq by lra. change 1 with (bpow radix2 0). apply bpow_le. lia. Qed.
Lemma minus_one s : fin s -> Rabs (val s) <= bpow radix2 955 -> fin (b64_sub s (b64_z 1)) /\ val (b64_sub s (b64_z 1)) = rnd (val s - 1) /\ Rabs (rnd (val s - 1)) <= bpow radix2 956.
Proof.
  intros F B. destruct one as [F1 V1]. assert (K : Rabs (val s - 1) <= bpow radix2 956).
  { apply (sum_two_pow (val s) (-1) 955); [lia|exact B|]. replace (-1) with (- (1)) by ring. rewrite Rabs_Ropp. eapply Rle_trans; [exact one_pow|]. apply bpow_le. lia. }
  destruct (sub_spec s (b64_z 1) F F1) as [G V]; [rewrite V1; eapply pow_big; [|exact K]; lia|]. rewrite V1 in V. split; [exact G|]. split; [exact V|]. apply rnd_bound; [lia|exact K].
Qed.
Lemma smoothed_val (l : libm) t0 t1 : fin t0 -> fin t1 -> Rabs (val t0) <= bpow radix2 954 -> Rabs (val t1) <= bpow radix2 954 ->
  let s := smoothed64 l t0 t1 in fin (fst s) /\ fin (snd s) /\ val (fst s) = fst (smooth64 (val t0) (val t1)) /\ val (snd s) = snd (smooth64 (val t0) (val t1)) /\
  Rabs (val (fst s)) <= bpow radix2 956 /\ Rabs (val (snd s)) <= bpow radix2 956.
Proof.
  intros F0 F1 B0 B1. destruct one as [Fo Vo]. unfold smoothed64, smooth64.
  assert (O : Rabs (val (b64_z 1)) <= bpow radix2 954) by (rewrite Vo; exact one_pow).
  assert (Up : bpow radix2 954 <= bpow radix2 956) by (apply bpow_le; lia).
  assert (D : forall t, fin t -> (Bltb t (b64_z 1) = true <-> val t < 1)) by (intros t Ft; rewrite (ltb_spec t (b64_z 1) Ft Fo), Vo; reflexivity).
  destruct (Bltb t0 (b64_z 1)) eqn:L0; [apply (D t0 F0) in L0; destruct (Rlt_dec (val t0) 1) as [_|N]; [|contradiction]|
    destruct (Rlt_dec (val t0) 1) as [Y|_]; [apply (D t0 F0) in Y; congruence|]].
  - destruct (sum_pair l (b64_z 1) t1 954 ltac:(lia) Fo F1 O B1) as (F & V & B). rewrite Vo in V, B. destruct (minus_one (fsum (Bops l) [b64_z 1; t1]) F) as (G & W & C); [rewrite V; exact B|].
    rewrite V in W, C. cbn [fst snd]. split; [exact Fo|]. split; [exact G|]. split; [exact Vo|]. split; [exact W|]. split; [lra|rewrite W; exact C].
  - destruct (Bltb t1 (b64_z 1)) eqn:L1; [apply (D t1 F1) in L1; destruct (Rlt_dec (val t1) 1) as [_|N]; [|contradiction]|
      destruct (Rlt_dec (val t1) 1) as [Y|_]; [apply (D t1 F1) in Y; congruence|]].
    + destruct (sum_pair l t0 (b64_z 1) 954 ltac:(lia) F0 Fo B0 O) as (F & V & B). rewrite Vo in V, B. destruct (minus_one (fsum (Bops l) [t0; b64_z 1]) F) as (G & W & C); [rewrite V; exact B|].
      rewrite V in W, C. cbn [fst snd]. split; [exact G|]. split; [exact Fo|]. split; [exact W|]. split; [exact Vo|]. split; [rewrite W; exact C|lra].
    + cbn [fst snd]. split; [exact F0|]. split; [exact F1|]. split; [reflexivity|]. split; [reflexivity|]. split; lra.
Qed.
Lemma weight_val s h : fin s -> Rabs (val s) <= bpow radix2 956 -> prob_ok h ->
  fin (b64_mul s h) /\ val (b64_mul s h) = rnd (val s * val h) /\ Rabs (rnd (val s * val h)) <= bpow radix2 956.
Proof.
  intros F B [Fh [H0 H1]]. assert (B' : Rabs (val s * val h) <= bpow radix2 956).
  { rewrite Rabs_mult, (Rabs_pos_eq (val h)) by exact H0. rewrite <- (Rmult_1_r (bpow radix2 956)). apply Rmult_le_compat; auto. apply Rabs_pos. }
  destruct (mul_spec s h F Fh) as [G V]; [eapply pow_big; [|exact B']; lia|]. split; [exact G|]. split; [exact V|]. apply rnd_bound; [lia|exact B'].
Qed.

Lemma rel_abs x X r : rel x X r -> Rabs (x - X) <= X * r.
Proof. unfold rel. intros [H1 H2]. apply Rabs_le. lra. Qed.
Lemma same_rel x r : 0 <= x -> 0 <= r -> rel x x r.
Proof. unfold rel. intros H K. split; nra. Qed.

Definition close_pair (tol : R) (p0 p1 : b64) (P0 P1 : R) : Prop :=
  fin p0 /\ fin p1 /\ 0 < val p0 <= 1 /\ 0 < val p1 <= 1 /\ Rabs (val p0 - P0) <= P0 * tol /\ Rabs (val p1 - P1) <= P1 * tol /\ Rabs (val p0 + val p1 - 1) <= 4 * u.

Lemma input_counts_T delta c0 c1 : input_counts 2 (bsc_inverse delta) [c0; c1] 0 = T0 delta c0 c1 /\ input_counts 2 (bsc_inverse delta) [c0; c1] 1 = T1 delta c0 c1.
Proof. unfold input_counts, bsc_inverse, ent, T0, T1. cbn [seq map nth Rsum fold_right]. split; ring. Qed.

Lemma soft_close (l : libm) (d : dude (Bops l)) f c0 c1 obs : d_size _ d = 2%nat -> d_hard _ d = false -> d_channel _ d = bsc64 f ->
  fin f -> bpow radix2 (-30) <= val f <= 63 / 128 -> near_matrix eta (d_inv _ d) (bsc_inverse (val f)) -> (0 <= c0)%Z -> (0 <= c1)%Z -> (1 <= c0 + c1 <= 2 ^ 30)%Z -> (obs < 2)%nat ->
  exists p0 p1 cost, decide (Bops l) d [c0; c1] obs = Ok (Soft [p0; p1], cost) /\
    let P := soft_estimate (bsc (val f)) (bsc_inverse (val f)) [c0; c1] obs in
    close_pair (64 * (IZR (c0 + c1) * eta)) p0 p1 (nth 0 P 0) (nth 1 P 0).
Proof.
  intros En Eh Ec F Rf Hi H0 H1 H2 Ho. pose proof (bpow_gt_0 radix2 (-30)) as P30. assert (R : 0 <= val f <= 63 / 128) by lra.
  destruct (near_entries f _ R Hi) as (i00 & i01 & i10 & i11 & Ei & Oi & E00 & E01 & E10 & E11).
  inversion_clear Oi as [|? ? O00 Oi']; inversion_clear Oi' as [|? ? O01 Oi]; inversion_clear Oi as [|? ? O10 Oi']; inversion_clear Oi' as [|? ? O11 _].
  assert (C0 : count_ok c0) by (unfold count_ok; lia). assert (C1 : count_ok c1) by (unfold count_ok; lia).
  pose proof (posterior_eq l d c0 c1 obs _ _ _ _ i00 i01 i10 i11 En Ec Ei) as E. cbv zeta in E.
  destruct (inputs_spec l c0 c1 i00 i10 C0 C1 O00 O10) as (F0 & V0 & B0). destruct (inputs_spec l c0 c1 i01 i11 C0 C1 O01 O11) as (F1 & V1 & B1).
  set (t0 := fsum (Bops l) [b64_mul (b64_z c0) i00; b64_mul (b64_z c1) i10]) in *. set (t1 := fsum (Bops l) [b64_mul (b64_z c0) i01; b64_mul (b64_z c1) i11]) in *. clearbody t0 t1.
  destruct (smoothed_val l t0 t1 F0 F1 B0 B1) as (G0 & G1 & S0 & S1 & D0 & D1). set (s0 := fst (smoothed64 l t0 t1)) in *. set (s1 := snd (smoothed64 l t0 t1)) in *. clearbody s0 s1.
  destruct (rest_near f F R) as [Pr Er]. pose proof (prob_flip f F R) as Pf.
  set (h0 := nth obs [b64_sub (b64_z 1) f; f] (b64_z 0)) in *. set (h1 := nth obs [f; b64_sub (b64_z 1) f] (b64_z 0)) in *.
  assert (Hh : prob_ok h0 /\ prob_ok h1 /\ rel (val h0) (ent (bsc (val f)) 0 obs) (2 * u) /\ rel (val h1) (ent (bsc (val f)) 1 obs) (2 * u) /\
    bpow radix2 (-30) <= ent (bsc (val f)) 0 obs <= 1 /\ bpow radix2 (-30) <= ent (bsc (val f)) 1 obs <= 1).
  { assert (Pu : 0 < u) by apply bpow_gt_0. assert (Q1 : rel (val (b64_sub (b64_z 1) f)) (1 - val f) (2 * u)) by (apply abs_in in Er; unfold rel; split; nra).
    assert (Q2 : rel (val f) (val f) (2 * u)) by (apply same_rel; lra). assert (Q3 : bpow radix2 (-30) <= / 4) by (change (/ 4) with (bpow radix2 (-2)); apply bpow_le; lia).
    unfold h0, h1, ent, bsc. destruct obs as [|[|]]; [| |lia]; cbn [nth]; repeat split; try assumption; try apply Pr; try apply Pf; try apply Q1; try apply Q2; lra. }
  destruct Hh as (Q0 & Q1 & Rh0 & Rh1 & Bh0 & Bh1). clearbody h0 h1.
  destruct (weight_val s0 h0 G0 D0 Q0) as (X0 & Y0 & Z0). destruct (weight_val s1 h1 G1 D1 Q1) as (X1 & Y1 & Z1).
  (* closeness *)
  destruct (inverse_bounds (val f) R) as (HA & HB & _).
  assert (A64 : Rabs ((1 - val f) / (1 - 2 * val f)) <= 64) by (apply Rabs_le; lra). assert (B64 : Rabs (- val f / (1 - 2 * val f)) <= 64) by (apply Rabs_le; lra).
  destruct (inputs_err c0 c1 _ _ _ _ H0 H1 (proj1 H2) A64 B64 E00 E10) as [M0 N0]. destruct (inputs_err c0 c1 _ _ _ _ H0 H1 (proj1 H2) B64 A64 E01 E11) as [M1 N1].
  fold (T0 (val f) c0 c1) in M0, N0. fold (T1 (val f) c0 c1) in M1, N1. rewrite <- V0 in M0. rewrite <- V1 in M1.
  assert (Hn : 1 <= IZR (c0 + c1) <= 1073741824) by (split; apply IZR_le; lia).
  assert (Case : 2 <= IZR (c0 + c1) \/ 1 + IZR (c0 + c1) * (2 * eta) < T0 (val f) c0 c1 \/ 1 + IZR (c0 + c1) * (2 * eta) < T1 (val f) c0 c1).
  { assert (K : bpow radix2 (-30) = / 1073741824) by reflexivity. rewrite K in Rf.
    destruct (Z_le_gt_dec 2 (c0 + c1)) as [L|L]; [left; apply IZR_le; exact L|]. right. assert (O : (c0 = 1 /\ c1 = 0 \/ c0 = 0 /\ c1 = 1)%Z) by lia. unfold T0, T1. rewrite eta_val.
    destruct O as [[-> ->]|[-> ->]]; cbn [Z.add Pos.add]; [left|right]; lra. }
  destruct (smooth_close _ _ _ _ _ (proj1 Hn) (proj2 Hn) (T_sum (val f) c0 c1 R) N0 N1 M0 M1 Case) as (K0 & K1 & J0 & J1). rewrite <- S0 in J0. rewrite <- S1 in J1.
  assert (Top : fst (smoothed (T0 (val f) c0 c1) (T1 (val f) c0 c1)) <= 137438953472 /\ snd (smoothed (T0 (val f) c0 c1) (T1 (val f) c0 c1)) <= 137438953472).
  { apply abs_in in N0. apply abs_in in N1. unfold smoothed. destruct (Rlt_dec _ _); [|destruct (Rlt_dec _ _)]; cbn [fst snd]; split; lra. }
  unfold soft_estimate, soft_weights. destruct (input_counts_T (val f) c0 c1) as [I0 I1]. rewrite I0, I1. cbv zeta.
  set (A0 := fst (smoothed (T0 (val f) c0 c1) (T1 (val f) c0 c1))) in *. set (A1 := snd (smoothed (T0 (val f) c0 c1) (T1 (val f) c0 c1))) in *. cbn [fst snd nth].
  destruct (posterior_rel (IZR (c0 + c1)) (val s0) (val s1) A0 A1 (val h0) (val h1) (ent (bsc (val f)) 0 obs) (ent (bsc (val f)) 1 obs) (proj1 Hn) (proj2 Hn)
    (conj K0 (proj1 Top)) (conj K1 (proj2 Top)) J0 J1 Bh0 Bh1 Rh0 Rh1) as (W0 & W1 & L0 & L1 & Ls).
  rewrite <- Y0, <- Y1 in *.
  set (w0 := b64_mul s0 h0) in *. set (w1 := b64_mul s1 h1) in *.
  destruct (sum_pair l w0 w1 956 ltac:(lia) X0 X1 Z0 Z1) as (Fs & Vs & _).
  assert (T0' : val w0 <= val (fsum (Bops l) [w0; w1])) by (rewrite Vs; apply rnd_ge; [apply fmt_val|lra]).
  assert (T1' : val w1 <= val (fsum (Bops l) [w0; w1])) by (rewrite Vs; apply rnd_ge; [apply fmt_val|lra]).
  set (ws := fsum (Bops l) [w0; w1]) in *.
  destruct (quot_le w0 ws X0) as (Fq0 & Vq0 & Bq0); [lra|lra|]. destruct (quot_le w1 ws X1) as (Fq1 & Vq1 & Bq1); [lra|lra|].
  unfold wsum in *. rewrite <- Vs in *. rewrite <- Vq0 in *. rewrite <- Vq1 in *.
  assert (Dec : exists cost, decide (Bops l) d [c0; c1] obs = Ok (@Soft (Bops l) [b64_div w0 ws; b64_div w1 ws], cost)).
  { unfold decide. rewrite Eh. rewrite E. cbn [bind]. eexists. reflexivity. }
  destruct Dec as [cost Dec]. exists (b64_div w0 ws), (b64_div w1 ws), cost. split; [exact Dec|].
  set (P0 := A0 * ent (bsc (val f)) 0 obs / (A0 * ent (bsc (val f)) 0 obs + A1 * ent (bsc (val f)) 1 obs)) in *.
  set (P1 := A1 * ent (bsc (val f)) 1 obs / (A0 * ent (bsc (val f)) 0 obs + A1 * ent (bsc (val f)) 1 obs)) in *.
  assert (PP0 : 0 < A0 * ent (bsc (val f)) 0 obs) by (apply Rmult_lt_0_compat; lra). assert (PP1 : 0 < A1 * ent (bsc (val f)) 1 obs) by (apply Rmult_lt_0_compat; lra).
  assert (Pos0 : 0 < P0) by (apply Rdiv_lt_0_compat; lra). assert (Pos1 : 0 < P1) by (apply Rdiv_lt_0_compat; lra).
  assert (Tol : 64 * (IZR (c0 + c1) * eta) <= / 8) by (rewrite eta_val; lra).
  pose proof (rel_pos _ _ _ Pos0 Tol L0) as U0. pose proof (rel_pos _ _ _ Pos1 Tol L1) as U1.
  split; [exact Fq0|]. split; [exact Fq1|]. split; [split; [lra|apply Bq0]|]. split; [split; [lra|apply Bq1]|]. split; [apply rel_abs; exact L0|]. split; [apply rel_abs; exact L1|exact Ls].
Qed.
