(** Lemmas about the denoisers in double precision: how far they are from the exact ones. *)
From Coq Require Import List ZArith Reals Bool Lia Lra.
From Flocq Require Import Core Relative IEEE754.BinarySingleNaN.
From Verif.Model Require Import Py Float Dude.
From Verif.Spec Require Import RealOps DudeSpec IeeeOps IeeeDudeSpec.
From Verif.Proofs Require Import Base DudeP IeeeP IeeeInfoP IeeeEmleP IeeeDudeP.
Import ListNotations.
Open Scope R_scope.

Lemma eta_val : eta = / 1099511627776.
Proof. reflexivity. Qed.

(** The matrices. *)
Lemma rest_near f : fin f -> 0 <= val f <= 63 / 128 -> prob_ok (b64_sub (b64_z 1) f) /\ Rabs (val (b64_sub (b64_z 1) f) - (1 - val f)) <= u.
Proof.
  intros F R. destruct (rest_spec f F) as (G & V & B & _); [lra|]. split; [split; assumption|]. rewrite V. apply rnd_err. apply Rabs_le. lra.
Qed.
Lemma prob_flip f : fin f -> 0 <= val f <= 63 / 128 -> prob_ok f.
Proof. intros F R. split; [exact F|lra]. Qed.
Lemma channel_ok f : fin f -> 0 <= val f <= 63 / 128 -> Forall prob_ok [b64_sub (b64_z 1) f; f; f; b64_sub (b64_z 1) f].
Proof.
  intros F R. pose proof (proj1 (rest_near f F R)) as P. pose proof (prob_flip f F R) as Q.
  constructor; [exact P|]. constructor; [exact Q|]. constructor; [exact Q|]. constructor; [exact P|constructor].
Qed.
Lemma inverse_bounds delta : 0 <= delta <= 63 / 128 -> let A := (1 - delta) / (1 - 2 * delta) in let B := - delta / (1 - 2 * delta) in
  1 + delta <= A <= 64 /\ -64 <= B <= 0 /\ A + B = 1.
Proof.
  intros R A B. assert (D : / 64 <= 1 - 2 * delta) by lra. assert (P : 0 < 1 - 2 * delta) by lra.
  assert (EA : A * (1 - 2 * delta) = 1 - delta) by (unfold A; field; lra). assert (EB : B * (1 - 2 * delta) = - delta) by (unfold B; field; lra).
  assert (HB : -64 <= B <= 0) by (split; nra). assert (HS : A + B = 1) by (unfold A, B; field; lra). split; [|split; [exact HB|exact HS]]. split; nra.
Qed.
Lemma near_entries f m : 0 <= val f <= 63 / 128 -> near_matrix eta m (bsc_inverse (val f)) ->
  exists i00 i01 i10 i11, m = [[i00; i01]; [i10; i11]] /\ Forall entry_ok [i00; i01; i10; i11] /\
    let A := (1 - val f) / (1 - 2 * val f) in let B := - val f / (1 - 2 * val f) in
    Rabs (val i00 - A) <= eta /\ Rabs (val i01 - B) <= eta /\ Rabs (val i10 - B) <= eta /\ Rabs (val i11 - A) <= eta.
Proof.
  intros R H. unfold near_matrix, bsc_inverse in H. destruct (inverse_bounds (val f) R) as (HA & HB & _).
  set (A := (1 - val f) / (1 - 2 * val f)) in *. set (B := - val f / (1 - 2 * val f)) in *. clearbody A B.
  inversion_clear H as [|r0 ? ? ? Q0 H']. inversion_clear H' as [|r1 ? ? ? Q1 H]. inversion_clear H.
  inversion_clear Q0 as [|i00 ? ? ? E00 H']. inversion_clear H' as [|i01 ? ? ? E01 H]. inversion_clear H.
  inversion_clear Q1 as [|i10 ? ? ? E10 H']. inversion_clear H' as [|i11 ? ? ? E11 H]. inversion_clear H.
  exists i00, i01, i10, i11. split; [reflexivity|].
  assert (K : forall x y, near eta x y -> -64 <= y <= 64 -> entry_ok x).
  { intros x y [Fx Ex] Hy. split; [exact Fx|]. eapply Rle_trans; [|apply (bpow_le radix2 7 900); lia]. change (bpow radix2 7) with 128. rewrite eta_val in Ex. apply abs_in in Ex. apply Rabs_le. lra. }
  split.
  - constructor; [apply (K _ _ E00); lra|]. constructor; [apply (K _ _ E01); lra|]. constructor; [apply (K _ _ E10); lra|]. constructor; [apply (K _ _ E11); lra|constructor].
  - cbv zeta. split; [apply E00|]. split; [apply E01|]. split; [apply E10|apply E11].
Qed.

(** Exact weights. *)
Definition T0 (delta : R) (c0 c1 : Z) : R := IZR c0 * ((1 - delta) / (1 - 2 * delta)) + IZR c1 * (- delta / (1 - 2 * delta)).
Definition T1 (delta : R) (c0 c1 : Z) : R := IZR c0 * (- delta / (1 - 2 * delta)) + IZR c1 * ((1 - delta) / (1 - 2 * delta)).
Lemma gap_1 delta c0 c1 : 0 <= delta <= 63 / 128 -> T1 delta c0 c1 * (1 - delta) - T0 delta c0 c1 * delta = (IZR c1 - share delta * IZR (c0 + c1)) / (1 - 2 * delta).
Proof. intro R. unfold T0, T1, share. rewrite plus_IZR. field. lra. Qed.
Lemma gap_0 delta c0 c1 : 0 <= delta <= 63 / 128 -> T0 delta c0 c1 * (1 - delta) - T1 delta c0 c1 * delta = (IZR c0 - share delta * IZR (c0 + c1)) / (1 - 2 * delta).
Proof. intro R. unfold T0, T1, share. rewrite plus_IZR. field. lra. Qed.
Lemma T_sum delta c0 c1 : 0 <= delta <= 63 / 128 -> T0 delta c0 c1 + T1 delta c0 c1 = IZR (c0 + c1).
Proof. intro R. unfold T0, T1. rewrite plus_IZR. field. lra. Qed.
Lemma over_D delta x y : 0 <= delta <= 63 / 128 -> 0 <= y -> y <= x -> y <= x / (1 - 2 * delta).
Proof. intros R Hy H. apply Rmult_le_reg_r with (1 - 2 * delta); [lra|]. replace (x / (1 - 2 * delta) * (1 - 2 * delta)) with x by (field; lra). nra. Qed.

Lemma hard_close (l : libm) (d : dude (Bops l)) f c0 c1 obs : d_size _ d = 2%nat -> d_hard _ d = true -> d_loss _ d = hamming64 -> d_channel _ d = bsc64 f ->
  fin f -> 0 <= val f <= 63 / 128 -> near_matrix eta (d_inv _ d) (bsc_inverse (val f)) -> count_ok c0 -> count_ok c1 -> (1 <= c0 + c1)%Z -> (obs < 2)%nat ->
  exists v cost, decide (Bops l) d [c0; c1] obs = Ok (Hard v, cost) /\ (v = 0%Z \/ v = 1%Z) /\
    let own := IZR (nth obs [c0; c1] 0%Z) in let all := IZR (c0 + c1) in
    ((share (val f) + 16 * eta) * all <= own -> v = Z.of_nat obs) /\ (own <= (share (val f) - 16 * eta) * all -> v <> Z.of_nat obs).
Proof.
  intros En Eh El Ec F R Hi H0 H1 H2 Ho. destruct (near_entries f _ R Hi) as (i00 & i01 & i10 & i11 & Ei & Oi & E00 & E01 & E10 & E11).
  destruct (hard_64 l d c0 c1 obs _ _ _ _ i00 i01 i10 i11 En Eh El Ec Ei H0 H1 (channel_ok f F R) Oi Ho) as [cost E].
  eexists. exists cost. split; [exact E|]. split; [unfold verdict; destruct (Rlt_dec _ _); auto|]. clear E cost.
  destruct (inverse_bounds (val f) R) as (HA & HB & _).
  assert (A64 : Rabs ((1 - val f) / (1 - 2 * val f)) <= 64) by (apply Rabs_le; lra). assert (B64 : Rabs (- val f / (1 - 2 * val f)) <= 64) by (apply Rabs_le; lra).
  destruct (inputs_err c0 c1 _ _ _ _ (proj1 H0) (proj1 H1) H2 A64 B64 E00 E10) as [X0 Y0]. destruct (inputs_err c0 c1 _ _ _ _ (proj1 H0) (proj1 H1) H2 B64 A64 E01 E11) as [X1 Y1].
  fold (T0 (val f) c0 c1) in X0, Y0. fold (T1 (val f) c0 c1) in X1, Y1. destruct (rest_near f F R) as [[Fr Rr] Er].
  apply IZR_le in H2. assert (U0 : Rabs (val f - val f) <= u) by (rewrite Rminus_diag_eq, Rabs_R0 by reflexivity; apply bpow_ge_0).
  unfold weight. cbv zeta. set (n := IZR (c0 + c1)) in *.
  assert (S0 : 0 <= share (val f)) by (unfold share; nra).
  assert (En1 : 0 < n * eta) by (rewrite eta_val; lra).
  destruct obs as [|[|]]; [| |lia]; cbn [nth].
  - pose proof (weight_err n _ _ _ (1 - val f) H2 X0 Y0 Rr Er) as W0. assert (Rf : 0 <= val f <= 1) by lra. pose proof (weight_err n _ _ _ (val f) H2 X1 Y1 Rf U0) as W1.
    pose proof (gap_0 (val f) c0 c1 R) as G. fold n in G. apply abs_in in W0. apply abs_in in W1. unfold verdict. destruct (Rlt_dec _ _) as [L|L]; split; intro Q; try discriminate; try reflexivity.
    + exfalso. assert (K : 16 * eta * n <= (IZR c0 - share (val f) * n) / (1 - 2 * val f)) by (apply over_D; [exact R| |]; lra). lra.
    + exfalso. assert (K : 16 * eta * n <= (- (IZR c0 - share (val f) * n)) / (1 - 2 * val f)) by (apply over_D; [exact R| |]; lra).
      replace (- (IZR c0 - share (val f) * n) / (1 - 2 * val f)) with (- ((IZR c0 - share (val f) * n) / (1 - 2 * val f))) in K by (field; lra). lra.
  - assert (Rf : 0 <= val f <= 1) by lra. pose proof (weight_err n _ _ _ (val f) H2 X0 Y0 Rf U0) as W0. pose proof (weight_err n _ _ _ (1 - val f) H2 X1 Y1 Rr Er) as W1.
    pose proof (gap_1 (val f) c0 c1 R) as G. fold n in G. apply abs_in in W0. apply abs_in in W1. unfold verdict. destruct (Rlt_dec _ _) as [L|L]; split; intro Q; try discriminate; try reflexivity.
    + exfalso. assert (K : 16 * eta * n <= (- (IZR c1 - share (val f) * n)) / (1 - 2 * val f)) by (apply over_D; [exact R| |]; lra).
      replace (- (IZR c1 - share (val f) * n) / (1 - 2 * val f)) with (- ((IZR c1 - share (val f) * n) / (1 - 2 * val f))) in K by (field; lra). lra.
    + exfalso. assert (K : 16 * eta * n <= (IZR c1 - share (val f) * n) / (1 - 2 * val f)) by (apply over_D; [exact R| |]; lra). lra.
Qed.

(** Soft decisions: smoothing. *)
Definition smooth64 (t0 t1 : R) : R * R :=
  if Rlt_dec t0 1 then (1, rnd (rnd (1 + t1) - 1)) else if Rlt_dec t1 1 then (rnd (rnd (t0 + 1) - 1), 1) else (t0, t1).
Lemma there_and_back n t : 1 <= n -> Rabs t <= 65 * n -> Rabs (rnd (rnd (1 + t) - 1) - t) <= n * eta.
Proof.
  intros Hn B. pose proof (rnd_near (1 + t)) as N1. set (a := rnd (1 + t)) in *. clearbody a. pose proof (rnd_near (a - 1)) as N2. set (b := rnd (a - 1)) in *. clearbody b.
  rewrite u_val, eta_val in *. assert (B1 : Rabs (1 + t) <= 66 * n) by (apply abs_in in B; apply Rabs_le; lra).
  assert (B2 : Rabs (a - 1) <= 67 * n) by (apply abs_in in N1; apply abs_in in B; apply Rabs_le; lra).
  apply abs_in in N1. apply abs_in in N2. apply Rabs_le. lra.
Qed.
Lemma smooth_close n a0 a1 t0 t1 : 1 <= n -> n <= 1073741824 -> a0 + a1 = n -> Rabs a0 <= 64 * n -> Rabs a1 <= 64 * n -> Rabs (t0 - a0) <= n * (2 * eta) -> Rabs (t1 - a1) <= n * (2 * eta) ->
  (2 <= n \/ 1 + n * (2 * eta) < a0 \/ 1 + n * (2 * eta) < a1) ->
  let s := smooth64 t0 t1 in let S := smoothed a0 a1 in 1 <= fst S /\ 1 <= snd S /\ Rabs (fst s - fst S) <= n * (8 * eta) /\ Rabs (snd s - snd S) <= n * (8 * eta).
Proof.
  intros Hn Hm Hs B0 B1 E0 E1 Hc. pose proof eta_val as Ee.
  assert (C0 : Rabs t0 <= 65 * n) by (rewrite Ee in *; apply abs_in in E0; apply abs_in in B0; apply Rabs_le; lra).
  assert (C1 : Rabs t1 <= 65 * n) by (rewrite Ee in *; apply abs_in in E1; apply abs_in in B1; apply Rabs_le; lra).
  pose proof (there_and_back n t1 Hn C1) as K1. pose proof (there_and_back n t0 Hn C0) as K0. rewrite (Rplus_comm 1 t0) in K0.
  assert (P : 0 < n * eta) by (rewrite Ee; lra). clear C0 C1 B0 B1.
  apply abs_in in E0. apply abs_in in E1. apply abs_in in K0. apply abs_in in K1. unfold smooth64, smoothed.
  destruct (Rlt_dec t0 1); [|destruct (Rlt_dec t1 1)]; (destruct (Rlt_dec a0 1); [|destruct (Rlt_dec a1 1)]); cbn [fst snd];
    (split; [|split; [|split]]); try (apply Rabs_le); lra.
Qed.

(** Relative errors. *)
Definition rel (x X r : R) : Prop := X * (1 - r) <= x <= X * (1 + r).
Lemma rel_weaken x X r s : 0 < X -> r <= s -> rel x X r -> rel x X s.
Proof. unfold rel. intros P L [H1 H2]. split; nra. Qed.
Lemma rel_pos x X r : 0 < X -> r <= / 8 -> rel x X r -> X * (7 / 8) <= x.
Proof. unfold rel. intros P L [H1 H2]. nra. Qed.
Lemma rel_add x X y Y r : rel x X r -> rel y Y r -> rel (x + y) (X + Y) r.
Proof. unfold rel. intros [H1 H2] [H3 H4]. split; lra. Qed.
Lemma rel_mul x X y Y r s : 0 < X -> 0 < Y -> 0 <= r <= / 8 -> 0 <= s <= / 8 -> rel x X r -> rel y Y s -> rel (x * y) (X * Y) (r + s + r * s).
Proof.
  unfold rel. intros PX PY Hr Hs [H1 H2] [H3 H4].
  assert (Q0 : 0 <= Y * (1 - s)) by nra. assert (Q1 : 0 <= X * (1 - r)) by nra. assert (Px : 0 <= x) by lra. assert (Py : 0 <= y) by lra. assert (PXY : 0 < X * Y) by nra.
  split.
  - apply Rle_trans with ((X * (1 - r)) * (Y * (1 - s))); [|apply Rmult_le_compat; assumption]. assert (0 <= r * s) by nra. assert (0 <= X * Y * (r * s)) by (apply Rmult_le_pos; lra). lra.
  - apply Rle_trans with ((X * (1 + r)) * (Y * (1 + s))); [apply Rmult_le_compat; assumption|]. lra.
Qed.
Lemma rel_div x X y Y r : 0 < X -> 0 < Y -> 0 <= r <= / 8 -> rel x X r -> rel y Y r -> rel (x / y) (X / Y) (3 * r).
Proof.
  intros PX PY Hr Rx Ry. assert (Py : 0 < y) by (pose proof (rel_pos y Y r PY (proj2 Hr) Ry); lra). unfold rel in *. destruct Rx as [H1 H2], Ry as [H3 H4].
  assert (E : x / y * y = x) by (field; lra). assert (PQ : 0 < X / Y) by (apply Rdiv_lt_0_compat; assumption). assert (EQ : X / Y * Y = X) by (field; lra).
  set (q := x / y) in *. set (Q := X / Y) in *. clearbody q Q. subst X. subst x.
  assert (PYQ : 0 < Q * Y) by (apply Rmult_lt_0_compat; assumption).
  split; apply (Rmult_le_reg_r y); try exact Py.
  - apply Rle_trans with (Q * (1 - 3 * r) * (Y * (1 + r))); [apply Rmult_le_compat_l; [nra|exact H4]|]. apply Rle_trans with (Q * Y * (1 - r)); [|exact H1].
    replace (Q * (1 - 3 * r) * (Y * (1 + r))) with (Q * Y * ((1 - 3 * r) * (1 + r))) by ring. apply Rmult_le_compat_l; [lra|]. nra.
  - apply Rle_trans with (Q * Y * (1 + r)); [exact H2|]. apply Rle_trans with (Q * (1 + 3 * r) * (Y * (1 - r))); [|apply Rmult_le_compat_l; [nra|exact H3]].
    replace (Q * (1 + 3 * r) * (Y * (1 - r))) with (Q * Y * ((1 + 3 * r) * (1 - r))) by ring. apply Rmult_le_compat_l; [lra|]. nra.
Qed.
Lemma rel_rnd x X r : 0 < X -> 0 <= r <= / 8 -> bpow radix2 (-1000) <= x -> rel x X r -> rel (rnd x) X (r + 2 * u).
Proof.
  intros PX Hr Hx [H1 H2]. pose proof (rnd_rel x Hx) as E. fold u in E. apply abs_in in E. assert (Pu : 0 < u) by apply bpow_gt_0. assert (Ux : u * x <= u * (X * 2)) by (apply Rmult_le_compat_l; nra).
  unfold rel. split; lra.
Qed.

(** The soft estimate from the two smoothed counts. *)
Definition wsum (w0 w1 : R) : R := rnd (w0 + w1).
Lemma posterior_rel n s0 s1 A0 A1 h0 h1 H0 H1 : 1 <= n -> n <= 1073741824 -> 1 <= A0 <= 137438953472 -> 1 <= A1 <= 137438953472 -> Rabs (s0 - A0) <= n * (8 * eta) -> Rabs (s1 - A1) <= n * (8 * eta) ->
  bpow radix2 (-30) <= H0 <= 1 -> bpow radix2 (-30) <= H1 <= 1 -> rel h0 H0 (2 * u) -> rel h1 H1 (2 * u) ->
  let w0 := rnd (s0 * h0) in let w1 := rnd (s1 * h1) in
  0 < w0 /\ 0 < w1 /\ rel (rnd (w0 / wsum w0 w1)) (A0 * H0 / (A0 * H0 + A1 * H1)) (64 * (n * eta)) /\ rel (rnd (w1 / wsum w0 w1)) (A1 * H1 / (A0 * H0 + A1 * H1)) (64 * (n * eta)) /\
  Rabs (rnd (w0 / wsum w0 w1) + rnd (w1 / wsum w0 w1) - 1) <= 4 * u.
Proof.
  intros Hn Hm [L0 T0'] [L1 T1'] E0 E1 [P0 Q0] [P1 Q1] R0 R1. set (r := n * eta). assert (Hr : / 1099511627776 <= r <= / 1024) by (unfold r; rewrite eta_val; lra).
  assert (Eu : u = / 9007199254740992) by apply u_val. assert (Pb : 0 < bpow radix2 (-30)) by apply bpow_gt_0.
  assert (Small : bpow radix2 (-1000) <= bpow radix2 (-30) / 8). { replace (bpow radix2 (-30) / 8) with (bpow radix2 (-33)). apply bpow_le; lia. change (-33)%Z with (-30 + -3)%Z. rewrite bpow_plus. reflexivity. }
  assert (Q : forall s A h H, 1 <= A -> Rabs (s - A) <= n * (8 * eta) -> bpow radix2 (-30) <= H -> rel h H (2 * u) -> rel (rnd (s * h)) (A * H) (10 * r) /\ bpow radix2 (-30) / 2 <= rnd (s * h)).
  { intros s A h H LA E P Rh. assert (PH : 0 < H) by lra. assert (PAH : bpow radix2 (-30) <= A * H) by nra.
    assert (Rs : rel s A (8 * r)) by (unfold rel, r; apply abs_in in E; split; [nra|nra]).
    assert (M : rel (s * h) (A * H) (9 * r)). { apply rel_weaken with (8 * r + 2 * u + 8 * r * (2 * u)); [lra| |apply rel_mul; try assumption; lra]. rewrite Eu. lra. }
    pose proof (rel_pos (s * h) (A * H) (9 * r) ltac:(lra) ltac:(lra) M) as Pm.
    assert (N : rel (rnd (s * h)) (A * H) (10 * r)). { apply rel_weaken with (9 * r + 2 * u); [lra|rewrite Eu; lra|]. apply rel_rnd; [lra|lra| |exact M]. lra. }
    split; [exact N|]. pose proof (rel_pos (rnd (s * h)) (A * H) (10 * r) ltac:(lra) ltac:(lra) N). lra. }
  destruct (Q s0 A0 h0 H0 L0 E0 P0 R0) as [W0 M0]. destruct (Q s1 A1 h1 H1 L1 E1 P1 R1) as [W1 M1]. clear Q.
  set (w0 := rnd (s0 * h0)) in *. set (w1 := rnd (s1 * h1)) in *. cbv zeta. split; [lra|]. split; [lra|]. unfold wsum.
  assert (PAH0 : bpow radix2 (-30) <= A0 * H0) by nra. assert (PAH1 : bpow radix2 (-30) <= A1 * H1) by nra.
  pose proof (rel_add _ _ _ _ _ W0 W1) as WS. assert (WS' : rel (rnd (w0 + w1)) (A0 * H0 + A1 * H1) (11 * r)).
  { apply rel_weaken with (10 * r + 2 * u); [lra|rewrite Eu; lra|]. apply rel_rnd; [lra|lra|lra|exact WS]. }
  assert (F0 : fmt w0) by apply rnd_fmt. assert (F1 : fmt w1) by apply rnd_fmt.
  assert (G0 : w0 <= rnd (w0 + w1)) by (apply rnd_ge; [exact F0|lra]). assert (G1 : w1 <= rnd (w0 + w1)) by (apply rnd_ge; [exact F1|lra]).
  pose proof (rnd_rel (w0 + w1) ltac:(lra)) as ES. fold u in ES.
  set (S := rnd (w0 + w1)) in *. assert (PS : 0 < S) by lra.
  assert (SB : S <= (A0 * H0 + A1 * H1) * 2) by (destruct WS' as [_ K]; nra).
  assert (V : forall w A H, 1 <= A -> bpow radix2 (-30) <= H -> rel w (A * H) (10 * r) -> rel (w / S) (A * H / (A0 * H0 + A1 * H1)) (33 * r)).
  { intros w A H LA P Rw. replace (33 * r) with (3 * (11 * r)) by ring. assert (PAH : 0 < A * H) by nra. apply rel_div; [exact PAH|lra|lra| |exact WS']. apply rel_weaken with (10 * r); [exact PAH|lra|exact Rw]. }
  pose proof (V w0 A0 H0 L0 P0 W0) as V0. pose proof (V w1 A1 H1 L1 P1 W1) as V1. clear V.
  assert (Top : A0 * H0 + A1 * H1 <= bpow radix2 38) by (change (bpow radix2 38) with 274877906944; nra).
  assert (Low : forall A H, 1 <= A -> bpow radix2 (-30) <= H -> bpow radix2 (-68) <= A * H / (A0 * H0 + A1 * H1)).
  { intros A H LA P. apply (Rmult_le_reg_r (A0 * H0 + A1 * H1)); [lra|]. replace (A * H / (A0 * H0 + A1 * H1) * (A0 * H0 + A1 * H1)) with (A * H) by (field; lra).
    apply Rle_trans with (bpow radix2 (-68) * bpow radix2 38); [apply Rmult_le_compat_l; [apply bpow_ge_0|exact Top]|]. rewrite <- bpow_plus. change (-68 + 38)%Z with (-30)%Z. nra. }
  assert (Small2 : bpow radix2 (-1000) <= bpow radix2 (-68) * (7 / 8)).
  { apply Rle_trans with (bpow radix2 (-69)); [apply bpow_le; lia|]. change (-69)%Z with (-68 + -1)%Z. rewrite bpow_plus. change (bpow radix2 (-1)) with (/ 2). pose proof (bpow_ge_0 radix2 (-68)). lra. }
  pose proof (Low A0 H0 L0 P0) as Low0. pose proof (Low A1 H1 L1 P1) as Low1. clear Low.
  pose proof (bpow_gt_0 radix2 (-68)) as P68.
  pose proof (rel_pos (w0 / S) (A0 * H0 / (A0 * H0 + A1 * H1)) (33 * r) ltac:(lra) ltac:(lra) V0) as Pv0. pose proof (rel_pos (w1 / S) (A1 * H1 / (A0 * H0 + A1 * H1)) (33 * r) ltac:(lra) ltac:(lra) V1) as Pv1.
  assert (K0 : bpow radix2 (-1000) <= w0 / S) by lra. assert (K1 : bpow radix2 (-1000) <= w1 / S) by lra.
  split; [apply rel_weaken with (33 * r + 2 * u); [lra|rewrite Eu; lra|apply rel_rnd; [lra|lra|exact K0|exact V0]]|].
  split; [apply rel_weaken with (33 * r + 2 * u); [lra|rewrite Eu; lra|apply rel_rnd; [lra|lra|exact K1|exact V1]]|].
  pose proof (rnd_rel _ K0) as N0. pose proof (rnd_rel _ K1) as N1. fold u in N0, N1.
  assert (Sum : w0 / S + w1 / S = (w0 + w1) / S) by (field; lra).
  assert (SumB : 1 - 2 * u <= (w0 + w1) / S <= 1 + 2 * u).
  { apply abs_in in ES. split; apply (Rmult_le_reg_r S); try exact PS; replace ((w0 + w1) / S * S) with (w0 + w1) by (field; lra); rewrite Eu in *; lra. }
  apply abs_in in N0. apply abs_in in N1. rewrite <- Sum in SumB. apply Rabs_le. rewrite Eu in *. lra.
Qed.
