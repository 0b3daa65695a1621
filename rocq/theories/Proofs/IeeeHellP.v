(** Lemmas about binary frequencies and their Hellinger distance in double precision. *)
From Coq Require Import List NArith ZArith Reals Bool Lia Lra Psatz.
From Flocq Require Import Core Relative IEEE754.BinarySingleNaN.
From Verif.Model Require Import Py Float InfoTheory.
From Verif.Spec Require Import RealOps IeeeOps.
From Verif.Proofs Require Import IeeeP IeeeInfoP.
Import ListNotations.
Open Scope R_scope.

Definition u : R := bpow radix2 (-53).
Lemma u_val : u = / IZR (2 ^ 53).
Proof. reflexivity. Qed.
Lemma u_small : 0 < u < / 1000000.
Proof. rewrite u_val. split; [apply Rinv_0_lt_compat, IZR_lt; lia|]. apply Rinv_lt_contravar; [|apply IZR_lt; lia]. apply Rmult_lt_0_compat; apply IZR_lt; lia. Qed.

(** ** Relative error *)
Lemma rnd_rel x : bpow radix2 (-1000) <= x -> exists e, rnd x = x * (1 + e) /\ Rabs e <= u / (1 + u).
Proof.
  intro H. pose proof (bpow_gt_0 radix2 (-1000)) as P.
  destruct (relative_error_N_FLX'_ex radix2 53 ltac:(reflexivity) (fun z => negb (Z.even z)) x) as (e & B & E).
  exists e. split.
  - rewrite <- E. unfold rnd. apply round_FLT_FLX. rewrite Rabs_pos_eq by lra. eapply Rle_trans; [|exact H]. apply bpow_le. lia.
  - replace (u / (1 + u)) with (u_ro radix2 53 / (1 + u_ro radix2 53)); [exact B|]. unfold u_ro. replace (/ 2 * bpow radix2 (- (53) + 1)) with u; [reflexivity|].
    unfold u. change (-53)%Z with (-1 + (-53 + 1))%Z. rewrite bpow_plus. reflexivity.
Qed.
Lemma rnd_up x : bpow radix2 (-1000) <= x -> x * (1 - u) <= rnd x <= x * (1 + u).
Proof.
  intro H. destruct (rnd_rel x H) as (e & -> & B). pose proof (bpow_gt_0 radix2 (-1000)). pose proof u_small.
  assert (u / (1 + u) <= u). { apply (Rmult_le_reg_r (1 + u)); [lra|]. unfold Rdiv. rewrite Rmult_assoc, Rinv_l by lra. nra. }
  apply Rabs_le_inv in B. split; nra.
Qed.
(** ** The square root of a square *)
Lemma sqrt_sqr_exact x : fmt x -> bpow radix2 (-500) <= x -> rnd (sqrt (rnd (x * x))) = x.
Proof.
  intros Fx H. pose proof (bpow_gt_0 radix2 (-500)) as P. pose proof u_small as U. assert (Px : 0 < x) by lra.
  assert (H2 : bpow radix2 (-1000) <= x * x).
  { change (-1000)%Z with (-500 + -500)%Z. rewrite bpow_plus. apply Rmult_le_compat; lra. }
  destruct (rnd_rel (x * x) H2) as (e & E & B). pose proof (bpow_gt_0 radix2 (-1000)) as P'.
  assert (B' : Rabs e <= u / (1 + u)) by exact B. apply Rabs_le_inv in B.
  assert (Q : u / (1 + u) = 1 - / (1 + u)) by (field; lra).
  assert (I : (1 - u / 2) * (1 - u / 2) <= / (1 + u)).
  { apply (Rmult_le_reg_r (1 + u)); [lra|]. rewrite Rinv_l by lra. nra. }
  assert (I2 : u / (1 + u) <= u). { apply (Rmult_le_reg_r (1 + u)); [lra|]. unfold Rdiv. rewrite Rmult_assoc, Rinv_l by lra. nra. }
  set (y := sqrt (rnd (x * x))).
  assert (Py : 0 <= rnd (x * x)) by (rewrite E; apply Rmult_le_pos; nra).
  assert (L : x * (1 - u / 2) <= y).
  { unfold y. rewrite <- (sqrt_square (x * (1 - u / 2))) by nra. apply sqrt_le_1; [nra|exact Py|]. rewrite E.
    replace (x * (1 - u / 2) * (x * (1 - u / 2))) with (x * x * ((1 - u / 2) * (1 - u / 2))) by ring. apply Rmult_le_compat_l; [nra|]. lra. }
  assert (M : y <= x * (1 + u / 2)).
  { unfold y. rewrite <- (sqrt_square (x * (1 + u / 2))) by nra. apply sqrt_le_1; [exact Py|nra|]. rewrite E.
    replace (x * (1 + u / 2) * (x * (1 + u / 2))) with (x * x * ((1 + u / 2) * (1 + u / 2))) by ring. apply Rmult_le_compat_l; [nra|]. nra. }
  assert (C : ulp radix2 (FLT_exp (-1074) 53) x = bpow radix2 (mag radix2 x - 53)).
  { rewrite ulp_neq_0 by lra. unfold cexp. f_equal. unfold FLT_exp. apply Z.max_l.
    assert (G : (-500 < mag radix2 x)%Z) by (apply mag_gt_bpow; rewrite Rabs_pos_eq by lra; exact H). lia. }
  assert (X : x < bpow radix2 (mag radix2 x)).
  { pose proof (bpow_mag_gt radix2 x) as T. rewrite Rabs_pos_eq in T by lra. exact T. }
  assert (K : x * u < ulp radix2 (FLT_exp (-1074) 53) x).
  { rewrite C. replace (mag radix2 x - 53)%Z with (mag radix2 x + -53)%Z by lia. rewrite bpow_plus. fold u. apply Rmult_lt_compat_r; lra. }
  apply Rle_antisym.
  - unfold rnd. apply round_N_le_midp; [apply vexp|exact Fx|]. rewrite succ_eq_pos by lra. lra.
  - destruct (Req_dec x (bpow radix2 (mag radix2 x - 1))) as [Eb|Nb].
    + assert (Ex : rnd (x * x) = x * x).
      { apply rnd_id. rewrite Eb, <- bpow_plus. apply generic_format_bpow. unfold FLT_exp.
        assert (G : (-500 < mag radix2 x)%Z) by (apply mag_gt_bpow; rewrite Rabs_pos_eq by lra; exact H). lia. }
      unfold y. rewrite Ex, sqrt_square by lra. rewrite rnd_id by exact Fx. lra.
    + unfold rnd. apply round_N_ge_midp; [apply vexp|exact Fx|]. rewrite pred_eq_pos by lra. unfold pred_pos.
      rewrite Req_bool_false by exact Nb. lra.
Qed.

(** ** Two frequencies add up to one *)
Lemma near_one t : 1 - u / 2 <= t <= 1 + u / 2 -> rnd t = 1.
Proof.
  intros [H1 H2]. pose proof u_small as U. apply Rle_antisym.
  - unfold rnd. apply round_N_le_midp; [apply vexp|apply (fmt_IZR 1); lia|]. rewrite succ_eq_pos by lra.
    assert (ulp radix2 (FLT_exp (-1074) 53) 1 = 2 * u); [|lra].
    rewrite ulp_neq_0 by lra. unfold cexp. rewrite mag_1. change (FLT_exp (-1074) 53 1) with (-52)%Z. unfold u. change (-52)%Z with (1 + -53)%Z.
    rewrite bpow_plus. reflexivity.
  - assert (E : rnd (1 - u / 2) = 1); [|rewrite <- E; now apply rnd_le].
    destruct (z_spec 1 ltac:(lia)) as [F1 V1].
    destruct (make_spec 1 (-54)) as [F2 V2].
    { rewrite Rmult_1_l, Rabs_pos_eq by apply bpow_ge_0. apply bpow_le. discriminate. }
    assert (W : val (make 1 (-54)) = u / 2).
    { rewrite V2, Rmult_1_l. rewrite rnd_id by (apply generic_format_bpow; cbn; lia). unfold u. change (-54)%Z with (-53 + -1)%Z. rewrite bpow_plus. reflexivity. }
    destruct (sub_spec (b64_z 1) (make 1 (-54)) F1 F2) as [F3 V3].
    { rewrite V1, W. rewrite Rabs_pos_eq by lra. pose proof big_1. lra. }
    rewrite V1, W in V3. rewrite <- V3. change 1 with (IZR 1). rewrite <- V1.
    assert (Q : B2SF (b64_sub (b64_z 1) (make 1 (-54))) = B2SF (b64_z 1)) by (vm_compute; reflexivity).
    apply B2SF_inj in Q. now rewrite Q.
Qed.
Lemma fmt_grid m e : (Z.abs m <= 2 ^ 53)%Z -> (-1074 <= e)%Z -> fmt (IZR m * bpow radix2 e).
Proof. apply fmt_F2R. Qed.
Lemma complement x : / 2 <= x <= 1 -> rnd (rnd x + rnd (1 - x)) = 1.
Proof.
  intros [H1 H2]. pose proof u_small as U. apply near_one.
  (* rnd x is a multiple of u *)
  assert (M : exists m, rnd x = IZR m * u /\ (2 ^ 52 <= m <= 2 ^ 53)%Z).
  { assert (R : / 2 <= rnd x <= 1).
    { split; [apply rnd_ge; [apply (generic_format_bpow radix2 (FLT_exp (-1074) 53) (-1)); cbn; lia|lra]|apply rnd_le'; [apply (fmt_IZR 1); lia|lra]]. }
    destruct (Req_dec (rnd x) 1) as [E|N].
    - exists (2 ^ 53)%Z. split; [|lia]. rewrite E, u_val. rewrite Rinv_r; [reflexivity|]. apply IZR_neq. lia.
    - pose proof (rnd_fmt x) as F. unfold generic_format in F.
      assert (C : cexp radix2 (FLT_exp (-1074) 53) (rnd x) = (-53)%Z).
      { unfold cexp. rewrite (mag_unique_pos radix2 (rnd x) 0); [reflexivity|]. cbn -[u rnd]. lra. }
      rewrite C in F. unfold F2R in F. cbn [Fnum Fexp] in F. fold u in F. eexists. split; [exact F|].
      set (m := Ztrunc _) in F. rewrite F in R, N. assert (B : IZR (2 ^ 52) <= IZR m <= IZR (2 ^ 53)).
      { assert (Iu : u * IZR (2 ^ 53) = 1) by (rewrite u_val; apply Rinv_l, IZR_neq; lia).
        assert (I2 : IZR (2 ^ 53) = 2 * IZR (2 ^ 52)) by (rewrite <- mult_IZR; reflexivity).
        split; apply (Rmult_le_reg_r u); nra. }
      destruct B as [B1 B2]. apply le_IZR in B1, B2. lia. }
  destruct M as (m & E & Bm).
  assert (Er : Rabs (rnd x - x) <= u / 2).
  { destruct (Rle_lt_or_eq_dec x 1 H2) as [L| -> ].
    - replace (u / 2) with (/ 2 * ulp radix2 (FLT_exp (-1074) 53) x).
      + unfold rnd. apply error_le_half_ulp. apply vexp.
      + rewrite ulp_neq_0 by lra. unfold cexp. rewrite (mag_unique_pos radix2 x 0); [change (FLT_exp (-1074) 53 0) with (-53)%Z; fold u; lra|]. cbn. lra.
    - rewrite rnd_1. replace (1 - 1) with 0 by ring. rewrite Rabs_R0. lra. }
  apply Rabs_le_inv in Er.
  assert (Iu : IZR (2 ^ 53) * u = 1) by (rewrite u_val; apply Rinv_r, IZR_neq; lia).
  assert (A : 1 - rnd x = IZR (2 ^ 53 - m) * u) by (rewrite minus_IZR, Rmult_minus_distr_r, Iu, E; reflexivity).
  assert (G : forall k, IZR (2 ^ 53 - m) * u + IZR k * (u / 2) = IZR (2 * (2 ^ 53 - m) + k) * bpow radix2 (-54)).
  { intro k. rewrite plus_IZR, mult_IZR. replace (bpow radix2 (-54)) with (u / 2); [lra|]. unfold u. change (-54)%Z with (-53 + -1)%Z. rewrite bpow_plus. reflexivity. }
  assert (Lo : 1 - rnd x - u / 2 <= rnd (1 - x)).
  { apply rnd_ge; [|lra]. replace (1 - rnd x - u / 2) with (IZR (2 ^ 53 - m) * u + IZR (-1) * (u / 2)) by (rewrite A; lra). rewrite G. apply fmt_F2R; lia. }
  assert (Hi : rnd (1 - x) <= 1 - rnd x + u / 2).
  { destruct (Z.eq_dec m (2 ^ 52)) as [Em|Nm].
    - apply Rle_trans with (1 - rnd x); [|lra]. rewrite A, Em. apply rnd_le'; [apply fmt_F2R; lia|].
      replace (IZR (2 ^ 53 - 2 ^ 52) * u) with (/ 2); [lra|]. change (2 ^ 53 - 2 ^ 52)%Z with (2 ^ 52)%Z.
      change (IZR (2 ^ 53)) with (IZR (2 * 2 ^ 52)) in Iu. rewrite mult_IZR in Iu. lra.
    - apply rnd_le'; [|lra]. replace (1 - rnd x + u / 2) with (IZR (2 ^ 53 - m) * u + IZR 1 * (u / 2)) by (rewrite A; lra). rewrite G. apply fmt_F2R; lia. }
  lra.
Qed.
Lemma complement' x : 0 <= x <= 1 -> rnd (rnd x + rnd (1 - x)) = 1.
Proof.
  intro H. destruct (Rle_dec (/ 2) x); [apply complement; lra|]. rewrite Rplus_comm. replace x with (1 - (1 - x)) at 2 by ring. apply complement; lra.
Qed.

(** ** The exact distance *)
Lemma affinity p q : 0 <= p <= 1 -> 0 <= q <= 1 -> 0 <= sqrt (p * q) + sqrt ((1 - p) * (1 - q)) <= 1 - (p - q) * (p - q) / 2.
Proof.
  intros Hp Hq. rewrite !sqrt_mult by lra.
  assert (A : sqrt p * sqrt p = p) by (apply sqrt_sqrt; lra). assert (B : sqrt (1 - p) * sqrt (1 - p) = 1 - p) by (apply sqrt_sqrt; lra).
  assert (C : sqrt q * sqrt q = q) by (apply sqrt_sqrt; lra). assert (D : sqrt (1 - q) * sqrt (1 - q) = 1 - q) by (apply sqrt_sqrt; lra).
  pose proof (sqrt_pos p). pose proof (sqrt_pos (1 - p)). pose proof (sqrt_pos q). pose proof (sqrt_pos (1 - q)).
  set (a := sqrt p) in *. set (b := sqrt (1 - p)) in *. set (c := sqrt q) in *. set (e := sqrt (1 - q)) in *.
  split; [apply Rplus_le_le_0_compat; apply Rmult_le_pos; assumption|].
  set (s := a * c + b * e). set (t := a * e - b * c). set (w := a * e + b * c).
  assert (S2 : s * s + t * t = 1).
  { unfold s, t. replace ((a * c + b * e) * (a * c + b * e) + (a * e - b * c) * (a * e - b * c)) with ((a * a + b * b) * (c * c + e * e)) by ring. rewrite A, B, C, D. ring. }
  assert (W2 : w * w <= 1).
  { assert (w * w + (a * c - b * e) * (a * c - b * e) = 1).
    { unfold w. replace ((a * e + b * c) * (a * e + b * c) + (a * c - b * e) * (a * c - b * e)) with ((a * a + b * b) * (c * c + e * e)) by ring. rewrite A, B, C, D. ring. }
    pose proof (Rle_0_sqr (a * c - b * e)) as Q. unfold Rsqr in Q. lra. }
  assert (TW : t * w = p - q).
  { unfold t, w. replace ((a * e - b * c) * (a * e + b * c)) with (a * a * (e * e) - b * b * (c * c)) by ring. rewrite A, B, C, D. ring. }
  assert (L : (p - q) * (p - q) <= t * t).
  { rewrite <- TW. replace (t * w * (t * w)) with (t * t * (w * w)) by ring. assert (0 <= t * t) by nra. nra. }
  assert (Sp : 0 <= s) by (unfold s; apply Rplus_le_le_0_compat; apply Rmult_le_pos; assumption).
  assert (P : (p - q) * (p - q) <= 1) by nra.
  set (d := (p - q) * (p - q)) in *. assert (s * s <= (1 - d / 2) * (1 - d / 2)) by nra. nra.
Qed.

(** ** The distance of two rows of frequencies *)
Definition quot (c n : Z) : b64 := b64_div (b64_z c) (b64_z n).
Lemma frac_min c n : (0 < c)%Z -> (0 < n <= 2 ^ 24)%Z -> bpow radix2 (-24) <= IZR c / IZR n.
Proof.
  intros Hc Hn. assert (Pn : 0 < IZR n) by (apply IZR_lt; lia). change (bpow radix2 (-24)) with (/ IZR (2 ^ 24)).
  rewrite <- (Rmult_1_l (/ IZR (2 ^ 24))). apply Rmult_le_compat; [lra|left; apply Rinv_0_lt_compat, IZR_lt; lia|apply IZR_le; lia|].
  apply Rinv_le; [exact Pn|apply IZR_le; lia].
Qed.
Lemma quot_cases c n : (0 <= c <= n)%Z -> (0 < n <= 2 ^ 24)%Z ->
  fin (quot c n) /\ val (quot c n) = rnd (IZR c / IZR n) /\ 0 <= val (quot c n) <= 1 /\
  (val (quot c n) = 0 /\ c = 0%Z \/ bpow radix2 (-24) <= val (quot c n) /\ bpow radix2 (-24) <= IZR c / IZR n).
Proof.
  intros Hc Hn. destruct (quot_spec c n Hc ltac:(lia)) as (A & B & C & D & _). fold (quot c n) in *. split; [exact A|]. split; [exact B|]. split; [exact C|].
  destruct (Z.eq_dec c 0) as [E|E]; [left; split; [now apply D|exact E]|right].
  pose proof (frac_min c n ltac:(lia) Hn) as M. split; [|exact M]. rewrite B. apply rnd_ge; [apply generic_format_bpow; cbn; lia|exact M].
Qed.
Definition term (p q : b64) : b64 := b64_sqrt (b64_mul p q).
Lemma term_spec (p q : b64) : fin p -> fin q -> 0 <= val p <= 1 -> 0 <= val q <= 1 ->
  fin (term p q) /\ val (term p q) = rnd (sqrt (rnd (val p * val q))) /\ 0 <= val (term p q) <= 1.
Proof.
  intros Fp Fq Rp Rq. assert (R : 0 <= val p * val q <= 1) by nra.
  destruct (mul_spec p q Fp Fq) as [A B]; [rewrite Rabs_pos_eq by lra; pose proof big_1; lra|].
  assert (R' : 0 <= rnd (val p * val q) <= 1) by (split; [apply rnd_ge; [apply fmt_0|lra]|apply rnd_le'; [apply (fmt_IZR 1); lia|lra]]).
  destruct (sqrt_spec _ A) as [C D]; [lra|]. rewrite B in D. split; [exact C|]. split; [exact D|]. unfold term. rewrite D.
  assert (S : 0 <= sqrt (rnd (val p * val q)) <= 1) by (split; [apply sqrt_pos|]; rewrite <- sqrt_1; apply sqrt_le_1; lra).
  split; [apply rnd_ge; [apply fmt_0|lra]|apply rnd_le'; [apply (fmt_IZR 1); lia|lra]].
Qed.
Lemma term_upper c n d m : (0 <= c <= n)%Z -> (0 < n <= 2 ^ 24)%Z -> (0 <= d <= m)%Z -> (0 < m <= 2 ^ 24)%Z ->
  val (term (quot c n) (quot d m)) <= sqrt (IZR c / IZR n * (IZR d / IZR m)) * (1 + u) * (1 + u) * (1 + u).
Proof.
  intros Hc Hn Hd Hm. pose proof u_small as U.
  destruct (quot_cases c n Hc Hn) as (Fp & Vp & Rp & Cp). destruct (quot_cases d m Hd Hm) as (Fq & Vq & Rq & Cq).
  destruct (term_spec _ _ Fp Fq Rp Rq) as (_ & Vt & _). rewrite Vt.
  assert (Z : val (quot c n) = 0 \/ val (quot d m) = 0 -> rnd (sqrt (rnd (val (quot c n) * val (quot d m)))) <= sqrt (IZR c / IZR n * (IZR d / IZR m)) * (1 + u) * (1 + u) * (1 + u)).
  { intro Z. replace (val (quot c n) * val (quot d m)) with 0 by (destruct Z as [-> | -> ]; ring). rewrite rnd_0, sqrt_0, rnd_0.
    pose proof (sqrt_pos (IZR c / IZR n * (IZR d / IZR m))). repeat apply Rmult_le_pos; lra. }
  destruct Cp as [[Z1 _]|[P1 P2]]; [apply Z; auto|]. destruct Cq as [[Z1 _]|[Q1 Q2]]; [apply Z; auto|]. clear Z.
  set (P := IZR c / IZR n) in *. set (Q := IZR d / IZR m) in *. set (p := val (quot c n)) in *. set (q := val (quot d m)) in *. clearbody P Q p q.
  assert (b24 : bpow radix2 (-1000) <= bpow radix2 (-24)) by (apply bpow_le; lia).
  pose proof (bpow_gt_0 radix2 (-24)) as B0. pose proof (bpow_gt_0 radix2 (-48)) as B1.
  assert (b48 : bpow radix2 (-48) = bpow radix2 (-24) * bpow radix2 (-24)) by (rewrite <- bpow_plus; reflexivity).
  destruct (rnd_up P ltac:(lra)) as [_ Up]. destruct (rnd_up Q ltac:(lra)) as [_ Uq]. rewrite <- Vp in Up. rewrite <- Vq in Uq.
  assert (pq48 : bpow radix2 (-48) <= p * q) by (rewrite b48; apply Rmult_le_compat; lra).
  assert (c48 : bpow radix2 (-1000) <= bpow radix2 (-48)) by (apply bpow_le; lia).
  destruct (rnd_up (p * q) ltac:(lra)) as [Lr Ur].
  assert (r48 : bpow radix2 (-48) <= rnd (p * q)) by (apply rnd_ge; [apply generic_format_bpow; cbn; lia|exact pq48]).
  assert (PQ : p * q <= P * Q * ((1 + u) * (1 + u))).
  { replace (P * Q * ((1 + u) * (1 + u))) with (P * (1 + u) * (Q * (1 + u))) by ring. apply Rmult_le_compat; lra. }
  assert (H : rnd (p * q) <= P * Q * ((1 + u) * (1 + u)) * ((1 + u) * (1 + u))).
  { eapply Rle_trans; [exact Ur|]. assert (0 <= P * Q * ((1 + u) * (1 + u))) by (repeat apply Rmult_le_pos; lra).
    apply Rle_trans with (P * Q * ((1 + u) * (1 + u)) * (1 + u)); [apply Rmult_le_compat_r; lra|]. apply Rmult_le_compat_l; [assumption|]. nra. }
  assert (S : sqrt (rnd (p * q)) <= sqrt (P * Q) * ((1 + u) * (1 + u))).
  { rewrite <- (sqrt_square ((1 + u) * (1 + u))) by nra. rewrite <- sqrt_mult by (repeat apply Rmult_le_pos; lra). apply sqrt_le_1; [lra| |].
    - repeat apply Rmult_le_pos; lra.
    - eapply Rle_trans; [exact H|]. right. ring. }
  assert (S24 : bpow radix2 (-24) <= sqrt (rnd (p * q))).
  { rewrite <- (sqrt_square (bpow radix2 (-24))) by lra. rewrite <- b48. apply sqrt_le_1; lra. }
  destruct (rnd_up (sqrt (rnd (p * q))) ltac:(lra)) as [_ Us]. eapply Rle_trans; [exact Us|].
  replace (sqrt (P * Q) * (1 + u) * (1 + u) * (1 + u)) with (sqrt (P * Q) * ((1 + u) * (1 + u)) * (1 + u)) by ring. apply Rmult_le_compat_r; lra.
Qed.
Lemma term_self (p : b64) : fin p -> 0 <= val p <= 1 -> (val p = 0 \/ bpow radix2 (-24) <= val p) -> forall q : b64, fin q -> val q = val p -> val (term p q) = val p.
Proof.
  intros Fp Rp C q Fq E. destruct (term_spec p q Fp Fq Rp ltac:(now rewrite E)) as (_ & V & _). rewrite V, E.
  destruct C as [-> |C]; [rewrite Rmult_0_r, rnd_0, sqrt_0; apply rnd_0|]. apply sqrt_sqr_exact; [apply fmt_val|].
  eapply Rle_trans; [|exact C]. apply bpow_le. lia.
Qed.
Lemma cube : 0 < (1 + u) * (1 + u) * (1 + u) <= 1 + 4 * u.
Proof. pose proof u_small as U. set (v := u) in *. clearbody v. assert (0 <= v * v <= v * / 1000000) by (split; nra). split; nra. Qed.
Lemma margin : (1 - 16 * u) * ((1 + u) * (1 + u) * (1 + u)) <= 1 - 8 * u.
Proof. pose proof u_small as U. pose proof cube as C. set (w := (1 + u) * (1 + u) * (1 + u)) in *. clearbody w. set (v := u) in *. clearbody v. nra. Qed.
Lemma hell_row (l : libm) c n d m : (0 <= c <= n)%Z -> (0 < n)%Z -> (0 <= d <= m)%Z -> (0 < m)%Z -> (n * m <= 2 ^ 24)%Z ->
  exists x, hellinger_row (Bops l) [quot c n; quot (n - c) n] [quot d m; quot (m - d) m] = Ok x /\ fin x /\ 0 <= val x <= 1 /\
    (val x = 0 <-> (c * m = d * n)%Z) /\ ((c * m <> d * n)%Z -> bpow radix2 (-50) <= val x).
Proof.
  intros Hc Hn Hd Hm B. pose proof u_small as U.
  assert (Hn' : (0 < n <= 2 ^ 24)%Z) by nia. assert (Hm' : (0 < m <= 2 ^ 24)%Z) by nia.
  destruct (quot_cases c n Hc Hn') as (Fp & Vp & Rp & Cp). destruct (quot_cases d m Hd Hm') as (Fq & Vq & Rq & Cq).
  destruct (quot_cases (n - c) n ltac:(lia) Hn') as (Fp1 & Vp1 & Rp1 & Cp1). destruct (quot_cases (m - d) m ltac:(lia) Hm') as (Fq1 & Vq1 & Rq1 & Cq1).
  assert (Pn : 0 < IZR n) by (apply IZR_lt; lia). assert (Pm : 0 < IZR m) by (apply IZR_lt; lia).
  assert (En : IZR (n - c) / IZR n = 1 - IZR c / IZR n) by (rewrite minus_IZR; field; lra).
  assert (Em : IZR (m - d) / IZR m = 1 - IZR d / IZR m) by (rewrite minus_IZR; field; lra).
  pose proof (quot_range c n Hc Hn) as RP. pose proof (quot_range d m Hd Hm) as RQ.
  destruct (term_spec _ _ Fp Fq Rp Rq) as (F0 & V0 & R0). destruct (term_spec _ _ Fp1 Fq1 Rp1 Rq1) as (F1 & V1 & R1).
  set (t0 := term (quot c n) (quot d m)) in *. set (t1 := term (quot (n - c) n) (quot (m - d) m)) in *.
  exists (b64_sqrt (b64_sub (b64_z 1) (b64_add (b64_add (b64_z 0) t0) t1))). split; [reflexivity|].
  destruct (z_spec 0 ltac:(lia)) as [Fz Vz]. destruct (z_spec 1 ltac:(lia)) as [Fo Vo].
  destruct (add_spec (b64_z 0) t0 Fz F0) as [Fa Va]; [rewrite Vz; apply big_53; split; [lra|]; apply Rle_trans with 1; [lra|apply IZR_le; lia]|].
  rewrite Vz, Rplus_0_l, (rnd_id _ (fmt_val t0)) in Va.
  destruct (add_spec _ t1 Fa F1) as [Fb Vb]; [rewrite Va; apply big_53; split; [lra|]; apply Rle_trans with 2; [lra|apply IZR_le; lia]|].
  rewrite Va in Vb. set (b := b64_add (b64_add (b64_z 0) t0) t1) in *.
  assert (Key : val b <= 1 /\ ((c * m = d * n)%Z -> val b = 1) /\ ((c * m <> d * n)%Z -> val b <= 1 - 8 * u)).
  { destruct (Z.eq_dec (c * m) (d * n)) as [E|N].
    - assert (EP : IZR c / IZR n = IZR d / IZR m).
      { apply (Rmult_eq_reg_r (IZR n * IZR m)); [|nra]. replace (IZR c / IZR n * (IZR n * IZR m)) with (IZR c * IZR m) by (field; lra).
        replace (IZR d / IZR m * (IZR n * IZR m)) with (IZR d * IZR n) by (field; lra). now rewrite <- !mult_IZR, E. }
      assert (T0 : val t0 = val (quot c n)).
      { apply term_self; auto; [|now rewrite Vp, Vq, EP]. destruct Cp as [[? _]|[? _]]; auto. }
      assert (T1 : val t1 = val (quot (n - c) n)).
      { apply term_self; auto; [|now rewrite Vp1, Vq1, En, Em, EP]. destruct Cp1 as [[? _]|[? _]]; auto. }
      rewrite T0, T1, Vp, Vp1, En in Vb. rewrite complement' in Vb by exact RP. rewrite Vb. split; [lra|]. split; [auto|intro; contradiction].
    - assert (val b <= 1 - 8 * u); [|split; [lra|]; split; [intro; contradiction|auto]].
      rewrite Vb. apply rnd_le'.
      { replace (1 - 8 * u) with (IZR (2 ^ 53 - 8) * bpow radix2 (-53)); [apply fmt_F2R; lia|]. fold u. rewrite minus_IZR, Rmult_minus_distr_r.
        rewrite u_val at 1. rewrite Rinv_r by (apply IZR_neq; lia). reflexivity. }
      pose proof (term_upper c n d m Hc Hn' Hd Hm') as T0. pose proof (term_upper (n - c) n (m - d) m ltac:(lia) Hn' ltac:(lia) Hm') as T1.
      fold t0 in T0. fold t1 in T1. rewrite En, Em in T1. pose proof (affinity _ _ RP RQ) as A.
      set (P := IZR c / IZR n) in *. set (Q := IZR d / IZR m) in *.
      assert (D : bpow radix2 (-24) <= Rabs (P - Q)).
      { unfold P, Q. replace (IZR c / IZR n - IZR d / IZR m) with (IZR (c * m - d * n) / IZR (n * m)) by (rewrite minus_IZR, !mult_IZR; field; lra).
        unfold Rdiv. rewrite Rabs_mult, <- abs_IZR. rewrite (Rabs_pos_eq (/ IZR (n * m))) by (left; apply Rinv_0_lt_compat, IZR_lt; nia).
        change (Rabs (IZR (c * m - d * n)) * / IZR (n * m)) with (IZR (Z.abs (c * m - d * n)) / IZR (n * m)) || idtac.
        apply (frac_min (Z.abs (c * m - d * n)) (n * m)); [lia|nia]. }
      assert (D2 : 32 * u <= (P - Q) * (P - Q)).
      { rewrite <- (Rabs_pos_eq ((P - Q) * (P - Q))) by apply Rle_0_sqr. rewrite Rabs_mult. unfold u. change 32 with (bpow radix2 5). rewrite <- bpow_plus.
        change (5 + -53)%Z with (-24 + -24)%Z. rewrite bpow_plus. pose proof (bpow_gt_0 radix2 (-24)). apply Rmult_le_compat; lra. }
      set (S := sqrt (P * Q) + sqrt ((1 - P) * (1 - Q))) in *.
      assert (S <= 1 - 16 * u) by lra.
      assert (Sum : val t0 + val t1 <= S * ((1 + u) * (1 + u) * (1 + u))) by (unfold S; lra).
      assert (X : S * ((1 + u) * (1 + u) * (1 + u)) <= (1 - 16 * u) * ((1 + u) * (1 + u) * (1 + u))) by (apply Rmult_le_compat_r; [apply Rlt_le, cube|lra]).
      pose proof margin. lra. }
  destruct Key as (K1 & K2 & K3).
  assert (Nb : 0 <= val b) by (rewrite Vb; apply rnd_ge; [apply fmt_0|lra]).
  destruct (sub_spec (b64_z 1) b Fo Fb) as [Fs Vs]; [rewrite Vo; rewrite Rabs_pos_eq by lra; pose proof big_1; lra|]. rewrite Vo in Vs.
  set (s := b64_sub (b64_z 1) b) in *.
  assert (Rs : 0 <= val s <= 1) by (rewrite Vs; split; [apply rnd_ge; [apply fmt_0|lra]|apply rnd_le'; [apply (fmt_IZR 1); lia|lra]]).
  destruct (sqrt_spec s Fs ltac:(lra)) as [Fx Vx]. split; [exact Fx|].
  assert (Sq : val s <= sqrt (val s) <= 1).
  { split; [|rewrite <- sqrt_1; apply sqrt_le_1; lra]. rewrite <- (sqrt_square (val s)) at 1 by lra. apply sqrt_le_1; nra. }
  assert (Low : (c * m <> d * n)%Z -> 8 * u <= rnd (sqrt (val s))).
  { intro N. specialize (K3 N). assert (val s <= rnd (sqrt (val s))) by (apply rnd_ge; [apply fmt_val|lra]).
    assert (8 * u <= val s); [|lra].
    rewrite Vs. apply rnd_ge; [|lra]. change 8 with (bpow radix2 3). unfold u. rewrite <- bpow_plus. apply generic_format_bpow. cbn. lia. }
  rewrite Vx. split; [split; [apply rnd_ge; [apply fmt_0|lra]|apply rnd_le'; [apply (fmt_IZR 1); lia|lra]]|]. split; [split|].
  - intro Z. destruct (Z.eq_dec (c * m) (d * n)) as [|N]; [assumption|]. exfalso. specialize (Low N). lra.
  - intro E. specialize (K2 E). rewrite K2 in Vs. replace (1 - 1) with 0 in Vs by ring. rewrite rnd_0 in Vs. rewrite Vs, sqrt_0. apply rnd_0.
  - intro N. eapply Rle_trans; [|apply Low, N]. change (-50)%Z with (3 + -53)%Z. rewrite bpow_plus. fold u. change (bpow radix2 3) with 8. lra.
Qed.
