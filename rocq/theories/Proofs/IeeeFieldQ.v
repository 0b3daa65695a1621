(** More lemmas about models of fields in double precision: plausibility and constant fields. *)
From Coq Require Import String Ascii List NArith ZArith Reals Bool Lia Lra.
From Flocq Require Import Core IEEE754.BinarySingleNaN.
From Verif.Model Require Import Py Float Dialect ProtocolMeta Struct Mavlink Segmentation StatModels.
From Verif.Spec Require Import Bytes Bits Header Frame Segment Describe RealOps Stats IeeeOps IeeeStatSpec IeeeFieldSpec.
From Verif.Proofs Require Import Base BitOpsP StructP FieldsP StatP LayoutP ValuesP BufModelP PredictP MeanP StatReal StatTop IeeeP IeeeInfoP IeeeFitP IeeeSweepP IeeeFieldP.
Import ListNotations.
Open Scope R_scope.

(** ** The smallest deviation *)
Lemma fmt_min x : fmt x -> 0 < x -> bpow radix2 (-1074) <= x.
Proof.
  intros Fx P. destruct (Rle_lt_dec (bpow radix2 (-1074)) x) as [H|H]; [exact H|exfalso].
  apply FLT_format_generic in Fx; [|reflexivity]. destruct Fx as [[m e] E _ He]. cbn [Fnum Fexp] in He. subst x.
  apply gt_0_F2R in P. cbn [Fnum] in P. unfold F2R in H. cbn [Fnum Fexp] in H.
  assert (1 <= IZR m) by (apply IZR_le; lia). assert (bpow radix2 (-1074) <= bpow radix2 e) by (apply bpow_le; exact He). pose proof (bpow_gt_0 radix2 (-1074)). nra.
Qed.
Lemma spread_min (l : libm) xs : 0 < val (spread l xs) -> bpow radix2 (-537) <= val (spread l xs).
Proof.
  unfold spread. set (X := fmean (Bops l) _). change (Float.F (Bops l)) with b64 in X. clearbody X. intro P.
  destruct (Bsqrt_correct 53 1024 prec_pos prec_small mode_NE X) as (V & _). change (val (b64_sqrt X) = rnd (sqrt (val X))) in V. rewrite V in P |- *.
  destruct (Rle_lt_dec (val X) 0) as [H|H]; [rewrite sqrt_neg_0, rnd_0 in P by exact H; lra|].
  apply rnd_ge; [apply generic_format_bpow; cbn; lia|]. rewrite <- (sqrt_square (bpow radix2 (-537))) by apply bpow_ge_0. rewrite <- bpow_plus.
  apply sqrt_le_1; [apply bpow_ge_0|lra|]. apply fmt_min; [apply fmt_val|exact H].
Qed.

(** ** Plausibility *)
Lemma held_value (l : libm) v : held v -> exists x : b64, value_num (Bops l) v = Some x /\ fin x /\ val x = number v /\ Rabs (number v) <= bpow radix2 200.
Proof.
  intro H. destruct (sample_spec l v H) as (x & E & Fx & Vx & B & _). exists x. split; [|auto]. destruct v as [z|p|b]; [| |destruct H].
  - change (Ok (b64_z z) = Ok x) in E. change (Some (b64_z z) = Some x). congruence.
  - cbn [held] in H. unfold sample_num in E. rewrite H in E. change (Ok (b64_f32 p) = Ok x) in E. change (Some (b64_f32 p) = Some x). congruence.
Qed.
Lemma sqrt2_spec : fin (b64_sqrt (b64_z 2)) /\ val (b64_sqrt (b64_z 2)) = rnd (sqrt 2) /\ 1 <= rnd (sqrt 2).
Proof.
  destruct (z_spec 2 ltac:(lia)) as [F2 V2]. destruct (sqrt_spec _ F2 ltac:(rewrite V2; lra)) as [A B]. rewrite V2 in B. split; [exact A|]. split; [exact B|].
  apply rnd_ge; [apply (fmt_IZR 1); lia|]. rewrite <- sqrt_1 at 1. apply sqrt_le_1; lra.
Qed.
Lemma distance_spec (mu sd x : b64) : fin mu -> fin sd -> fin x -> Rabs (val mu) <= bpow radix2 200 -> Rabs (val x) <= bpow radix2 200 -> bpow radix2 (-537) <= val sd ->
  let q := b64_div (b64_div (Babs (b64_sub mu x)) sd) (b64_sqrt (b64_z 2)) in
  fin q /\ val q = distance64 (val mu) (val sd) (val x) /\ 0 <= val q.
Proof.
  intros Fm Fs Fx Bm Bx Ps q. pose proof (bpow_gt_0 radix2 (-537)) as P0. destruct sqrt2_spec as (F2 & V2 & G2).
  assert (D : Rabs (val mu - val x) <= bpow radix2 201).
  { eapply Rle_trans; [apply Rabs_triang|]. rewrite Rabs_Ropp. change 201%Z with (1 + 200)%Z. rewrite bpow_plus. change (bpow radix2 1) with 2. lra. }
  destruct (sub_spec mu x Fm Fx) as [Fd Vd]; [eapply Rle_trans; [exact D|apply bpow_le; lia]|].
  assert (Fb : fmt (bpow radix2 201)) by (apply generic_format_bpow; cbn; lia).
  assert (D' : 0 <= Rabs (val (b64_sub mu x)) <= bpow radix2 201).
  { split; [apply Rabs_pos|]. rewrite Vd. apply Rabs_le_inv in D. apply Rabs_le. split; [apply rnd_ge; [now apply generic_format_opp|lra]|apply rnd_le'; [exact Fb|lra]]. }
  set (d := b64_sub mu x) in *. assert (Fa : fin (Babs d)) by (unfold fin; rewrite is_finite_Babs; exact Fd). assert (Va : val (Babs d) = Rabs (val d)) by apply B2R_Babs.
  assert (Q : 0 <= Rabs (val d) / val sd <= bpow radix2 738).
  { split; [apply Rmult_le_pos; [lra|left; apply Rinv_0_lt_compat; lra]|]. apply (Rmult_le_reg_r (val sd)); [lra|]. unfold Rdiv. rewrite Rmult_assoc, Rinv_l, Rmult_1_r by lra.
    apply Rle_trans with (bpow radix2 738 * bpow radix2 (-537)); [rewrite <- bpow_plus; apply D'|]. apply Rmult_le_compat_l; [apply bpow_ge_0|exact Ps]. }
  assert (BB : bpow radix2 738 <= big) by (apply bpow_le; lia).
  destruct (div_spec (Babs d) sd Fa) as [Fq Vq]; [lra|rewrite Va, Rabs_pos_eq; lra|]. rewrite Va in Vq.
  assert (Q' : 0 <= val (b64_div (Babs d) sd) <= bpow radix2 738).
  { rewrite Vq. split; [apply rnd_ge; [apply fmt_0|lra]|apply rnd_le'; [apply generic_format_bpow; cbn; lia|lra]]. }
  set (e := b64_div (Babs d) sd) in *.
  assert (Q2 : 0 <= val e / rnd (sqrt 2) <= bpow radix2 738).
  { split; [apply Rmult_le_pos; [lra|left; apply Rinv_0_lt_compat; lra]|]. apply (Rmult_le_reg_r (rnd (sqrt 2))); [lra|]. unfold Rdiv. rewrite Rmult_assoc, Rinv_l, Rmult_1_r by lra. pose proof (bpow_gt_0 radix2 738). nra. }
  destruct (div_spec e (b64_sqrt (b64_z 2)) Fq) as [Fz Vz]; [rewrite V2; lra|rewrite V2, Rabs_pos_eq; lra|].
  split; [exact Fz|]. unfold q. fold d. fold e. rewrite Vz, V2. split; [unfold distance64; now rewrite Vq, Vd|]. apply rnd_ge; [apply fmt_0|lra].
Qed.
Lemma distance_mono mu sd x y : 0 < sd -> Rabs (mu - x) <= Rabs (mu - y) -> distance64 mu sd x <= distance64 mu sd y.
Proof.
  intros P H. unfold distance64. destruct sqrt2_spec as (_ & _ & G2).
  assert (A : forall r, Rabs (rnd r) = rnd (Rabs r)).
  { intro r. destruct (Rle_dec 0 r) as [Hr|Hr].
    - rewrite !Rabs_pos_eq; [reflexivity|exact Hr|]. apply rnd_ge; [apply fmt_0|exact Hr].
    - rewrite (Rabs_left1 r) by lra. rewrite rnd_opp. apply Rabs_left1. apply rnd_le'; [apply fmt_0|lra]. }
  rewrite !A. apply rnd_le, Rmult_le_compat_r; [left; apply Rinv_0_lt_compat; lra|]. apply rnd_le, Rmult_le_compat_r; [left; now apply Rinv_0_lt_compat|]. now apply rnd_le.
Qed.
Lemma distance_0 mu sd : distance64 mu sd mu = 0.
Proof. unfold distance64. rewrite Rminus_diag_eq, rnd_0, Rabs_R0 by reflexivity. unfold Rdiv. rewrite Rmult_0_l, rnd_0, Rmult_0_l. apply rnd_0. Qed.

Lemma verdict_zero (l : libm) erf (mu sd : b64) v : fin mu -> fin sd -> val sd = 0 -> held v ->
  exists p s : b64, verdict (Bops l) erf (mu, sd) v = Ok (p, s) /\ fin p /\ fin s /\ val s = 0 /\
    (number v = val mu -> val p = 1) /\ (number v <> val mu -> val p = 0).
Proof.
  intros Fm Fs Z H. destruct (held_value l v H) as (x & E & Fx & Vx & _). unfold verdict. cbn [fst snd]. rewrite E.
  destruct (z_spec 0 ltac:(lia)) as [F0 V0]. destruct (z_spec 1 ltac:(lia)) as [F1 V1].
  change (fle (Bops l) sd (fz (Bops l) 0%Z)) with (Bleb sd (b64_z 0)). rewrite (proj2 (leb_spec sd (b64_z 0) Fs F0)) by lra.
  change (feq (Bops l) x mu) with (Beqb x mu). destruct (Beqb x mu) eqn:Q.
  - apply (eqb_spec x mu Fx Fm) in Q. exists (b64_z 1), (b64_z 0). split; [reflexivity|]. repeat (split; [assumption|]). split; [auto|]. intro N. exfalso. apply N. congruence.
  - exists (b64_z 0), (b64_z 0). split; [reflexivity|]. repeat (split; [assumption|]). split; [|auto]. intro N. exfalso.
    rewrite (proj2 (eqb_spec x mu Fx Fm)) in Q by congruence. discriminate.
Qed.
Lemma verdict_pos (l : libm) erf (mu sd : b64) v : erf64_like erf -> fin mu -> fin sd -> Rabs (val mu) <= bpow radix2 200 -> bpow radix2 (-537) <= val sd -> held v ->
  exists p q : b64, verdict (Bops l) erf (mu, sd) v = Ok (p, sd) /\ fin p /\ fin q /\ 0 <= val q /\ val q = distance64 (val mu) (val sd) (number v) /\
    val p = rnd (1 - val (erf q)) /\ 0 <= val p <= 1.
Proof.
  intros [EE EM] Fm Fs Bm Ps H. pose proof (bpow_gt_0 radix2 (-537)) as P0. destruct (held_value l v H) as (x & E & Fx & Vx & Bx). unfold verdict. cbn [fst snd]. rewrite E.
  destruct (z_spec 0 ltac:(lia)) as [F0 V0]. destruct (z_spec 1 ltac:(lia)) as [F1 V1].
  change (fle (Bops l) sd (fz (Bops l) 0%Z)) with (Bleb sd (b64_z 0)).
  destruct (Bleb sd (b64_z 0)) eqn:L; [apply (leb_spec sd (b64_z 0) Fs F0) in L; lra|].
  destruct (distance_spec mu sd x Fm Fs Fx Bm ltac:(now rewrite Vx) Ps) as (Fq & Vq & Pq). cbv zeta in Fq, Vq, Pq.
  set (q := b64_div (b64_div (Babs (b64_sub mu x)) sd) (b64_sqrt (b64_z 2))) in *.
  destruct (EE q Fq Pq) as (Fe & Re & _).
  destruct (sub_spec (b64_z 1) (erf q) F1 Fe) as [Fp Vp]; [rewrite V1, Rabs_pos_eq by lra; pose proof big_1; lra|]. rewrite V1 in Vp.
  exists (b64_sub (b64_z 1) (erf q)), q. split; [reflexivity|]. split; [exact Fp|]. split; [exact Fq|]. split; [exact Pq|]. rewrite <- Vx. split; [exact Vq|]. split; [exact Vp|].
  rewrite Vp. split; [apply rnd_ge; [apply fmt_0|lra]|apply rnd_le'; [apply (fmt_IZR 1); lia|lra]].
Qed.

Lemma fit_parts (l : libm) vs : Forall held vs -> vs <> [] -> (Z.of_nat (length vs) <= 2 ^ 40)%Z ->
  exists mu sd : b64, norm_fit (Bops l) vs = Ok (mu, sd) /\ fin mu /\ fin sd /\ Rabs (val mu) <= bpow radix2 200 /\ (val sd = 0 \/ bpow radix2 (-537) <= val sd).
Proof.
  intros H N B. destruct (samples_spec l vs H) as (xs & E & L & S & G). exists (fmean (Bops l) xs), (spread l xs).
  assert (Nx : xs <> []) by (destruct vs, xs; easy).
  destruct (spread_spec l xs S Nx ltac:(now rewrite L)) as (Fs & Ps & _). split; [now apply fit_eq|].
  destruct (fmean_sized l 200 xs ltac:(lia) S Nx ltac:(lia)) as [Fm Bm]. split; [exact Fm|]. split; [exact Fs|]. split; [exact Bm|].
  destruct Ps as [P|P]; [right; now apply spread_min|left; now symmetry].
Qed.
Lemma classify64 (l : libm) pack erf name ty w m h : fm_init (Bops l) name ty w = Ok m -> window_ok w -> erf64_like erf ->
  windowed w (added h) <> [] -> Forall held (windowed w (added h)) -> (Z.of_nat (length (windowed w (added h))) <= 2 ^ 40)%Z ->
  let m' := fm_run (Bops l) pack erf m h in
  exists mu sd : b64, value_of (fm_get_mean (Bops l) m') = Ok mu /\ value_of (fm_get_std (Bops l) m') = Ok sd /\ fin mu /\ fin sd /\ 0 <= val sd /\
    exists plausibility : pyval -> b64,
      (forall v, held v -> exists s : b64, value_of (fm_classify_value (Bops l) erf m' v) = Ok (plausibility v, s) /\ fin s /\ val s = val sd /\
        fin (plausibility v) /\ 0 <= val (plausibility v) <= 1 /\ (number v = val mu -> val (plausibility v) = 1) /\
        (val sd = 0 -> number v <> val mu -> val (plausibility v) = 0) /\
        (0 < val sd -> exists q : b64, fin q /\ val q = distance64 (val mu) (val sd) (number v) /\ val (plausibility v) = rnd (1 - val (erf q)))) /\
      (forall v v', held v -> held v' -> Rabs (val mu - number v) <= Rabs (val mu - number v') -> val (plausibility v') <= val (plausibility v)).
Proof.
  intros I W EL N H B m'. destruct (history_reads (Bops l) pack erf name ty w m h I W) as (A1 & A2 & _ & A3). fold m' in A1, A2, A3.
  destruct (fit_parts l _ H N B) as (mu & sd & Fit & Fm & Fs & Bm & Ps). rewrite (stats_cons (Bops l) _ N), Fit in A1, A2. cbn [bind fst snd] in A1, A2.
  assert (A3' : forall v, value_of (fm_classify_value (Bops l) erf m' v) = verdict (Bops l) erf (mu, sd) v).
  { intro v. rewrite A3, (stats_cons (Bops l) _ N), Fit. reflexivity. }
  clear A3. exists mu, sd. split; [exact A1|]. split; [exact A2|]. split; [exact Fm|]. split; [exact Fs|].
  pose proof (bpow_gt_0 radix2 (-537)) as P0. split; [destruct Ps; lra|].
  exists (fun v => match verdict (Bops l) erf (mu, sd) v with Ok (p, _) => p | Err _ => B754_nan end).
  destruct Ps as [Z|Ps].
  - assert (V : forall v, held v -> _) by (intros v Hv; exact (verdict_zero l erf mu sd v Fm Fs Z Hv)). split.
    + intros v Hv. destruct (V v Hv) as (p & s & E & Fp & Fs' & Vs & P1 & P2). rewrite A3', E. exists s. split; [reflexivity|]. split; [exact Fs'|]. split; [congruence|]. split; [exact Fp|].
      split; [destruct (Req_EM_T (number v) (val mu)) as [Q|Q]; [rewrite (P1 Q)|rewrite (P2 Q)]; lra|]. split; [exact P1|]. split; [intros _; exact P2|]. lra.
    + intros v v' Hv Hv' D. destruct (V v Hv) as (p & s & E & _ & _ & _ & P1 & P2). destruct (V v' Hv') as (p' & s' & E' & _ & _ & _ & P1' & P2'). rewrite E, E'.
      destruct (Req_EM_T (number v) (val mu)) as [Q|Q]; [rewrite (P1 Q); destruct (Req_EM_T (number v') (val mu)) as [Q'|Q']; [rewrite (P1' Q')|rewrite (P2' Q')]; lra|].
      rewrite (P2 Q), P2'; [lra|]. intro Q'. apply Q. assert (D0 : Rabs (val mu - number v') = 0) by (rewrite Q', Rminus_diag_eq, Rabs_R0; reflexivity). rewrite D0 in D. pose proof (Rabs_pos (val mu - number v)).
      destruct (Rcase_abs (val mu - number v)) as [C|C]; [rewrite Rabs_left in D by exact C|rewrite Rabs_right in D by exact C]; lra.
  - assert (V : forall v, held v -> _) by (intros v Hv; exact (verdict_pos l erf mu sd v EL Fm Fs Bm Ps Hv)). split.
    + intros v Hv. destruct (V v Hv) as (p & q & E & Fp & Fq & Pq & Vq & Vp & Rp). rewrite A3', E. exists sd. split; [reflexivity|]. split; [exact Fs|]. split; [reflexivity|]. split; [exact Fp|].
      split; [exact Rp|]. split; [|split; [lra|]].
      * intro Q. rewrite Vp. destruct EL as [EE _]. destruct (EE q Fq Pq) as (_ & _ & E0). rewrite E0 by (rewrite Vq, Q; apply distance_0). rewrite Rminus_0_r. apply rnd_1.
      * intros _. exists q. auto.
    + intros v v' Hv Hv' D. destruct (V v Hv) as (p & q & E & Fp & Fq & Pq & Vq & Vp & Rp). destruct (V v' Hv') as (p' & q' & E' & Fp' & Fq' & Pq' & Vq' & Vp' & Rp'). rewrite E, E', Vp, Vp'.
      apply rnd_le. destruct EL as [_ EM]. assert (val (erf q) <= val (erf q')); [|lra]. apply EM; [exact Fq|exact Fq'|]. split; [exact Pq|]. rewrite Vq, Vq'. apply distance_mono; lra.
Qed.

(** ** Constant fields *)
Lemma equal_repeat v (vs : list pyval) : Forall (fun x => x = v) vs -> vs = repeat v (length vs).
Proof. induction 1 as [|x vs -> F IH]; [reflexivity|]. cbn [length repeat]. now f_equal. Qed.
Lemma number_bits (l : libm) pack ty (mu : b64) v : packs_singles pack -> field_number ty v -> fin mu -> val mu = number v ->
  exists bits, num2bits (Bops l) pack (NNum (FO := Bops l) mu) ty = Ok bits /\ bits_of_value ty v bits.
Proof.
  intros PS Fv Fm Vm. destruct v as [z|p|b]; [| |destruct Fv]; cbn [field_number number] in *.
  - destruct Fv as [[sz IT] CO]. apply (bits_of_double l pack ty sz mu z IT Fm); [|destruct (c_signed ty) eqn:S; [now left|right]|exact CO].
    + left. rewrite Vm, Rminus_diag_eq, Rabs_R0 by reflexivity. lra.
    + apply (c_ok_between ty sz z IT) in CO. unfold lowest in CO. rewrite S in CO. rewrite Vm. apply IZR_le. lia.
  - destruct Fv as (-> & Hp & Ff & Nz). assert (P : pack mu = Ok p) by (apply PS; auto; now rewrite Vm).
    destruct (num2bits_float_bytes (Bops l) pack mu p P Hp) as (b & Hb & Lb & Sb & E). exists (bytes_bits b). split; [exact E|].
    exists b. split; [exact Hb|]. split; [exact Sb|]. split; [rewrite Lb; reflexivity|]. split; [apply length_bytes_bits|]. intros q Hq. now apply nth_bytes_bits.
Qed.
Lemma constant64 (l : libm) pack erf name ty w m h v : fm_init (Bops l) name ty w = Ok m -> window_ok w -> packs_singles pack -> field_number ty v -> held v ->
  windowed w (added h) <> [] -> Forall (fun x => x = v) (windowed w (added h)) -> summable v (length (windowed w (added h))) -> (Z.of_nat (length (windowed w (added h))) <= 2 ^ 53)%Z ->
  let m' := fm_run (Bops l) pack erf m h in
  (exists bits, value_of (fm_bitwise_mean (Bops l) pack m') = Ok bits /\ bits_of_value ty v bits) /\
  forall v', held v' -> exists p s : b64, value_of (fm_classify_value (Bops l) erf m' v') = Ok (p, s) /\ fin p /\ fin s /\ val s = 0 /\
    (number v' = number v -> val p = 1) /\ (number v' <> number v -> val p = 0).
Proof.
  intros I W PS Fv Hv N All S B m'. destruct (history_reads (Bops l) pack erf name ty w m h I W) as (_ & _ & A & C). fold m' in A, C.
  assert (K : (0 < length (windowed w (added h)))%nat) by (destruct (windowed w (added h)); [easy|cbn; lia]).
  destruct (fit_const l v (length (windowed w (added h))) Hv S K B) as (mu & sd & Fit & Fm & Fs & Vm & Vs).
  rewrite <- (equal_repeat v _ All) in Fit. rewrite (stats_cons (Bops l) _ N), Fit in A. cbn [bind fst] in A. split.
  - rewrite A. now apply (number_bits l pack ty mu v).
  - intros v' Hv'. rewrite C, (stats_cons (Bops l) _ N), Fit. cbn [bind]. rewrite <- Vm. now apply verdict_zero.
Qed.

(** A function as required of struct.pack. *)
Lemma f32_pattern p : (p < 2 ^ 32)%N -> p = ((if N.testbit p 31 then 2 ^ 31 else 0) + Z.to_N (f32_exp p) * 2 ^ 23 + Z.to_N (f32_frac p))%N.
Proof.
  intro H. unfold f32_exp, f32_frac. rewrite !N2Z.id. change 255%N with (N.ones 8). change 8388607%N with (N.ones 23). rewrite !N.land_ones.
  rewrite N.shiftr_div_pow2. assert (T : N.testbit p 31 = (2 ^ 31 <=? p)%N).
  { rewrite N.testbit_eqb. assert (Q : (p / 2 ^ 31 < 2)%N) by (apply N.div_lt_upper_bound; [discriminate|exact H]).
    destruct (N.leb_spec (2 ^ 31) p) as [L|L].
    - assert (1 <= p / 2 ^ 31)%N by (apply N.div_le_lower_bound; [discriminate|exact L]). assert (E : (p / 2 ^ 31 = 1)%N) by lia. rewrite E. reflexivity.
    - rewrite N.div_small by exact L. reflexivity. }
  rewrite T. change (2 ^ 32)%N with 4294967296%N in H. change (2 ^ 31)%N with 2147483648%N. change (2 ^ 23)%N with 8388608%N. change (2 ^ 8)%N with 256%N.
  pose proof (N.div_mod p 8388608 ltac:(discriminate)) as D1. pose proof (N.mod_lt p 8388608 ltac:(discriminate)) as D2.
  set (q := (p / 8388608)%N) in *. pose proof (N.div_mod q 256 ltac:(discriminate)) as D3. pose proof (N.mod_lt q 256 ltac:(discriminate)) as D4.
  set (r := (p mod 8388608)%N) in *. set (e := (q mod 256)%N) in *. set (t := (q / 256)%N) in *. clearbody q r e t.
  destruct (N.leb_spec 2147483648 p); lia.
Qed.
Lemma f32_ranges p : (0 <= f32_frac p < 8388608)%Z /\ (0 <= f32_exp p)%Z.
Proof.
  unfold f32_frac, f32_exp. change 8388607%N with (N.ones 23). rewrite N.land_ones. pose proof (N.mod_lt p (2 ^ 23) ltac:(discriminate)) as L.
  change (2 ^ 23)%N with 8388608%N in *. set (q := (p mod 8388608)%N) in *. clearbody q. split; [lia|apply N2Z.is_nonneg].
Qed.
Lemma f32_inj p q : (p < 2 ^ 32)%N -> (q < 2 ^ 32)%N -> f32_real p = f32_real q -> f32_real p <> 0 -> p = q.
Proof.
  intros Hp Hq E N. rewrite (f32_pattern p Hp), (f32_pattern q Hq).
  change (number (VF32 p) = number (VF32 q)) in E. change (number (VF32 p) <> 0) in N. rewrite (number_f32 p), (number_f32 q) in E. rewrite (number_f32 p) in N.
  destruct (f32_ranges p) as [Rp Ep]. destruct (f32_ranges q) as [Rq Eq].
  assert (M : forall r, (0 <= f32_frac r < 8388608)%Z -> (0 <= f32_exp r)%Z -> (0 <= f32_mant r < 2 ^ 24)%Z /\ (f32_exp r <> 0 -> 2 ^ 23 <= f32_mant r)%Z /\ (f32_exp r = 0 -> f32_mant r < 2 ^ 23)%Z).
  { intros r Fr Er. unfold f32_mant. destruct (Z.eqb_spec (f32_exp r) 0); change (2 ^ 24)%Z with 16777216%Z; change (2 ^ 23)%Z with 8388608%Z; lia. }
  destruct (M p Rp Ep) as (Mp & Mp1 & Mp0). destruct (M q Rq Eq) as (Mq & Mq1 & Mq0).
  assert (Sg : forall r, f32_sign r = (if N.testbit r 31 then -1 else 1)%Z) by reflexivity.
  assert (Np : f32_mant p <> 0%Z) by (intro Q; apply N; rewrite Q, Z.mul_0_r; cbn; lra).
  assert (Nq : f32_mant q <> 0%Z). { intro Q. rewrite Q, Z.mul_0_r in E. apply N. rewrite E. cbn. lra. }
  assert (S : N.testbit p 31 = N.testbit q 31).
  { pose proof (bpow_gt_0 radix2 (f32_scale p)). pose proof (bpow_gt_0 radix2 (f32_scale q)). rewrite !Sg in E.
    assert (Pp : 0 < IZR (f32_mant p)) by (apply IZR_lt; lia). assert (Pq : 0 < IZR (f32_mant q)) by (apply IZR_lt; lia).
    destruct (N.testbit p 31), (N.testbit q 31); try reflexivity; exfalso; rewrite !mult_IZR in E; nra. }
  assert (E' : IZR (f32_mant p) * bpow radix2 (f32_scale p) = IZR (f32_mant q) * bpow radix2 (f32_scale q)).
  { rewrite !Sg, S, !mult_IZR in E. destruct (N.testbit q 31); lra. }
  assert (L : forall m m' s s', (0 < m < 2 ^ 24)%Z -> (0 < m')%Z -> IZR m * bpow radix2 s = IZR m' * bpow radix2 s' -> (s < s')%Z -> (2 * m' <= m)%Z).
  { intros m m' s s' Hm Hm' Q Hs. assert (D : bpow radix2 s' = bpow radix2 (s' - s) * bpow radix2 s) by (rewrite <- bpow_plus; f_equal; lia). rewrite D in Q.
    assert (2 <= bpow radix2 (s' - s)) by (change 2 with (bpow radix2 1); apply bpow_le; lia). pose proof (bpow_gt_0 radix2 s).
    assert (IZR m = IZR m' * bpow radix2 (s' - s)) by (apply (Rmult_eq_reg_r (bpow radix2 s)); lra). assert (0 < IZR m') by (apply IZR_lt; lia).
    apply le_IZR. rewrite mult_IZR. nra. }
  assert (Sc : forall r, f32_scale r = (if (f32_exp r =? 0)%Z then -149 else f32_exp r - 150)%Z) by reflexivity.
  assert (Same : f32_scale p = f32_scale q).
  { destruct (Z.lt_trichotomy (f32_scale p) (f32_scale q)) as [C|[C|C]]; [exfalso|exact C|exfalso].
    - assert (K : (2 * f32_mant q <= f32_mant p)%Z) by (apply (L (f32_mant p) (f32_mant q) (f32_scale p) (f32_scale q)); [lia|lia|exact E'|exact C]).
      rewrite !Sc in C. destruct (Z.eqb_spec (f32_exp q) 0) as [Z0|Z0]; [destruct (Z.eqb_spec (f32_exp p) 0); lia|]. specialize (Mq1 Z0). lia.
    - assert (K : (2 * f32_mant p <= f32_mant q)%Z) by (apply (L (f32_mant q) (f32_mant p) (f32_scale q) (f32_scale p)); [lia|lia|exact (eq_sym E')|exact C]).
      rewrite !Sc in C. destruct (Z.eqb_spec (f32_exp p) 0) as [Z0|Z0]; [destruct (Z.eqb_spec (f32_exp q) 0); lia|]. specialize (Mp1 Z0). lia. }
  rewrite Same in E'. apply Rmult_eq_reg_r in E'; [|pose proof (bpow_gt_0 radix2 (f32_scale q)); lra]. apply eq_IZR in E'.
  assert (Ex : f32_exp p = f32_exp q).
  { rewrite !Sc in Same. destruct (Z.eqb_spec (f32_exp p) 0) as [Zp|Zp], (Z.eqb_spec (f32_exp q) 0) as [Zq|Zq]; [congruence| | |lia]; exfalso.
    - specialize (Mp0 Zp). specialize (Mq1 Zq). lia.
    - specialize (Mq0 Zq). specialize (Mp1 Zp). lia. }
  assert (Fx : f32_frac p = f32_frac q) by (unfold f32_mant in E'; rewrite Ex in E'; destruct (f32_exp q =? 0)%Z; lia).
  now rewrite S, Ex, Fx.
Qed.
Definition search_pack (bound : nat) (x : b64) : res N :=
  match find (fun p => f32_finite p && Beqb x (b64_f32 p)) (map N.of_nat (seq 0 bound)) with Some p => Ok p | None => Err StructError end.
Lemma search_packs bound : Z.of_nat bound = (2 ^ 32)%Z -> packs_singles (search_pack bound).
Proof.
  intros B x p Fx Hp Fp V N. unfold search_pack.
  assert (G : forall r, f32_finite r = true -> fin (b64_f32 r) /\ val (b64_f32 r) = f32_real r).
  { intros r Fr. destruct (sample_spec rounded (VF32 r) Fr) as (y & E & Fy & Vy & _). unfold sample_num in E. rewrite Fr in E. change (Ok (b64_f32 r) = Ok y) in E.
    assert (Q : b64_f32 r = y) by congruence. rewrite Q. auto. }
  destruct (find _ _) as [r|] eqn:Fd.
  - apply find_some in Fd as [I Hr]. apply andb_prop in Hr as [Fr Er]. destruct (G r Fr) as [Fb Vb]. apply (eqb_spec x _ Fx Fb) in Er. f_equal.
    apply in_map_iff in I as (k & <- & Ik). apply in_seq in Ik. apply f32_inj; [lia|exact Hp|congruence|congruence].
  - exfalso. assert (I : In p (map N.of_nat (seq 0 bound))) by (apply in_map_iff; exists (N.to_nat p); split; [apply N2Nat.id|apply in_seq; lia]).
    pose proof (find_none _ _ Fd p I) as Hn. cbv beta in Hn. destruct (G p Fp) as [Fb Vb]. rewrite Fp, (proj2 (eqb_spec x _ Fx Fb)) in Hn by congruence. discriminate.
Qed.
Lemma packs_exist : exists pack, packs_singles pack.
Proof. exists (search_pack (Z.to_nat (2 ^ 32))). apply search_packs. apply Z2Nat.id. lia. Qed.

(** ** Buffers *)
Local Close Scope R_scope.
Lemma c_scalar_bytes ty sz a b v : field_number ty v -> sz = c_size ty -> is_bytes a -> is_bytes b -> length a = sz -> length b = sz ->
  c_scalar ty a = v -> c_scalar ty b = v -> a = b.
Proof.
  intros Fv E Ha Hb La Lb Sa Sb. destruct v as [z|p|x]; [| |destruct Fv]; cbn [field_number] in Fv.
  - destruct Fv as [[sz' IT] _]. destruct (int_wire ty sz' IT) as (_ & _ & _ & _ & _ & _ & _ & _ & _ & CS & _). apply (c_scalar_inj ty sz' a b IT); auto; congruence.
  - destruct Fv as (-> & _). change (VF32 (le_number a) = VF32 p) in Sa. change (VF32 (le_number b) = VF32 p) in Sb. apply le_val_inj; auto; [congruence|].
    rewrite (le_number_val a) in Sa. rewrite (le_number_val b) in Sb. assert (Q : VF32 (le_val a) = VF32 (le_val b)) by (rewrite Sa, Sb; reflexivity). inversion Q. reflexivity.
Qed.
Lemma equal_samples64 (l : libm) pack erf w os m idx n s sl j x b p v bit : window_ok w -> reachable (Bops l) pack erf w os m -> packs_singles pack ->
  Forall (plain_in n) s -> disjoint_structure s -> layout s sl -> nth_error sl j = Some x -> bit_in x p ->
  is_bytes b -> length b = n -> s_width x = c_size (s_type x) -> slot_value b x = v -> field_number (s_type x) v -> held v ->
  values_under (s_name x) (recorded os) <> [] ->
  let vs := windowed w (values_under (s_name x) (recorded os)) in
  Forall (fun y => y = v) vs -> summable v (length vs) -> (Z.of_nat (length vs) <= 2 ^ 53)%Z ->
  nth_error idx bit = Some (Z.of_nat p) ->
  forall r, value_of (bitwise_model_mean (Bops l) pack m idx n s) = Ok r -> nth_error r bit = Some (bit_of b p).
Proof.
  intros W R PS P D L J BI Hb Ln Wd SV Fv Hv NE vs All Su Bn Ix r E.
  destruct (reach_inv (Bops l) pack erf w os m W R) as (I & _ & C).
  pose proof (mean_spec (Bops l) pack m idx n s sl C P D L) as H.
  destruct (map_res (mean_bits (Bops l) pack m) sl) as [bs|e] eqn:MB; [|rewrite H in E; discriminate].
  destruct H as (LB & m' & pic & LP & V & _ & PB).
  pose proof (layout_bounds n s sl P L) as BD. rewrite Forall_forall in BD. specialize (BD x (nth_error_In _ _ J)).
  assert (MX : exists bits, mean_bits (Bops l) pack m x = Ok bits /\ bits_of_value (s_type x) v bits).
  { destruct I as (_ & _ & IV). specialize (IV (s_name x)). unfold mean_bits. unfold field_state in IV.
    destruct (bm_get (Bops l) m (s_name x)) as [f|].
    2:{ unfold values_under in NE. rewrite IV in NE. contradiction. }
    destruct IV as (p0 & t & f0 & U & _ & _ & Sm & Co).
    assert (VU : values_under (s_name x) (recorded os) = map fst (p0 :: t)) by (unfold values_under; rewrite U; reflexivity).
    unfold vs in All, Su, Bn. rewrite VU, <- Sm in All, Su, Bn.
    assert (NN : fm_samples (Bops l) f <> []).
    { rewrite Sm. intros Q. apply windowed_nil in Q. discriminate. }
    assert (K : 0 < length (fm_samples (Bops l) f)) by (destruct (fm_samples (Bops l) f); [easy|cbn; lia]).
    destruct (fit_const l v (length (fm_samples (Bops l) f)) Hv Su K Bn) as (mu & sd & Fit & Fm & _ & Vm & _).
    rewrite <- (equal_repeat v _ All) in Fit.
    destruct (read_spec (Bops l) pack f Co) as (Rm & _). rewrite Rm, (stats_cons (Bops l) _ NN), Fit. cbn [bind fst].
    now apply (number_bits l pack (s_type x) mu v). }
  destruct MX as (bits & MX & (b' & Hb' & Sb' & Lb' & LBits & NB)).
  assert (BJ : nth j bs [] = bits).
  { assert (G : forall (l0 : list slot) rs j x, map_res (mean_bits (Bops l) pack m) l0 = Ok rs -> nth_error l0 j = Some x ->
        mean_bits (Bops l) pack m x = Ok (nth j rs [])).
    { clear. induction l0 as [|y t IH]; intros rs j x M N; [destruct j; discriminate|]. cbn [map_res] in M.
      destruct (mean_bits (Bops l) pack m y) as [v|] eqn:Q; cbn [bind] in M; [|discriminate].
      destruct (map_res (mean_bits (Bops l) pack m) t) as [vs|] eqn:T; cbn [bind] in M; [|discriminate].
      inversion M; subst. destruct j; cbn [nth_error nth] in *; [congruence|]. eapply IH; eauto. }
    pose proof (G sl bs j x MB J) as Q. congruence. }
  assert (PN : p < 8 * n) by (destruct BI; lia).
  destruct (PB p PN) as [PB1 _]. specialize (PB1 j x J BI). rewrite BJ in PB1.
  assert (SL : length (firstn (s_width x) (skipn (s_first x) b)) = s_width x) by (rewrite firstn_length, skipn_length; lia).
  assert (BE : b' = firstn (s_width x) (skipn (s_first x) b)).
  { apply (c_scalar_bytes (s_type x) (s_width x) b' _ v Fv Wd Hb'); auto; [apply is_bytes_firstn, is_bytes_skipn; exact Hb|congruence]. }
  assert (PQ : nth p pic false = bit_of b p).
  { rewrite PB1, NB by (rewrite Lb', <- Wd; destruct BI; lia). rewrite BE. unfold bit_of. destruct BI as [Q1 Q2].
    assert (D1 : p / 8 = s_first x + (p - 8 * s_first x) / 8).
    { replace p with ((p - 8 * s_first x) + s_first x * 8) at 1 by lia. rewrite Nat.div_add by lia. lia. }
    assert (M1 : p mod 8 = (p - 8 * s_first x) mod 8).
    { replace p with ((p - 8 * s_first x) + s_first x * 8) at 1 by lia. rewrite Nat.mod_add by lia. reflexivity. }
    rewrite D1, M1. f_equal. assert (LT : (p - 8 * s_first x) / 8 < s_width x) by (apply Nat.div_lt_upper_bound; lia).
    rewrite nth_firstn by exact LT. rewrite nth_skipn. reflexivity. }
  rewrite V in E.
  assert (G : forall l r k q, map_res (index_z pic) l = Ok r -> nth_error l k = Some q -> exists v, index_z pic q = Ok v /\ nth_error r k = Some v).
  { clear. induction l as [|y t IH]; intros r k q M N; [destruct k; discriminate|]. cbn [map_res] in M.
    destruct (index_z pic y) as [v|] eqn:Q; cbn [bind] in M; [|discriminate].
    destruct (map_res (index_z pic) t) as [vs|] eqn:T; cbn [bind] in M; [|discriminate].
    inversion M; subst. destruct k; cbn [nth_error] in *; [exists v; split; congruence|]. eapply IH; eauto. }
  destruct (G idx r bit _ E Ix) as (y & IV & RV).
  rewrite (index_z_ok pic (Z.of_nat p) p false) in IV by (auto; lia). rewrite RV. congruence.
Qed.
