(** Lemmas about models of fields in double precision. *)
From Coq Require Import String List NArith ZArith Reals Bool Lia Lra.
From Flocq Require Import Core Relative IEEE754.BinarySingleNaN.
From Verif.Model Require Import Py Float Struct Segmentation StatModels.
From Verif.Spec Require Import Bytes Bits Frame Describe RealOps Stats IeeeOps IeeeStatSpec IeeeFieldSpec.
From Verif.Proofs Require Import Base BitOpsP StatP IeeeP IeeeInfoP IeeeFitP.
Import ListNotations.
Open Scope R_scope.

(** ** Rounding to whole numbers *)
Lemma ZnearestE_spec x : rounds_to x (ZnearestE x).
Proof.
  pose proof (Znearest_half (fun t => negb (Z.even t)) x) as H. destruct H as [H|H]; [now left|]. right. split; [exact H|].
  pose proof (Zfloor_lb x). pose proof (Zfloor_ub x).
  assert (Hf : x - IZR (Zfloor x) = / 2).
  { destruct (Znearest_DN_or_UP (fun t => negb (Z.even t)) x) as [E|E]; rewrite E in H.
    - rewrite Rabs_pos_eq in H by lra. exact H.
    - assert (C : Zceil x = (Zfloor x + 1)%Z).
      { apply Zceil_floor_neq. intro Q. rewrite Zceil_imp with (n := Zfloor x) in H; [rewrite Q, Rminus_diag_eq, Rabs_R0 in H by lra; lra|]. rewrite minus_IZR. lra. }
      rewrite C, plus_IZR in H. rewrite Rabs_left1 in H by lra. lra. }
  unfold ZnearestE, Znearest. rewrite Rcompare_Eq by exact Hf. destruct (Z.even (Zfloor x)) eqn:Ev; cbn [negb].
  - now apply Z.even_spec.
  - assert (C : Zceil x = (Zfloor x + 1)%Z) by (apply Zceil_floor_neq; lra). rewrite C. apply Z.even_spec. rewrite Z.even_add, Ev. reflexivity.
Qed.
Lemma round_spec (x : b64) : fin x -> exists z, b64_round x = Ok z /\ rounds_to (val x) z.
Proof.
  intro Fx. unfold b64_round. rewrite Fx. exists (ZnearestE (val x)). split; [|apply ZnearestE_spec]. f_equal.
  destruct (Bnearbyint_correct 53 1024 prec_small mode_NE x) as (V & _). apply eq_IZR. rewrite Btrunc_correct by exact prec_small. rewrite V.
  unfold round, scaled_mantissa, cexp, FIX_exp, F2R. cbn [Fnum Fexp Z.opp bpow round_mode]. rewrite !Rmult_1_r. now rewrite Ztrunc_IZR.
Qed.
Lemma rounds_between x z a b : rounds_to x z -> IZR a <= x <= IZR b -> (a <= z <= b)%Z.
Proof.
  intros R [A B]. assert (H : Rabs (x - IZR z) <= / 2) by (destruct R as [R|[R _]]; lra). apply Rabs_le_inv in H.
  split.
  - destruct (Z_le_gt_dec a z) as [L|L]; [exact L|]. assert (IZR (z + 1) <= IZR a) by (apply IZR_le; lia). rewrite plus_IZR in *. lra.
  - destruct (Z_le_gt_dec z b) as [L|L]; [exact L|]. assert (IZR (b + 1) <= IZR z) by (apply IZR_le; lia). rewrite plus_IZR in *. lra.
Qed.

(** Rounding a quotient to a double first does not change the whole number it rounds to. *)
Lemma rounds_rnd s n m z : (0 < n)%Z -> (Z.abs s <= n * m)%Z -> (n * m < 2 ^ 52)%Z -> rounds_to (IZR s / IZR n) z -> rounds_to (rnd (IZR s / IZR n)) z.
Proof.
  intros Hn Hs Hm R. assert (Pn : 0 < IZR n) by now apply IZR_lt. set (q := IZR s / IZR n) in *.
  assert (Qn : q * IZR n = IZR s) by (unfold q; field; lra).
  destruct R as [R|[R Ev]].
  - left.
    assert (E : Rabs (rnd q - q) <= bpow radix2 (-53) * Rabs q).
    { destruct (Z.eq_dec s 0) as [->|N].
      - replace q with 0 by (unfold q; field; lra). rewrite rnd_0, Rminus_0_r, Rabs_R0. lra.
      - assert (B : bpow radix2 (-1022) <= Rabs q).
        { assert (1 <= Rabs (IZR s)) by (rewrite <- abs_IZR; apply IZR_le; lia). apply Rle_trans with (bpow radix2 (-52)); [apply bpow_le; lia|].
          unfold q, Rdiv. rewrite Rabs_mult, (Rabs_pos_eq (/ IZR n)) by (left; now apply Rinv_0_lt_compat).
          apply Rle_trans with (1 * / IZR n); [|apply Rmult_le_compat_r; [left; now apply Rinv_0_lt_compat|exact H]]. rewrite Rmult_1_l.
          change (bpow radix2 (-52)) with (/ IZR (2 ^ 52)). apply Rinv_le; [exact Pn|]. apply IZR_le. assert (1 <= n * m)%Z by lia. assert (1 <= m)%Z by nia. assert (n * 1 <= n * m)%Z by (apply Z.mul_le_mono_nonneg_l; lia). lia. }
        pose proof (relative_error_N_FLT radix2 (-1074) 53 eq_refl (fun z => negb (Z.even z)) q B) as E. eapply Rle_trans; [exact E|].
        apply Rmult_le_compat_r; [apply Rabs_pos|]. change (bpow radix2 (- (53) + 1)) with (/ IZR (2 ^ 52)). change (bpow radix2 (-53)) with (/ IZR (2 ^ 53)). 
        change (2 ^ 53)%Z with 9007199254740992%Z. change (2 ^ 52)%Z with 4503599627370496%Z. lra. }
    assert (G : Rabs (q - IZR z) <= / 2 - / (2 * IZR n)).
    { assert (D : (2 * Z.abs (s - n * z) <= n - 1)%Z).
      { assert (L : IZR (2 * Z.abs (s - n * z)) < IZR n).
        { rewrite mult_IZR, abs_IZR, minus_IZR, mult_IZR, <- Qn. replace (q * IZR n - IZR n * IZR z) with ((q - IZR z) * IZR n) by ring.
          rewrite Rabs_mult, (Rabs_pos_eq (IZR n)) by lra. nra. }
        apply lt_IZR in L. lia. }
      apply IZR_le in D. rewrite mult_IZR, abs_IZR, !minus_IZR, mult_IZR, <- Qn in D. replace (q * IZR n - IZR n * IZR z) with ((q - IZR z) * IZR n) in D by ring.
      rewrite Rabs_mult, (Rabs_pos_eq (IZR n)) in D by lra. apply (Rmult_le_reg_r (2 * IZR n)); [lra|].
      replace ((/ 2 - / (2 * IZR n)) * (2 * IZR n)) with (IZR n - 1) by (field; lra). lra. }
    assert (K : bpow radix2 (-53) * Rabs q < / (2 * IZR n)).
    { assert (Rabs q * IZR n < IZR (2 ^ 52)).
      { rewrite <- (Rabs_pos_eq (IZR n)) by lra. rewrite <- Rabs_mult, Qn, <- abs_IZR. apply IZR_lt. lia. }
      change (bpow radix2 (-53)) with (/ IZR (2 ^ 53)). change (2 ^ 53)%Z with 9007199254740992%Z. change (2 ^ 52)%Z with 4503599627370496%Z in H.
      apply (Rmult_lt_reg_r (2 * IZR n)); [lra|]. rewrite (Rinv_l (2 * IZR n)) by lra. lra. }
    replace (rnd q - IZR z) with ((rnd q - q) + (q - IZR z)) by ring. eapply Rle_lt_trans; [apply Rabs_triang|]. lra.
  - right. assert (Fm : fmt q).
    { assert (Hq : exists k, q = IZR k * bpow radix2 (-1) /\ (Z.abs k <= 2 ^ 53)%Z).
      { assert (T : exists k, 2 * q = IZR k).
        { destruct (Rle_dec 0 (q - IZR z)) as [P|P].
          - rewrite Rabs_pos_eq in R by exact P. exists (2 * z + 1)%Z. rewrite plus_IZR, mult_IZR. lra.
          - rewrite Rabs_left1 in R by lra. exists (2 * z - 1)%Z. rewrite minus_IZR, mult_IZR. lra. }
        destruct T as [k Hk]. exists k. split; [cbn; lra|].
        apply le_IZR. rewrite abs_IZR, <- Hk, Rabs_mult, (Rabs_pos_eq 2) by lra.
        assert (Rabs q * IZR n < IZR (2 ^ 52)).
        { rewrite <- (Rabs_pos_eq (IZR n)) by lra. rewrite <- Rabs_mult, Qn, <- abs_IZR. apply IZR_lt. lia. }
        assert (1 <= IZR n) by (apply IZR_le; lia). pose proof (Rabs_pos q).
        change (2 ^ 53)%Z with 9007199254740992%Z. change (2 ^ 52)%Z with 4503599627370496%Z in H. nra. }
      destruct Hq as (k & -> & Hk). apply fmt_F2R; [exact Hk|lia]. }
    rewrite rnd_id by exact Fm. auto.
Qed.

(** ** The bits of a number *)
Lemma bits_of_double (l : libm) pack ty sz (x : b64) z : integer_type ty sz -> fin x -> rounds_to (val x) z -> (c_signed ty = true \/ 0 <= val x) -> c_ok ty (VInt z) ->
  exists bits, num2bits (Bops l) pack (NNum (FO := Bops l) x) ty = Ok bits /\ bits_of_value ty (VInt z) bits.
Proof.
  intros I Fx R S CO. destruct (round_spec x Fx) as (z' & E & R').
  assert (z' = z). { clear - R R'. assert (A : Rabs (val x - IZR z) <= / 2) by (destruct R as [R|[R _]]; lra).
    assert (A' : Rabs (val x - IZR z') <= / 2) by (destruct R' as [R'|[R' _]]; lra). apply Rabs_le_inv in A, A'.
    assert (D : (Z.abs (z - z') <= 1)%Z). { apply le_IZR. rewrite abs_IZR, minus_IZR. apply Rabs_le. lra. }
    destruct (Z.eq_dec z' z) as [Q|Q]; [exact Q|exfalso].
    assert (T : (z' = z + 1 \/ z = z' + 1)%Z) by lia.
    destruct R as [R|[R Ev]], R' as [R'|[R' Ev']]; try (apply Rabs_def2 in R); try (apply Rabs_def2 in R'); destruct T as [-> | ->]; rewrite plus_IZR in *; try lra;
      apply Z.even_spec in Ev, Ev'; rewrite Z.even_add in *; [rewrite Ev in Ev'|rewrite Ev' in Ev]; discriminate. }
  subst z'.
  assert (Q : (if (negb (c_signed ty) && negb (fle (Bops l) (fz (Bops l) 0%Z) x))%bool then Ok 0%Z else fround (Bops l) x) = Ok z).
  { change (fround (Bops l) x) with (b64_round x). change (fle (Bops l) (fz (Bops l) 0%Z) x) with (Bleb (b64_z 0) x).
    destruct S as [-> |S]; [exact E|]. destruct (z_spec 0 ltac:(lia)) as [F0 V0]. rewrite (proj2 (leb_spec (b64_z 0) x F0 Fx)) by (rewrite V0; exact S).
    now rewrite andb_false_r. }
  destruct (num2bits_int (Bops l) pack ty sz x z I Q) as [A _].
  destruct (int_wire ty sz I) as (f & ch & Df & C & P & NS & SG & UN & CS & S1 & U1 & U2 & U3).
  destruct I as (ch' & C' & NF & NC). destruct (proj1 (pack_one_int ty sz ch z C NF NC) CO) as (b & _ & Hb & Lb & Sb).
  exists (bytes_bits b). split; [apply A; split; [exact CO|]; exists b; auto|].
  exists b. split; [exact Hb|]. split; [exact Sb|]. split; [congruence|]. split; [apply length_bytes_bits|]. intros p Hp. now apply nth_bytes_bits.
Qed.

(** ** Reads after a history *)
Lemma history_reads (FO : fops) pack erf name ty w m h : fm_init FO name ty w = Ok m -> window_ok w ->
  let m' := fm_run FO pack erf m h in
  value_of (fm_get_mean FO m') = (do! s <- stats_of FO (windowed w (added h)) in Ok (fst s)) /\
  value_of (fm_get_std FO m') = (do! s <- stats_of FO (windowed w (added h)) in Ok (snd s)) /\
  value_of (fm_bitwise_mean FO pack m') = (do! s <- stats_of FO (windowed w (added h)) in num2bits FO pack (NNum (fst s)) ty) /\
  forall v, value_of (fm_classify_value FO erf m' v) = (do! s <- stats_of FO (windowed w (added h)) in verdict FO erf s v).
Proof.
  intros I W m'. destruct (history_spec FO pack erf name ty w m h I W) as (C & S & E). fold m' in C, S, E.
  destruct (read_spec FO pack m' C) as (A & B & D). destruct (fm_init_facts _ _ _ _ _ I) as (_ & _ & _ & T & _).
  destruct S as (_ & ST & _). rewrite E in A, B, D. rewrite <- ST, T in D.
  repeat split; auto. intros v. rewrite classify_spec by exact C. rewrite E. reflexivity.
Qed.
Lemma stats_cons (FO : fops) vs : vs <> [] -> stats_of FO vs = norm_fit FO vs.
Proof. destruct vs; [easy|reflexivity]. Qed.

(** ** Sums between multiples of a representable number *)
Lemma fold_between a b e xs : (0 <= e <= 900)%Z -> Forall (fun x : b64 => fin x /\ IZR a * bpow radix2 e <= val x <= IZR b * bpow radix2 e) xs ->
  forall s k, fin s -> IZR (k * a) * bpow radix2 e <= val s <= IZR (k * b) * bpow radix2 e -> (0 <= k)%Z ->
  ((k + Z.of_nat (length xs)) * Z.abs a <= 2 ^ 53)%Z -> ((k + Z.of_nat (length xs)) * Z.abs b <= 2 ^ 53)%Z ->
  fin (fold_left b64_add xs s) /\
  IZR ((k + Z.of_nat (length xs)) * a) * bpow radix2 e <= val (fold_left b64_add xs s) <= IZR ((k + Z.of_nat (length xs)) * b) * bpow radix2 e.
Proof.
  intros He F. induction F as [|x xs [Fx Rx] F IH]; intros s k Fs Rs Hk Ba Bb; cbn [fold_left length].
  - rewrite Z.add_0_r. auto.
  - cbn [length] in Ba, Bb. assert (Ba' : (Z.abs ((k + 1) * a) <= 2 ^ 53)%Z) by (rewrite Z.abs_mul, (Z.abs_eq (k + 1)) by lia; nia).
    assert (Bb' : (Z.abs ((k + 1) * b) <= 2 ^ 53)%Z) by (rewrite Z.abs_mul, (Z.abs_eq (k + 1)) by lia; nia).
    assert (R : IZR ((k + 1) * a) * bpow radix2 e <= val s + val x <= IZR ((k + 1) * b) * bpow radix2 e).
    { rewrite !Z.mul_add_distr_r, !Z.mul_1_l, !plus_IZR, !Rmult_plus_distr_r. lra. }
    assert (P : forall c, (Z.abs c <= 2 ^ 53)%Z -> - big <= IZR c * bpow radix2 e <= big).
    { intros c Hc. apply Rabs_le_inv. eapply Rle_trans; [apply (bound_F2R c e 53 e); lia|]. apply bpow_le. lia. }
    pose proof (P _ Ba') as Pa. pose proof (P _ Bb') as Pb.
    destruct (add_spec s x Fs Fx) as [Fa Va]; [apply Rabs_le; lra|].
    destruct (IH (b64_add s x) (k + 1)%Z Fa) as [G1 G2]; [|lia|nia|nia|].
    + rewrite Va. split; [apply rnd_ge; [apply fmt_F2R; [exact Ba'|lia]|lra]|apply rnd_le'; [apply fmt_F2R; [exact Bb'|lia]|lra]].
    + split; [exact G1|]. replace (k + Z.of_nat (Datatypes.S (length xs)))%Z with (k + 1 + Z.of_nat (length xs))%Z by lia. exact G2.
Qed.
Lemma fmean_between (l : libm) a b e (xs : list b64) : (0 <= e <= 900)%Z -> Forall (fun x : b64 => fin x /\ IZR a * bpow radix2 e <= val x <= IZR b * bpow radix2 e) xs ->
  xs <> [] -> (Z.of_nat (length xs) <= 2 ^ 53)%Z -> (Z.of_nat (length xs) * Z.abs a <= 2 ^ 53)%Z -> (Z.of_nat (length xs) * Z.abs b <= 2 ^ 53)%Z ->
  fin (fmean (Bops l) xs) /\ IZR a * bpow radix2 e <= val (fmean (Bops l) xs) <= IZR b * bpow radix2 e.
Proof.
  intros He F N Bn Ba Bb. destruct (z_spec 0 ltac:(lia)) as [F0 V0].
  destruct (fold_between a b e xs He F (b64_z 0) 0%Z F0) as [A C]; [rewrite V0; cbn; lra|lia|lia|lia|]. rewrite Z.add_0_l in C.
  set (n := Z.of_nat (length xs)) in *. assert (Hn : (1 <= n)%Z) by (destruct xs; [easy|unfold n; cbn [length]; lia]).
  destruct (z_spec n ltac:(lia)) as [Fk Vk]. assert (Pn : 1 <= IZR n) by now apply IZR_le.
  assert (E : fmean (Bops l) xs = b64_div (fold_left b64_add xs (b64_z 0)) (b64_z n)) by reflexivity. rewrite E. clear E.
  set (s := fold_left b64_add xs (b64_z 0)) in *. rewrite !mult_IZR in C.
  assert (R : IZR a * bpow radix2 e <= val s / IZR n <= IZR b * bpow radix2 e).
  { split; apply (Rmult_le_reg_r (IZR n)); try lra; unfold Rdiv; rewrite (Rmult_assoc (val s)), Rinv_l by lra; lra. }
  assert (P : forall c, (Z.abs c <= 2 ^ 53)%Z -> - big <= IZR c * bpow radix2 e <= big).
  { intros c Hc. apply Rabs_le_inv. eapply Rle_trans; [apply (bound_F2R c e 53 e); lia|]. apply bpow_le. lia. }
  assert (Ha : (Z.abs a <= 2 ^ 53)%Z) by nia. assert (Hb : (Z.abs b <= 2 ^ 53)%Z) by nia. pose proof (P a Ha). pose proof (P b Hb).
  destruct (div_spec s (b64_z n) A) as [Fd Vd]; [rewrite Vk; lra|rewrite Vk; apply Rabs_le; lra|].
  split; [exact Fd|]. rewrite Vd, Vk. split; [apply rnd_ge; [apply fmt_F2R; [exact Ha|lia]|lra]|apply rnd_le'; [apply fmt_F2R; [exact Hb|lia]|lra]].
Qed.
Lemma ints_samples (l : libm) zs : map_res (sample_num (Bops l)) (map VInt zs) = Ok (map b64_z zs).
Proof. induction zs as [|z zs IH]; [reflexivity|]. cbn [map map_res sample_num bind]. now rewrite IH. Qed.
Lemma int_between z a b e : (0 <= e <= 900)%Z -> (Z.abs a <= 2 ^ 53)%Z -> (Z.abs b <= 2 ^ 53)%Z -> (a * 2 ^ e <= z <= b * 2 ^ e)%Z ->
  fin (b64_z z) /\ IZR a * bpow radix2 e <= val (b64_z z) <= IZR b * bpow radix2 e.
Proof.
  intros He Ha Hb [H1 H2]. apply IZR_le in H1, H2. rewrite mult_IZR in H1, H2. assert (Ep : IZR (2 ^ e) = bpow radix2 e) by (apply (IZR_Zpower radix2); lia). rewrite Ep in H1, H2.
  assert (P : forall c, (Z.abs c <= 2 ^ 53)%Z -> - big <= IZR c * bpow radix2 e <= big).
  { intros c Hc. apply Rabs_le_inv. eapply Rle_trans; [apply (bound_F2R c e 53 e); lia|]. apply bpow_le. lia. }
  pose proof (P a Ha). pose proof (P b Hb).
  destruct (make_spec z 0) as [Fz Vz]; [change (bpow radix2 0) with 1; rewrite Rmult_1_r; apply Rabs_le; lra|]. change (make z 0) with (b64_z z) in Fz, Vz. split; [exact Fz|].
  rewrite Vz. change (bpow radix2 0) with 1. rewrite Rmult_1_r.
  split; [apply rnd_ge; [apply fmt_F2R; [exact Ha|lia]|lra]|apply rnd_le'; [apply fmt_F2R; [exact Hb|lia]|lra]].
Qed.

(** ** Bits of the mean of whole numbers *)
Lemma total_mul zs m : Forall (fun z => Z.abs z <= m)%Z zs -> (total_size zs <= Z.of_nat (length zs) * m)%Z.
Proof. induction 1 as [|z zs H F IH]; cbn [total_size fold_right length]; [lia|]. fold (total_size zs). lia. Qed.
Lemma total_between zs a b : Forall (fun z => a <= z <= b)%Z zs -> (Z.of_nat (length zs) * a <= total zs <= Z.of_nat (length zs) * b)%Z.
Proof. induction 1 as [|z zs H F IH]; cbn [total fold_right length]; [lia|]. fold (total zs). lia. Qed.
Definition lowest (ty : string) : Z := if c_signed ty then (- (2 ^ (8 * Z.of_nat (c_size ty)) / 2))%Z else 0%Z.
Definition highest (ty : string) : Z := if c_signed ty then (2 ^ (8 * Z.of_nat (c_size ty)) / 2 - 1)%Z else (2 ^ (8 * Z.of_nat (c_size ty)) - 1)%Z.
Lemma c_ok_between ty sz z : integer_type ty sz -> (c_ok ty (VInt z) <-> (lowest ty <= z <= highest ty)%Z).
Proof.
  intros (ch & C & NF & NC). unfold c_ok, lowest, highest. cbv zeta. set (q := (2 ^ (8 * Z.of_nat (c_size ty)))%Z). clearbody q. set (q2 := (q / 2)%Z). clearbody q2.
  destruct (c_signed ty); split; intro H; [destruct H as [_ H]; lia|split; [exact NF|lia]|destruct H as [_ H]; lia|split; [exact NF|lia]].
Qed.
Lemma mean_bits_exact (l : libm) pack erf name ty sz w m h zs top : fm_init (Bops l) name ty w = Ok m -> window_ok w -> integer_type ty sz ->
  windowed w (added h) = map VInt zs -> zs <> [] -> Forall (fun z => c_ok ty (VInt z)) zs -> Forall (fun z => Z.abs z <= top)%Z zs ->
  (Z.of_nat (length zs) * top < 2 ^ 52)%Z -> (Z.of_nat (length zs) <= 2 ^ 53)%Z ->
  exists z bits, rounds_to (exact_mean zs) z /\ value_of (fm_bitwise_mean (Bops l) pack (fm_run (Bops l) pack erf m h)) = Ok bits /\ bits_of_value ty (VInt z) bits.
Proof.
  intros I W IT E N CO T B Bn. destruct (history_reads (Bops l) pack erf name ty w m h I W) as (_ & _ & A & _).
  pose proof (total_mul zs top T) as TS. pose proof (total_bound zs) as TB.
  destruct (fit_mean l zs N ltac:(lia) Bn) as (mu & sd & Fit & Fm & Vm).
  rewrite E, stats_cons, Fit in A by (destruct zs; [easy|discriminate]). cbn [bind fst] in A.
  set (n := Z.of_nat (length zs)) in *. assert (Hn : (1 <= n)%Z) by (destruct zs; [easy|unfold n; cbn [length]; lia]). assert (Pn : 1 <= IZR n) by now apply IZR_le.
  assert (CB : Forall (fun z => lowest ty <= z <= highest ty)%Z zs) by (eapply Forall_impl; [|exact CO]; intros z; apply (c_ok_between ty sz z IT)).
  apply total_between in CB. fold n in CB. destruct CB as [L1 L2].
  assert (Q : IZR (lowest ty) <= exact_mean zs <= IZR (highest ty)).
  { unfold exact_mean. fold n. apply IZR_le in L1, L2. rewrite mult_IZR in L1, L2. split; apply (Rmult_le_reg_r (IZR n)); try lra; unfold Rdiv; rewrite Rmult_assoc, Rinv_l by lra; lra. }
  set (z := ZnearestE (exact_mean zs)). assert (Rz : rounds_to (exact_mean zs) z) by apply ZnearestE_spec.
  assert (Rm : rounds_to (val mu) z). { rewrite Vm. apply (rounds_rnd (total zs) n top z); [lia|lia|exact B|exact Rz]. }
  destruct (bits_of_double l pack ty sz mu z IT Fm Rm) as (bits & Hb & Vb).
  - destruct (c_signed ty) eqn:S; [now left|right]. rewrite Vm. fold n. change (IZR (total zs) / IZR n) with (exact_mean zs). apply rnd_ge; [apply fmt_0|].
    unfold lowest in Q. rewrite S in Q. lra.
  - apply (c_ok_between ty sz z IT). apply (rounds_between (exact_mean zs)); [exact Rz|exact Q].
  - exists z, bits. split; [exact Rz|]. split; [rewrite A; exact Hb|exact Vb].
Qed.
Lemma mean_bits_between (l : libm) pack erf name ty sz w m h zs a b e : fm_init (Bops l) name ty w = Ok m -> window_ok w -> integer_type ty sz ->
  windowed w (added h) = map VInt zs -> zs <> [] -> (0 <= e <= 900)%Z -> Forall (fun z => a * 2 ^ e <= z <= b * 2 ^ e)%Z zs ->
  c_ok ty (VInt (a * 2 ^ e)) -> c_ok ty (VInt (b * 2 ^ e)) ->
  (Z.of_nat (length zs) <= 2 ^ 53)%Z -> (Z.of_nat (length zs) * Z.abs a <= 2 ^ 53)%Z -> (Z.of_nat (length zs) * Z.abs b <= 2 ^ 53)%Z ->
  exists z bits, (a * 2 ^ e <= z <= b * 2 ^ e)%Z /\ value_of (fm_bitwise_mean (Bops l) pack (fm_run (Bops l) pack erf m h)) = Ok bits /\ bits_of_value ty (VInt z) bits.
Proof.
  intros I W IT E N He F Ca Cb Bn Ba Bb. destruct (history_reads (Bops l) pack erf name ty w m h I W) as (_ & _ & A & _).
  pose proof (fit_eq l (map VInt zs) (map b64_z zs) (ints_samples l zs)) as Fit.
  rewrite E, stats_cons, Fit in A by (destruct zs; [easy|discriminate]). cbn [bind fst] in A.
  assert (Hn : (1 <= Z.of_nat (length zs))%Z) by (destruct zs; [easy|cbn [length]; lia]).
  destruct (fmean_between l a b e (map b64_z zs) He) as [Fm Rm]; rewrite ?map_length; auto.
  { apply Forall_forall. intros x Ix. apply in_map_iff in Ix as (z & <- & Iz). rewrite Forall_forall in F. apply int_between; [exact He|nia|nia|now apply F]. }
  { destruct zs; [easy|discriminate]. }
  set (mu := fmean (Bops l) (map b64_z zs) : b64) in *.
  assert (Ep : IZR (2 ^ e) = bpow radix2 e) by (apply (IZR_Zpower radix2); lia). rewrite <- Ep, <- !mult_IZR in Rm.
  set (z := ZnearestE (val mu)). assert (Rz : rounds_to (val mu) z) by apply ZnearestE_spec.
  assert (Hz : (a * 2 ^ e <= z <= b * 2 ^ e)%Z) by (apply (rounds_between (val mu)); [exact Rz|exact Rm]).
  apply (c_ok_between ty sz _ IT) in Ca, Cb.
  destruct (bits_of_double l pack ty sz mu z IT Fm Rz) as (bits & Hb & Vb).
  - destruct (c_signed ty) eqn:S; [now left|right]. unfold lowest in Ca. rewrite S in Ca. destruct Ca as [Ca _]. apply IZR_le in Ca. lra.
  - apply (c_ok_between ty sz z IT). lia.
  - exists z, bits. split; [exact Hz|]. split; [rewrite A; exact Hb|exact Vb].
Qed.
