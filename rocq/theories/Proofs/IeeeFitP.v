(** Lemmas about means and deviations in double precision. *)
From Coq Require Import List NArith ZArith Reals Bool Lia Lra.
From Flocq Require Import Core IEEE754.BinarySingleNaN.
From Verif.Model Require Import Py Float Struct StatModels.
From Verif.Spec Require Import RealOps IeeeOps IeeeStatSpec.
From Verif.Proofs Require Import Base IeeeP IeeeInfoP.
Import ListNotations.
Open Scope R_scope.

(** ** Sums of numbers of either sign *)
Definition sized (e : Z) (x : b64) : Prop := fin x /\ Rabs (val x) <= bpow radix2 e.
Lemma fold_sized e l : (0 <= e <= 900)%Z -> Forall (sized e) l -> forall a k, fin a -> Rabs (val a) <= IZR k * bpow radix2 e -> (0 <= k)%Z ->
  (k + Z.of_nat (length l) <= 2 ^ 53)%Z ->
  fin (fold_left b64_add l a) /\ Rabs (val (fold_left b64_add l a)) <= IZR (k + Z.of_nat (length l)) * bpow radix2 e.
Proof.
  intros He F. induction F as [|x l [Fx Rx] F IH]; intros a k Fa Ra Hk B; cbn [length fold_left].
  - split; [exact Fa|]. now rewrite Z.add_0_r.
  - assert (R : Rabs (val a + val x) <= IZR (k + 1) * bpow radix2 e).
    { eapply Rle_trans; [apply Rabs_triang|]. rewrite plus_IZR. lra. }
    assert (Bg : Rabs (val a + val x) <= big).
    { eapply Rle_trans; [exact R|]. apply Rle_trans with (bpow radix2 (53 + e)); [|apply bpow_le; lia]. rewrite bpow_plus. apply Rmult_le_compat_r; [apply bpow_ge_0|].
      change (bpow radix2 53) with (IZR (2 ^ 53)). apply IZR_le. cbn [length] in B. lia. }
    destruct (add_spec a x Fa Fx Bg) as [Fs Vs].
    assert (Fm : fmt (IZR (k + 1) * bpow radix2 e)) by (apply fmt_F2R; cbn [length] in B; lia).
    apply Rabs_le_inv in R.
    destruct (IH (b64_add a x) (k + 1)%Z Fs) as [H1 H2]; [| |cbn [length] in B; lia|].
    + rewrite Vs. apply Rabs_le. split; [apply rnd_ge; [now apply generic_format_opp|lra]|apply rnd_le'; [exact Fm|lra]].
    + lia.
    + split; [exact H1|]. replace (k + Z.of_nat (S (length l)))%Z with (k + 1 + Z.of_nat (length l))%Z by lia. exact H2.
Qed.
Lemma fsum_sized (l : libm) e xs : (0 <= e <= 900)%Z -> Forall (sized e) xs -> (Z.of_nat (length xs) <= 2 ^ 53)%Z ->
  fin (fsum (Bops l) xs) /\ Rabs (val (fsum (Bops l) xs)) <= IZR (Z.of_nat (length xs)) * bpow radix2 e.
Proof.
  intros He F B. destruct (z_spec 0 ltac:(lia)) as [F0 V0].
  destruct (fold_sized e xs He F (b64_z 0) 0%Z F0) as [A C]; [rewrite V0, Rabs_R0; lra|lia|lia|]. split; [exact A|exact C].
Qed.
Lemma fmean_sized (l : libm) e xs : (0 <= e <= 900)%Z -> Forall (sized e) xs -> xs <> [] -> (Z.of_nat (length xs) <= 2 ^ 53)%Z -> sized e (fmean (Bops l) xs).
Proof.
  intros He F N B. destruct (fsum_sized l e xs He F B) as [A C].
  assert (E : fmean (Bops l) xs = b64_div (fsum (Bops l) xs) (b64_z (Z.of_nat (length xs)))) by reflexivity. rewrite E. clear E.
  destruct (z_spec (Z.of_nat (length xs)) ltac:(lia)) as [Fk Vk].
  assert (Pk : 0 < IZR (Z.of_nat (length xs))) by (apply IZR_lt; destruct xs; [easy|cbn [length]; lia]).
  assert (Q : Rabs (val (fsum (Bops l) xs) / val (b64_z (Z.of_nat (length xs)))) <= bpow radix2 e).
  { rewrite Vk. unfold Rdiv. rewrite Rabs_mult. rewrite (Rabs_pos_eq (/ _)) by (left; now apply Rinv_0_lt_compat).
    apply (Rmult_le_reg_r (IZR (Z.of_nat (length xs)))); [exact Pk|]. rewrite Rmult_assoc, Rinv_l by lra. lra. }
  destruct (div_spec _ (b64_z (Z.of_nat (length xs))) A) as [Fd Vd]; [rewrite Vk; lra|eapply Rle_trans; [exact Q|apply bpow_le; lia]|].
  split; [exact Fd|]. rewrite Vd. apply Rabs_le_inv in Q. assert (Fm : fmt (bpow radix2 e)) by (apply generic_format_bpow; unfold FLT_exp; lia).
  apply Rabs_le. split; [apply rnd_ge; [now apply generic_format_opp|lra]|apply rnd_le'; [exact Fm|lra]].
Qed.

(** ** Equal samples *)
Lemma fold_const m e x : fin x -> val x = IZR m * bpow radix2 e -> (-1074 <= e <= 900)%Z -> forall k a j, fin a -> val a = IZR (j * m) * bpow radix2 e ->
  (0 <= j)%Z -> (Z.abs m * (j + Z.of_nat k) <= 2 ^ 53)%Z ->
  fin (fold_left b64_add (repeat x k) a) /\ val (fold_left b64_add (repeat x k) a) = IZR ((j + Z.of_nat k) * m) * bpow radix2 e.
Proof.
  intros Fx Vx He. induction k as [|k IH]; intros a j Fa Va Hj B; cbn [repeat fold_left].
  - split; [exact Fa|]. now rewrite Z.add_0_r.
  - assert (S : val a + val x = IZR ((j + 1) * m) * bpow radix2 e) by (rewrite Va, Vx, <- Rmult_plus_distr_r, <- plus_IZR; do 2 f_equal; lia).
    assert (Bm : (Z.abs ((j + 1) * m) <= 2 ^ 53)%Z) by nia.
    destruct (add_spec a x Fa Fx) as [Fs Vs].
    { rewrite S, Rabs_mult, <- abs_IZR, (Rabs_pos_eq (bpow radix2 e)) by apply bpow_ge_0. apply Rle_trans with (bpow radix2 (53 + e)); [|apply bpow_le; lia].
      rewrite bpow_plus. apply Rmult_le_compat_r; [apply bpow_ge_0|]. change (bpow radix2 53) with (IZR (2 ^ 53)). now apply IZR_le. }
    rewrite S, rnd_id in Vs by (apply fmt_F2R; [exact Bm|lia]).
    destruct (IH (b64_add a x) (j + 1)%Z Fs Vs ltac:(lia) ltac:(lia)) as [H1 H2]. split; [exact H1|]. rewrite H2. do 3 f_equal. lia.
Qed.
Lemma fmean_const (l : libm) m e x k : fin x -> val x = IZR m * bpow radix2 e -> (-1074 <= e <= 900)%Z -> (0 < k)%nat ->
  (Z.abs m * Z.of_nat k <= 2 ^ 53)%Z -> (Z.of_nat k <= 2 ^ 53)%Z ->
  fin (fmean (Bops l) (repeat x k)) /\ val (fmean (Bops l) (repeat x k)) = val x.
Proof.
  intros Fx Vx He Pk B Bk. destruct (z_spec 0 ltac:(lia)) as [F0 V0].
  destruct (fold_const m e x Fx Vx He k (b64_z 0) 0%Z F0) as [A C]; [rewrite V0; cbn; lra|lia|lia|]. cbn [Z.add] in C. rewrite Z.add_0_l in C || idtac.
  destruct (z_spec (Z.of_nat k) ltac:(lia)) as [Fk Vk]. assert (P : 0 < IZR (Z.of_nat k)) by (apply IZR_lt; lia).
  assert (E : fmean (Bops l) (repeat x k) = b64_div (fold_left b64_add (repeat x k) (b64_z 0)) (b64_z (Z.of_nat (length (repeat x k))))) by reflexivity.
  rewrite repeat_length in E. rewrite E. clear E.
  assert (Q : val (fold_left b64_add (repeat x k) (b64_z 0)) / val (b64_z (Z.of_nat k)) = val x).
  { rewrite C, Vk, Vx, mult_IZR. field. lra. }
  destruct (div_spec _ (b64_z (Z.of_nat k)) A) as [Fd Vd]; [rewrite Vk; lra| |].
  { rewrite Q, Vx, Rabs_mult, <- abs_IZR, (Rabs_pos_eq (bpow radix2 e)) by apply bpow_ge_0. apply Rle_trans with (bpow radix2 (53 + e)); [|apply bpow_le; lia].
    rewrite bpow_plus. apply Rmult_le_compat_r; [apply bpow_ge_0|]. change (bpow radix2 53) with (IZR (2 ^ 53)). apply IZR_le. nia. }
  split; [exact Fd|]. rewrite Vd, Q. apply rnd_id, fmt_val.
Qed.

(** ** Mean and standard deviation *)
Definition spread (l : libm) (xs : list b64) : b64 :=
  b64_sqrt (fmean (Bops l) (map (fun x => b64_mul (b64_sub x (fmean (Bops l) xs)) (b64_sub x (fmean (Bops l) xs))) xs)).
Lemma square_sized (l : libm) xs x : Forall (sized 200) xs -> xs <> [] -> (Z.of_nat (length xs) <= 2 ^ 40)%Z -> In x xs ->
  let mu := fmean (Bops l) xs in
  fin (b64_sub x mu) /\ val (b64_sub x mu) = rnd (val x - val mu) /\ Rabs (val (b64_sub x mu)) <= bpow radix2 201 /\
  fin (b64_mul (b64_sub x mu) (b64_sub x mu)) /\ val (b64_mul (b64_sub x mu) (b64_sub x mu)) = rnd (val (b64_sub x mu) * val (b64_sub x mu)) /\
  0 <= val (b64_mul (b64_sub x mu) (b64_sub x mu)) <= bpow radix2 402.
Proof.
  intros F N B I mu. destruct (fmean_sized l 200 xs ltac:(lia) F N ltac:(lia)) as [Fm Rm]. fold mu in Fm, Rm.
  rewrite Forall_forall in F. destruct (F x I) as [Fx Rx].
  assert (D : Rabs (val x - val mu) <= bpow radix2 201).
  { eapply Rle_trans; [apply Rabs_triang|]. rewrite Rabs_Ropp. change 201%Z with (1 + 200)%Z. rewrite bpow_plus. change (bpow radix2 1) with 2. lra. }
  destruct (sub_spec x mu Fx Fm) as [Fd Vd]; [eapply Rle_trans; [exact D|apply bpow_le; lia]|].
  assert (D' : Rabs (val (b64_sub x mu)) <= bpow radix2 201).
  { rewrite Vd. apply Rabs_le_inv in D. assert (Fb : fmt (bpow radix2 201)) by (apply generic_format_bpow; cbn; lia).
    apply Rabs_le. split; [apply rnd_ge; [now apply generic_format_opp|lra]|apply rnd_le'; [exact Fb|lra]]. }
  split; [exact Fd|]. split; [exact Vd|]. split; [exact D'|].
  set (d := b64_sub x mu) in *.
  assert (Q : 0 <= val d * val d <= bpow radix2 402).
  { split; [apply Rle_0_sqr|]. change 402%Z with (201 + 201)%Z. rewrite bpow_plus. pose proof (Rabs_pos (val d)).
    replace (val d * val d) with (Rabs (val d) * Rabs (val d)) by (rewrite <- Rabs_mult; apply Rabs_pos_eq, Rle_0_sqr). apply Rmult_le_compat; lra. }
  destruct (mul_spec d d Fd Fd) as [Fs Vs]; [rewrite Rabs_pos_eq by lra; eapply Rle_trans; [apply Q|apply bpow_le; lia]|].
  split; [exact Fs|]. split; [exact Vs|]. rewrite Vs. split; [apply rnd_ge; [apply fmt_0|lra]|apply rnd_le'; [apply generic_format_bpow; cbn; lia|lra]].
Qed.
Lemma fold_nonneg e l : (0 <= e <= 900)%Z -> Forall (fun x => sized e x /\ 0 <= val x) l -> forall a k, fin a -> 0 <= val a <= IZR k * bpow radix2 e -> (0 <= k)%Z ->
  (k + Z.of_nat (length l) <= 2 ^ 53)%Z ->
  val a <= val (fold_left b64_add l a) /\ forall x, In x l -> val x <= val (fold_left b64_add l a).
Proof.
  intros He F. induction F as [|x l [[Fx Rx] Px] F IH]; intros a k Fa Ra Hk B; cbn [length fold_left].
  - split; [lra|intros ? []].
  - rewrite Rabs_pos_eq in Rx by lra.
    assert (R : 0 <= val a + val x <= IZR (k + 1) * bpow radix2 e) by (rewrite plus_IZR; lra).
    assert (Bg : Rabs (val a + val x) <= big).
    { rewrite Rabs_pos_eq by lra. eapply Rle_trans; [apply R|]. apply Rle_trans with (bpow radix2 (53 + e)); [|apply bpow_le; lia]. rewrite bpow_plus. apply Rmult_le_compat_r; [apply bpow_ge_0|].
      change (bpow radix2 53) with (IZR (2 ^ 53)). apply IZR_le. cbn [length] in B. lia. }
    destruct (add_spec a x Fa Fx Bg) as [Fs Vs].
    destruct (IH (b64_add a x) (k + 1)%Z Fs) as [H1 H2]; [|lia|cbn [length] in B; lia|].
    + rewrite Vs. split; [apply rnd_ge; [apply fmt_0|lra]|apply rnd_le'; [apply fmt_F2R; cbn [length] in B; lia|lra]].
    + assert (val a <= val (b64_add a x)) by (rewrite Vs; apply rnd_ge; [apply fmt_val|lra]).
      assert (val x <= val (b64_add a x)) by (rewrite Vs; apply rnd_ge; [apply fmt_val|lra]).
      split; [lra|]. intros y [<-|I]; [lra|auto].
Qed.
Lemma spread_spec (l : libm) xs : Forall (sized 200) xs -> xs <> [] -> (Z.of_nat (length xs) <= 2 ^ 40)%Z ->
  fin (spread l xs) /\ 0 <= val (spread l xs) /\
  (forall x y, In x xs -> In y xs -> bpow radix2 (-150) <= val x - val y -> 0 < val (spread l xs)).
Proof.
  intros F N B. set (mu := fmean (Bops l) xs). set (sq := map (fun x => b64_mul (b64_sub x mu) (b64_sub x mu)) xs : list b64).
  assert (S : Forall (fun x => sized 402 x /\ 0 <= val x) sq).
  { apply Forall_forall. intros s Is. unfold sq in Is. apply in_map_iff in Is as (x & <- & Ix).
    destruct (square_sized l xs x F N B Ix) as (_ & _ & _ & H1 & _ & H2). fold mu in H1, H2. split; [split; [exact H1|]|lra]. rewrite Rabs_pos_eq by lra. lra. }
  assert (S' : Forall (sized 402) sq) by (eapply Forall_impl; [|exact S]; cbn; tauto).
  assert (Nq : sq <> []) by (destruct xs; [easy|discriminate]).
  assert (Lq : length sq = length xs) by (unfold sq; apply map_length).
  destruct (fmean_sized l 402 sq ltac:(lia) S' Nq ltac:(lia)) as [Fv Rv].
  destruct (fsum_sized l 402 sq ltac:(lia) S' ltac:(lia)) as [Fs Rs].
  destruct (z_spec 0 ltac:(lia)) as [F0 V0].
  destruct (fold_nonneg 402 sq ltac:(lia) S (b64_z 0) 0%Z F0) as [G1 G2]; [rewrite V0; lra|lia|lia|]. rewrite V0 in G1.
  change (fold_left b64_add sq (b64_z 0)) with (fsum (Bops l) sq) in G1, G2.
  destruct (z_spec (Z.of_nat (length sq)) ltac:(lia)) as [Fk Vk].
  assert (Pk : 0 < IZR (Z.of_nat (length sq))) by (apply IZR_lt; rewrite Lq; destruct xs; [easy|cbn [length]; lia]).
  assert (Vv : val (fmean (Bops l) sq) = rnd (val (fsum (Bops l) sq) / IZR (Z.of_nat (length sq)))).
  { assert (E : fmean (Bops l) sq = b64_div (fsum (Bops l) sq) (b64_z (Z.of_nat (length sq)))) by reflexivity. rewrite E. clear E.
    destruct (div_spec (fsum (Bops l) sq) (b64_z (Z.of_nat (length sq))) Fs) as [_ V]; [rewrite Vk; lra| |now rewrite V, Vk].
    rewrite Vk. unfold Rdiv. rewrite Rabs_mult, (Rabs_pos_eq (/ _)) by (left; now apply Rinv_0_lt_compat).
    apply Rle_trans with (bpow radix2 402); [|apply bpow_le; lia]. apply (Rmult_le_reg_r (IZR (Z.of_nat (length sq)))); [exact Pk|]. rewrite Rmult_assoc, Rinv_l by lra. lra. }
  assert (Pv : 0 <= val (fmean (Bops l) sq)).
  { rewrite Vv. apply rnd_ge; [apply fmt_0|]. apply Rmult_le_pos; [lra|left; now apply Rinv_0_lt_compat]. }
  destruct (sqrt_spec _ Fv Pv) as [Fr Vr]. change (b64_sqrt (fmean (Bops l) sq)) with (spread l xs) in Fr, Vr.
  split; [exact Fr|]. split; [rewrite Vr; apply rnd_ge; [apply fmt_0|apply sqrt_pos]|].
  intros x y Ix Iy D.
  assert (E : exists z, In z xs /\ bpow radix2 (-151) <= Rabs (val z - val mu)).
  { assert (Hb : bpow radix2 (-150) = 2 * bpow radix2 (-151)) by (change (-150)%Z with (1 + -151)%Z; now rewrite bpow_plus).
    destruct (Rle_dec (bpow radix2 (-151)) (val x - val mu)) as [H|H].
    - exists x. split; [exact Ix|]. eapply Rle_trans; [exact H|apply Rle_abs].
    - exists y. split; [exact Iy|]. rewrite Rabs_minus_sym. eapply Rle_trans; [|apply Rle_abs]. lra. }
  destruct E as (z & Iz & Dz). destruct (square_sized l xs z F N B Iz) as (_ & Vd & _ & _ & Vs & _). fold mu in Vd, Vs. cbv zeta in Vd, Vs.
  set (d := b64_sub z mu) in *.
  assert (Fb : fmt (bpow radix2 (-151))) by (apply generic_format_bpow; cbn; lia).
  assert (Dd : bpow radix2 (-151) <= Rabs (val d)).
  { rewrite Vd. destruct (Rle_dec 0 (val z - val mu)) as [P|P].
    - rewrite Rabs_pos_eq in Dz by lra. eapply Rle_trans; [|apply Rle_abs]. now apply rnd_ge.
    - rewrite <- Rabs_Ropp in Dz |- *. rewrite <- rnd_opp. rewrite Rabs_pos_eq in Dz by lra. eapply Rle_trans; [|apply Rle_abs]. now apply rnd_ge. }
  assert (Sq : bpow radix2 (-302) <= val (b64_mul d d)).
  { rewrite Vs. apply rnd_ge; [apply generic_format_bpow; cbn; lia|]. change (-302)%Z with (-151 + -151)%Z. rewrite bpow_plus.
    replace (val d * val d) with (Rabs (val d) * Rabs (val d)) by (rewrite <- Rabs_mult; apply Rabs_pos_eq, Rle_0_sqr). pose proof (bpow_gt_0 radix2 (-151)). apply Rmult_le_compat; lra. }
  assert (Su : bpow radix2 (-302) <= val (fsum (Bops l) sq)).
  { eapply Rle_trans; [exact Sq|]. apply G2. unfold sq. apply in_map_iff. now exists z. }
  assert (Me : bpow radix2 (-342) <= val (fmean (Bops l) sq)).
  { rewrite Vv. apply rnd_ge; [apply generic_format_bpow; cbn; lia|]. change (-342)%Z with (-302 + -40)%Z. rewrite bpow_plus.
    apply Rmult_le_compat; [apply bpow_ge_0|apply bpow_ge_0|exact Su|]. change (bpow radix2 (-40)) with (/ IZR (2 ^ 40)). apply Rinv_le; [exact Pk|]. apply IZR_le. lia. }
  rewrite Vr. apply Rlt_le_trans with (bpow radix2 (-171)); [apply bpow_gt_0|]. apply rnd_ge; [apply generic_format_bpow; cbn; lia|].
  rewrite <- (sqrt_square (bpow radix2 (-171))) by apply bpow_ge_0. rewrite <- bpow_plus. apply sqrt_le_1; [apply bpow_ge_0|exact Pv|exact Me].
Qed.

(** ** Samples of fields *)
Lemma f32_parts p : f32_finite p = true -> (Z.abs (f32_sign p * f32_mant p) < 2 ^ 24)%Z /\ (-149 <= f32_scale p <= 104)%Z.
Proof.
  intro H. assert (E : (0 <= f32_exp p < 255)%Z).
  { unfold f32_exp. unfold f32_finite in H. apply negb_true_iff, N.eqb_neq in H.
    change 255%N with (N.ones 8) in *. rewrite N.land_ones in *. pose proof (N.mod_lt (N.shiftr p 23) (2 ^ 8) ltac:(discriminate)) as L.
    change (N.ones 8) with 255%N in H. change (2 ^ 8)%N with 256%N in *. set (q := (N.shiftr p 23 mod 256)%N) in *. clearbody q. lia. }
  assert (Fr : (0 <= f32_frac p < 8388608)%Z).
  { unfold f32_frac. change 8388607%N with (N.ones 23). rewrite N.land_ones. pose proof (N.mod_lt p (2 ^ 23) ltac:(discriminate)) as L.
    change (2 ^ 23)%N with 8388608%N in *. set (q := (p mod 8388608)%N) in *. clearbody q. lia. }
  assert (M : (0 <= f32_mant p < 2 ^ 24)%Z) by (unfold f32_mant; destruct (f32_exp p =? 0)%Z; change (2 ^ 24)%Z with 16777216%Z; lia).
  split.
  - unfold f32_sign. destruct (N.testbit p 31); lia.
  - unfold f32_scale. destruct (Z.eqb_spec (f32_exp p) 0); lia.
Qed.
Lemma number_f32 p : number (VF32 p) = IZR (f32_sign p * f32_mant p) * bpow radix2 (f32_scale p).
Proof. cbn [number]. unfold f32_real. now rewrite bpow_powerRZ. Qed.
Lemma bound_F2R m e k b : (Z.abs m <= 2 ^ k)%Z -> (0 <= k)%Z -> (e <= b)%Z -> Rabs (IZR m * bpow radix2 e) <= bpow radix2 (k + b).
Proof.
  intros Hm Hk He. rewrite Rabs_mult, <- abs_IZR, (Rabs_pos_eq (bpow radix2 e)) by apply bpow_ge_0. rewrite bpow_plus.
  apply Rmult_le_compat; [apply IZR_le; lia|apply bpow_ge_0| |now apply bpow_le]. rewrite <- IZR_Zpower by exact Hk. apply IZR_le. exact Hm.
Qed.
Lemma sample_spec (l : libm) v : held v -> exists x : b64, sample_num (Bops l) v = Ok x /\ fin x /\ val x = number v /\ Rabs (number v) <= bpow radix2 200 /\
  exists k, number v = IZR k * bpow radix2 (-149).
Proof.
  destruct v as [z|p|b]; cbn [held]; intro H; try easy.
  - destruct (z_spec z H) as [F V]. exists (b64_z z). split; [reflexivity|]. split; [exact F|]. split; [exact V|]. cbn [number]. split.
    + replace (IZR z) with (IZR z * bpow radix2 0) by (cbn; lra). eapply Rle_trans; [apply (bound_F2R z 0 53 147); lia|apply bpow_le; lia].
    + exists (z * 2 ^ 149)%Z. rewrite mult_IZR. change (IZR (2 ^ 149)) with (bpow radix2 149). rewrite Rmult_assoc, <- bpow_plus. cbn. lra.
  - destruct (f32_parts p H) as [Hm He].
    assert (B : Rabs (IZR (f32_sign p * f32_mant p) * bpow radix2 (f32_scale p)) <= bpow radix2 (24 + 104)) by (apply bound_F2R; lia).
    destruct (make_spec (f32_sign p * f32_mant p) (f32_scale p)) as [F V]; [eapply Rle_trans; [exact B|apply bpow_le; lia]|].
    exists (b64_f32 p). unfold sample_num. rewrite H. split; [reflexivity|]. split; [exact F|]. rewrite number_f32. split; [|split].
    + unfold b64_f32. rewrite V. apply rnd_id, fmt_F2R; lia.
    + eapply Rle_trans; [exact B|apply bpow_le; lia].
    + exists (f32_sign p * f32_mant p * 2 ^ (f32_scale p + 149))%Z. rewrite (mult_IZR (f32_sign p * f32_mant p)). assert (Ep : IZR (2 ^ (f32_scale p + 149)) = bpow radix2 (f32_scale p + 149)) by (apply (IZR_Zpower radix2); lia). rewrite Ep.
      rewrite Rmult_assoc, <- bpow_plus. do 2 f_equal. lia.
Qed.
Lemma samples_spec (l : libm) vs : Forall held vs -> exists xs : list b64, map_res (sample_num (Bops l)) vs = Ok xs /\ length xs = length vs /\ Forall (sized 200) xs /\
  Forall2 (fun v (x : b64) => val x = number v /\ exists k, number v = IZR k * bpow radix2 (-149)) vs xs.
Proof.
  induction vs as [|v vs IH]; intro F; [exists []; cbn; auto|]. inversion F as [|? ? Fv F']; subst.
  destruct (sample_spec l v Fv) as (x & E & Fx & Vx & Bx & K). destruct (IH F') as (xs & E' & L & S & G). exists (x :: xs). cbn [map_res]. rewrite E. cbn [bind].
  split; [now rewrite E'|]. split; [cbn; now rewrite L|]. split; [|now constructor]. constructor; [|exact S]. split; [exact Fx|now rewrite Vx].
Qed.
Lemma fit_eq (l : libm) vs (xs : list b64) : map_res (sample_num (Bops l)) vs = Ok xs -> norm_fit (Bops l) vs = Ok (fmean (Bops l) xs, spread l xs).
Proof. intro E. unfold norm_fit. rewrite E. reflexivity. Qed.
Lemma fit_spec (l : libm) vs : Forall held vs -> vs <> [] -> (Z.of_nat (length vs) <= 2 ^ 40)%Z ->
  exists mu sd : b64, norm_fit (Bops l) vs = Ok (mu, sd) /\ fin mu /\ fin sd /\ 0 <= val sd /\
    (val sd = 0 -> forall v w, In v vs -> In w vs -> number v = number w).
Proof.
  intros H N B. destruct (samples_spec l vs H) as (xs & E & L & S & G). exists (fmean (Bops l) xs), (spread l xs).
  assert (Nx : xs <> []) by (destruct vs, xs; easy).
  destruct (spread_spec l xs S Nx ltac:(now rewrite L)) as (Fs & Ps & Pos). split; [now apply fit_eq|].
  split; [now apply (fmean_sized l 200 xs); try lia|]. split; [exact Fs|]. split; [exact Ps|].
  assert (P : forall v w, In v vs -> In w vs -> number w < number v -> 0 < val (spread l xs)).
  { intros v w Iv Iw Lt.
    assert (In2 : forall v, In v vs -> exists x, In x xs /\ val x = number v /\ exists k, number v = IZR k * bpow radix2 (-149)).
    { clear - G. intros v I. induction G as [|a b vs xs [V K] G IH]; [easy|]. destruct I as [<-|I]; [exists b; split; [now left|auto]|].
      destruct (IH I) as (x & Ix & R). exists x. split; [now right|exact R]. }
    destruct (In2 v Iv) as (x & Ix & Vx & kx & Kx). destruct (In2 w Iw) as (y & Iy & Vy & ky & Ky).
    apply (Pos x y Ix Iy). rewrite Vx, Vy, Kx, Ky, <- Rmult_minus_distr_r, <- minus_IZR.
    assert (Hk : (1 <= kx - ky)%Z). { assert (IZR ky < IZR kx) as Hl by (apply (Rmult_lt_reg_r (bpow radix2 (-149))); [apply bpow_gt_0|lra]). apply lt_IZR in Hl. lia. }
    apply IZR_le in Hk. pose proof (bpow_gt_0 radix2 (-149)). apply Rle_trans with (bpow radix2 (-149)); [apply bpow_le; lia|nra]. }
  intros Z v w Iv Iw. destruct (Rtotal_order (number v) (number w)) as [Hl|[Hl|Hl]]; [|exact Hl|].
  - pose proof (P w v Iw Iv Hl). lra.
  - pose proof (P v w Iv Iw Hl). lra.
Qed.
Lemma map_res_repeat {A B} (f : A -> res B) v x k : f v = Ok x -> map_res f (repeat v k) = Ok (repeat x k).
Proof. intro H. induction k as [|k IH]; [reflexivity|]. cbn [repeat map_res]. rewrite H. cbn [bind]. now rewrite IH. Qed.
Lemma map_rep {A B} (f : A -> B) x k : map f (repeat x k) = repeat (f x) k.
Proof. induction k as [|k IH]; [reflexivity|]. cbn. now rewrite IH. Qed.
Lemma fit_const (l : libm) v k : held v -> summable v k -> (0 < k)%nat -> (Z.of_nat k <= 2 ^ 53)%Z ->
  exists mu sd : b64, norm_fit (Bops l) (repeat v k) = Ok (mu, sd) /\ fin mu /\ fin sd /\ val mu = number v /\ val sd = 0.
Proof.
  intros H S Pk Bk. destruct (sample_spec l v H) as (x & E & Fx & Vx & Bx & _).
  exists (fmean (Bops l) (repeat x k)), (spread l (repeat x k)). split; [apply fit_eq; now apply map_res_repeat|].
  assert (M : fin (fmean (Bops l) (repeat x k)) /\ val (fmean (Bops l) (repeat x k)) = val x).
  { destruct v as [z|p|b]; [| |destruct H]; cbn [held summable] in H, S.
    - apply (fmean_const l z 0 x k Fx); try lia. rewrite Vx. cbn [number bpow]. lra.
    - destruct (f32_parts p H) as [Hm He]. apply (fmean_const l (f32_sign p * f32_mant p) (f32_scale p) x k Fx); try lia; [rewrite Vx; apply number_f32|].
      change (2 ^ 53)%Z with (2 ^ 24 * 2 ^ 29)%Z. apply Z.mul_le_mono_nonneg; lia. }
  destruct M as [Fm Vm].
  assert (D : let d := b64_sub x (fmean (Bops l) (repeat x k)) in fin (b64_mul d d) /\ val (b64_mul d d) = 0).
  { cbv zeta. destruct (sub_spec x (fmean (Bops l) (repeat x k)) Fx Fm) as [Fd Vd]; [rewrite Vm, Rminus_diag_eq, Rabs_R0 by reflexivity; pose proof big_1; lra|].
    rewrite Vm, Rminus_diag_eq, rnd_0 in Vd by reflexivity.
    destruct (mul_spec _ _ Fd Fd) as [Fs Vs]; [rewrite Vd, Rmult_0_l, Rabs_R0; pose proof big_1; lra|]. split; [exact Fs|]. rewrite Vs, Vd, Rmult_0_l. apply rnd_0. }
  cbv zeta in D. set (s := b64_mul (b64_sub x (fmean (Bops l) (repeat x k))) (b64_sub x (fmean (Bops l) (repeat x k)))) in D. destruct D as [Fs Vs].
  assert (Es : map (fun y => b64_mul (b64_sub y (fmean (Bops l) (repeat x k))) (b64_sub y (fmean (Bops l) (repeat x k)))) (repeat x k) = repeat s k) by (rewrite map_rep; reflexivity).
  assert (Zs : fin (fmean (Bops l) (repeat s k)) /\ val (fmean (Bops l) (repeat s k)) = val s) by (apply (fmean_const l 0 0 s k Fs); try lia; rewrite Vs; cbn; lra).
  destruct Zs as [Fz Vz]. rewrite Vs in Vz.
  assert (Sp : spread l (repeat x k) = b64_sqrt (fmean (Bops l) (repeat s k))) by (unfold spread; now rewrite Es).
  destruct (sqrt_spec _ Fz ltac:(rewrite Vz; lra)) as [Fq Vq]. rewrite Sp. rewrite Vz, sqrt_0, rnd_0 in Vq. rewrite <- Vx. auto.
Qed.
(** ** Means of whole numbers *)
Lemma fold_ints zs : forall a j, fin a -> val a = IZR j -> (Z.abs j + total_size zs <= 2 ^ 53)%Z ->
  fin (fold_left b64_add (map b64_z zs) a) /\ val (fold_left b64_add (map b64_z zs) a) = IZR (j + total zs).
Proof.
  induction zs as [|z zs IH]; intros a j Fa Va B; cbn [total_size total fold_right map fold_left] in *.
  - split; [exact Fa|]. now rewrite Z.add_0_r.
  - fold (total_size zs) in B. fold (total zs). assert (0 <= total_size zs)%Z by (clear; induction zs; cbn [total_size fold_right]; [lia|fold (total_size zs); lia]).
    destruct (z_spec z ltac:(lia)) as [Fz Vz].
    destruct (add_spec a (b64_z z) Fa Fz) as [Fs Vs]; [rewrite Va, Vz, <- plus_IZR; apply big_Z; lia|].
    rewrite Va, Vz, <- plus_IZR, rnd_IZR in Vs by lia.
    destruct (IH (b64_add a (b64_z z)) (j + z)%Z Fs Vs ltac:(lia)) as [A C]. split; [exact A|]. rewrite C. f_equal. lia.
Qed.
Lemma total_bound zs : (Z.abs (total zs) <= total_size zs)%Z.
Proof. induction zs as [|z zs IH]; cbn [total total_size fold_right]; [lia|]. fold (total zs) (total_size zs). lia. Qed.
Lemma fit_mean (l : libm) zs : zs <> [] -> (total_size zs <= 2 ^ 53)%Z -> (Z.of_nat (length zs) <= 2 ^ 53)%Z ->
  exists mu sd : b64, norm_fit (Bops l) (map VInt zs) = Ok (mu, sd) /\ fin mu /\ val mu = rnd (IZR (total zs) / IZR (Z.of_nat (length zs))).
Proof.
  intros N B Bk.
  assert (E : map_res (sample_num (Bops l)) (map VInt zs) = Ok (map b64_z zs)).
  { clear. induction zs as [|z zs IH]; [reflexivity|]. cbn [map map_res sample_num bind]. now rewrite IH. }
  exists (fmean (Bops l) (map b64_z zs)), (spread l (map b64_z zs)). split; [now apply fit_eq|].
  destruct (z_spec 0 ltac:(lia)) as [F0 V0]. destruct (fold_ints zs (b64_z 0) 0%Z F0 V0 ltac:(lia)) as [A C].
  assert (Em : fmean (Bops l) (map b64_z zs) = b64_div (fold_left b64_add (map b64_z zs) (b64_z 0)) (b64_z (Z.of_nat (length (map b64_z zs))))) by reflexivity.
  rewrite map_length in Em. rewrite Em. destruct (z_spec (Z.of_nat (length zs)) ltac:(lia)) as [Fk Vk].
  assert (Pk : 1 <= IZR (Z.of_nat (length zs))) by (apply IZR_le; destruct zs; [easy|cbn [length]; lia]).
  pose proof (total_bound zs) as T. rewrite Z.add_0_l in C.
  destruct (div_spec _ (b64_z (Z.of_nat (length zs))) A) as [Fd Vd]; [rewrite Vk; lra| |].
  - rewrite C, Vk. unfold Rdiv. rewrite Rabs_mult, (Rabs_pos_eq (/ _)) by (left; apply Rinv_0_lt_compat; lra).
    apply Rle_trans with (Rabs (IZR (total zs))); [|apply big_Z; lia]. rewrite <- (Rmult_1_r (Rabs _)) at 2. apply Rmult_le_compat_l; [apply Rabs_pos|].
    rewrite <- Rinv_1. apply Rinv_le; lra.
  - split; [exact Fd|]. now rewrite Vd, C, Vk.
Qed.
