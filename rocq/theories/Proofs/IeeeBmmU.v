(** A component that is lost in the first iteration of a fit in double precision. *)
From Coq Require Import List ZArith Reals Bool Lia Lra.
From Flocq Require Import Core Relative IEEE754.BinarySingleNaN.
From Verif.Model Require Import Py Float Clustering Bmm.
From Verif.Spec Require Import RealOps Info IeeeOps IeeeCluster IeeeBmmSpec.
From Verif.Proofs Require Import Base EmleP ClusterP IeeeP IeeeInfoP IeeeEmleP IeeeSweepP IeeeDudeP IeeeBmmP IeeeBmmQ IeeeBmmS IeeeBmmT.
Import ListNotations.
Open Scope R_scope.

Lemma exp_mono x y : x <= y -> exp x <= exp y.
Proof. intros [H|H]; [left; apply exp_increasing; exact H|right; rewrite H; reflexivity]. Qed.
Lemma ln2_lo : 0.6875 <= ln 2.
Proof.
  rewrite <- (ln_exp 0.6875). apply ln_le; [apply exp_pos|].
  replace 0.6875 with (- - 0.6875) by lra. rewrite (exp_Ropp (- 0.6875)). replace 2 with (/ / 2) by lra. apply Rinv_le; [lra|]. replace (- 0.6875) with (64 * (- 0.0107421875)) by lra.
  pose proof (exp_ineq1_le (- 0.0107421875)) as H1. set (y := - 0.0107421875) in *. replace (64 * y) with (32 * y + 32 * y) by ring. rewrite exp_plus. replace (32 * y) with (16 * y + 16 * y) by ring. rewrite exp_plus.
  replace (16 * y) with (8 * y + 8 * y) by ring. rewrite exp_plus. replace (8 * y) with (4 * y + 4 * y) by ring. rewrite exp_plus. replace (4 * y) with (2 * y + 2 * y) by ring. rewrite exp_plus. replace (2 * y) with (y + y) by ring. rewrite exp_plus.
  set (e := exp y) in *. clearbody e. unfold y in H1. assert (H2 : 0.97863 <= e * e) by nra. set (e2 := e * e) in *. clearbody e2. assert (H4 : 0.95771 <= e2 * e2) by nra. set (e4 := e2 * e2) in *. clearbody e4.
  assert (H8 : 0.9172 <= e4 * e4) by nra. set (e8 := e4 * e4) in *. clearbody e8. assert (H16 : 0.8412 <= e8 * e8) by nra. set (e16 := e8 * e8) in *. clearbody e16. assert (H32 : 0.7076 <= e16 * e16) by nra. set (e32 := e16 * e16) in *. clearbody e32.
  nra.
Qed.
Lemma ln2_hi : ln 2 <= 0.72.
Proof. pose proof ln_1024 as H. replace 1024 with (bpow radix2 10) in H by reflexivity. rewrite ln_bpow in H. lra. Qed.

(** Sums of numbers with bounds that are multiples of 1/1024. *)
Definition milli (r : Z) : R := - (IZR r * bpow radix2 (-10)).
Lemma fmt_milli r : (0 <= r <= 2 ^ 50)%Z -> fmt (milli r).
Proof. intro H. unfold milli. apply generic_format_opp. apply fmt_F2R; lia. Qed.
Definition lies (lo hi : Z) (x : b64) : Prop := fin x /\ milli lo <= val x <= milli hi.
Lemma milli_plus a b : milli (a + b) = milli a + milli b.
Proof. unfold milli. rewrite plus_IZR. ring. Qed.
Lemma milli_big a x : (0 <= a <= 2 ^ 50)%Z -> milli a <= x <= 0 -> Rabs x <= big.
Proof.
  intros H B. apply (big_abs _ (2 ^ 50)); [lia|]. destruct H as [H1 H2]. apply IZR_le in H1, H2. unfold milli in B. change (bpow radix2 (-10)) with (/ 1024) in B. apply Rabs_le. lra.
Qed.
Lemma milli_neg a : (0 <= a)%Z -> milli a <= 0.
Proof. intro H. apply IZR_le in H. unfold milli. pose proof (bpow_gt_0 radix2 (-10)). nra. Qed.
Lemma add_lies a b lo hi lo' hi' : lies lo hi a -> lies lo' hi' b -> (0 <= hi)%Z -> (0 <= hi')%Z -> (hi <= lo)%Z -> (hi' <= lo')%Z -> (lo + lo' <= 2 ^ 50)%Z -> lies (lo + lo') (hi + hi') (b64_add a b).
Proof.
  intros [Fa Ba] [Fb Bb] H1 H2 H3 H4 H. pose proof (milli_neg _ H1). pose proof (milli_neg _ H2).
  destruct (add_spec a b Fa Fb) as [F V]; [apply (milli_big (lo + lo')); [lia|rewrite milli_plus; lra]|]. split; [exact F|]. rewrite V. split.
  - apply rnd_ge; [apply fmt_milli; lia|rewrite milli_plus; lra].
  - apply rnd_le'; [apply fmt_milli; lia|rewrite milli_plus; lra].
Qed.
Lemma fold_lies lo hi ys : Forall (lies lo hi) ys -> (0 <= hi <= lo)%Z -> (lo <= 2 ^ 20)%Z -> forall a A B, lies A B a -> (0 <= B <= A)%Z -> (A + lo * Z.of_nat (length ys) <= 2 ^ 50)%Z ->
  lies (A + lo * Z.of_nat (length ys)) (B + hi * Z.of_nat (length ys)) (fold_left b64_add ys a).
Proof.
  intros F H H'. induction F as [|y ys Fy F IH]; intros a A B La HB HA.
  - cbn [fold_left length]. replace (A + lo * Z.of_nat 0)%Z with A by lia. replace (B + hi * Z.of_nat 0)%Z with B by lia. exact La.
  - cbn [fold_left length] in *. replace (A + lo * Z.of_nat (S (length ys)))%Z with ((A + lo) + lo * Z.of_nat (length ys))%Z by lia. replace (B + hi * Z.of_nat (S (length ys)))%Z with ((B + hi) + hi * Z.of_nat (length ys))%Z by lia.
    apply IH; [|lia|lia]. apply add_lies; try assumption; try lia. nia.
Qed.

(** The means are 1/8192 and 3/8192. *)
Lemma half_Z : Z.of_nat half = 2048%Z. Proof. vm_compute. reflexivity. Qed.
Local Opaque half.
Lemma quarter_spec : fin quarter /\ val quarter = / 4.
Proof. destruct (make_spec 1 (-2)) as [F V]; [rewrite Rmult_1_l; rewrite Rabs_pos_eq by apply bpow_ge_0; apply bpow_le; lia|]. split; [exact F|]. unfold quarter. rewrite V, Rmult_1_l. change (bpow radix2 (-2)) with (/ 4). apply rnd_id. replace (/ 4) with (bpow radix2 (-2)) by reflexivity. apply generic_format_bpow. unfold FLT_exp. lia. Qed.
Lemma tq_spec : fin three_quarters /\ val three_quarters = 3 / 4.
Proof.
  destruct (make_spec 3 (-2)) as [F V]; [change (bpow radix2 (-2)) with (/ 4); apply (big_abs _ 1); [lia|]; apply Rabs_le; lra|]. split; [exact F|]. unfold three_quarters. rewrite V. change (bpow radix2 (-2)) with (/ 4).
  replace (3 * / 4) with (3 / 4) by lra. apply rnd_id. replace (3 / 4) with (IZR 3 * bpow radix2 (-2)) by (change (bpow radix2 (-2)) with (/ 4); lra). apply fmt_F2R; lia.
Qed.
Lemma fold_const c r : fin c -> val c = IZR r / 4 -> (0 <= r <= 3)%Z -> forall k a p, fin a -> val a = IZR p / 4 -> (0 <= p)%Z -> (p + r * Z.of_nat k <= 2 ^ 40)%Z ->
  fin (fold_left b64_add (repeat c k) a) /\ val (fold_left b64_add (repeat c k) a) = IZR (p + r * Z.of_nat k) / 4.
Proof.
  intros Fc Vc Hr. induction k as [|k IH]; intros a p Fa Va Hp H.
  - cbn [repeat fold_left]. split; [exact Fa|]. rewrite Va. f_equal. f_equal. lia.
  - cbn [repeat fold_left]. assert (Q : (p + r <= 2 ^ 40)%Z) by lia. destruct (add_spec a c Fa Fc) as [F V].
    { rewrite Va, Vc. apply (big_abs _ (2 ^ 40)); [lia|]. apply IZR_le in Q, Hp. destruct Hr as [Hr _]. apply IZR_le in Hr. rewrite plus_IZR in Q. apply Rabs_le. lra. }
    replace (p + r * Z.of_nat (S k))%Z with (p + r + r * Z.of_nat k)%Z by lia. apply IH; [exact F| |lia|lia]. rewrite V, Va, Vc. rewrite plus_IZR. replace (IZR p / 4 + IZR r / 4) with (IZR (p + r) * bpow radix2 (-2)) by (rewrite plus_IZR; change (bpow radix2 (-2)) with (/ 4); lra).
    rewrite rnd_id by (apply fmt_F2R; lia). change (bpow radix2 (-2)) with (/ 4). rewrite plus_IZR. lra.
Qed.
Lemma row_sums : forall row, In row split_means -> fin (sum64 row) /\ val (sum64 row) = 2048.
Proof.
  destruct quarter_spec as [Fq Vq]. destruct tq_spec as [Ft Vt]. destruct (z_spec 0) as [F0 V0]; [lia|]. intros row [<-|[<-|[]]]; unfold sum64; rewrite fold_left_app.
  - destruct (fold_const quarter 1 Fq ltac:(lra) ltac:(lia) half (b64_z 0) 0 F0 ltac:(lra) ltac:(lia)) as [F1 V1]; [rewrite half_Z; lia|]. destruct (fold_const three_quarters 3 Ft ltac:(lra) ltac:(lia) half _ _ F1 V1) as [F2 V2]; [rewrite half_Z; lia|rewrite half_Z; lia|].
    split; [exact F2|]. rewrite V2, half_Z. change (0 + 1 * 2048 + 3 * 2048)%Z with 8192%Z. lra.
  - destruct (fold_const three_quarters 3 Ft ltac:(lra) ltac:(lia) half (b64_z 0) 0 F0 ltac:(lra) ltac:(lia)) as [F1 V1]; [rewrite half_Z; lia|]. destruct (fold_const quarter 1 Fq ltac:(lra) ltac:(lia) half _ _ F1 V1) as [F2 V2]; [rewrite half_Z; lia|rewrite half_Z; lia|].
    split; [exact F2|]. rewrite V2, half_Z. change (0 + 3 * 2048 + 1 * 2048)%Z with 8192%Z. lra.
Qed.
Definition lowm (row : list b64) : b64 := b64_div quarter (sum64 row).
Definition highm (row : list b64) : b64 := b64_div three_quarters (sum64 row).
Lemma means_spec row : In row split_means -> (fin (lowm row) /\ val (lowm row) = / 8192) /\ (fin (highm row) /\ val (highm row) = 3 / 8192).
Proof.
  intro H. destruct (row_sums row H) as [Fs Vs]. destruct quarter_spec as [Fq Vq]. destruct tq_spec as [Ft Vt]. unfold lowm, highm. split.
  - destruct (quot_le quarter (sum64 row) Fq) as (F & V & _); [lra|lra|]. split; [exact F|]. rewrite V, Vq, Vs. replace (/ 4 / 2048) with (bpow radix2 (-13)) by (change (bpow radix2 (-13)) with (/ 8192); lra). rewrite rnd_id; [reflexivity|apply generic_format_bpow; unfold FLT_exp; lia].
  - destruct (quot_le three_quarters (sum64 row) Ft) as (F & V & _); [lra|lra|]. split; [exact F|]. rewrite V, Vt, Vs. replace (3 / 4 / 2048) with (IZR 3 * bpow radix2 (-13)) by (change (bpow radix2 (-13)) with (/ 8192); lra).
    rewrite rnd_id by (apply fmt_F2R; lia). change (bpow radix2 (-13)) with (/ 8192). lra.
Qed.
Definition ra : list b64 := repeat quarter half ++ repeat three_quarters half.
Definition rb : list b64 := repeat three_quarters half ++ repeat quarter half.
Definition ma : list b64 := repeat (lowm ra) half ++ repeat (highm ra) half.
Definition mb : list b64 := repeat (highm rb) half ++ repeat (lowm rb) half.
Lemma map_repeat' {A B} (f : A -> B) x k : map f (repeat x k) = repeat (f x) k.
Proof. induction k as [|k IH]; [reflexivity|]. cbn [repeat map]. rewrite IH. reflexivity. Qed.
Lemma split_row {A B} (f : A -> B) x y h : map f (repeat x h ++ repeat y h) = repeat (f x) h ++ repeat (f y) h.
Proof. rewrite map_app, !map_repeat'. reflexivity. Qed.
Lemma mean0_split l : mean0 l split_means = [ma; mb].
Proof. unfold mean0, split_means. cbn [map]. rewrite !split_row. unfold ma, mb, lowm, highm, ra, rb. reflexivity. Qed.
Lemma in_ra : In ra split_means. Proof. left. reflexivity. Qed.
Lemma in_rb : In rb split_means. Proof. right. left. reflexivity. Qed.

(** Where the maximum of the column is not tiny, the entry itself is used. *)
Lemma place_pair l ya yb row j : row = ya \/ row = yb -> fin (nth j ya (b64_z 0)) -> fin (nth j yb (b64_z 0)) -> bpow radix2 (-20) <= val (nth j row (b64_z 0)) <= 1 ->
  place (Bops l) [ya; yb] row j = nth j row (b64_z 0).
Proof.
  intros Hr Fa Fb B. assert (Fr : fin (nth j row (b64_z 0))) by (destruct Hr as [-> | ->]; assumption). unfold place.
  assert (E : fle (Bops l) (fmaximum (Bops l) (fcol (Bops l) [ya; yb] j)) (e15 (Bops l)) = false).
  { cbn [fcol map fmaximum fold_left]. change (fz (Bops l) 0) with (b64_z 0). change (Float.F (Bops l)) with b64. set (a := nth j ya (b64_z 0)) in *. set (b := nth j yb (b64_z 0)) in *.
    assert (X : fin (nmax (Bops l) a b) /\ val a <= val (nmax (Bops l) a b) /\ val b <= val (nmax (Bops l) a b)).
    { unfold nmax. change (Float.F (Bops l)) with b64. rewrite (isnan_fin l a Fa), (isnan_fin l b Fb). unfold fmax. change (fle (Bops l)) with (@Bleb 53 1024). destruct (Bleb b a) eqn:C; [apply (leb_spec b a Fb Fa) in C; split; [exact Fa|lra]|].
      split; [exact Fb|]. destruct (Rle_lt_dec (val b) (val a)) as [Q|Q]; [apply (leb_spec b a Fb Fa) in Q; congruence|lra]. }
    destruct X as (Fm & La & Lb). set (m := nmax (Bops l) a b) in *. clearbody m. destruct (e15_bounds l) as [Fe _]. change (fle (Bops l) m (e15 (Bops l))) with (Bleb m (e15 (Bops l))).
    destruct (Bleb m (e15 (Bops l))) eqn:C; [|reflexivity]. exfalso. apply (leb_spec m (e15 (Bops l)) Fm Fe) in C.
    assert (U : val (e15 (Bops l)) <= bpow radix2 (-40)).
    { change (e15 (Bops l)) with (b64_div (b64_z 1) (b64_z (10 ^ 15))). destruct one as [F1 V1]. destruct (z_spec (10 ^ 15)) as [F V]; [lia|]. change (IZR (10 ^ 15)) with 1000000000000000 in V.
      destruct (quot_le (b64_z 1) (b64_z (10 ^ 15)) F1) as (_ & W & _); [lra|lra|]. rewrite W, V1, V. apply rnd_le'; [apply generic_format_bpow; unfold FLT_exp; lia|]. change (bpow radix2 (-40)) with (/ 1099511627776). lra. }
    assert (Lr : val (nth j row (b64_z 0)) <= val m) by (destruct Hr as [-> | ->]; assumption).
    assert (bpow radix2 (-40) < bpow radix2 (-20)) by (apply bpow_lt; lia). lra. }
  rewrite E. cbv zeta. change (fz (Bops l) 0) with (b64_z 0). change (Float.F (Bops l)) with b64. set (m := nth j row (b64_z 0)) in *. destruct (e200_bounds l) as [F2 _].
  assert (U : val (e200 (Bops l)) <= bpow radix2 (-40)).
  { change (e200 (Bops l)) with (b64_div (b64_z 1) (b64_z (10 ^ 200))). destruct one as [F1 V1].
    assert (Up : IZR (10 ^ 200) <= bpow radix2 665) by (rewrite <- (IZR_Zpower radix2) by lia; apply IZR_le; change (radix2 : Z) with 2%Z; vm_compute; discriminate).
    assert (Ge : bpow radix2 40 <= IZR (10 ^ 200)) by (rewrite <- (IZR_Zpower radix2) by lia; apply IZR_le; vm_compute; discriminate).
    assert (P40 : bpow radix2 40 = 1099511627776) by reflexivity.
    destruct (make_spec (10 ^ 200) 0) as [F V]; [change (bpow radix2 0) with 1; rewrite Rmult_1_r, Rabs_pos_eq by lra; eapply Rle_trans; [exact Up|apply bpow_le; lia]|].
    fold (b64_z (10 ^ 200)) in F, V. change (bpow radix2 0) with 1 in V. rewrite Rmult_1_r in V.
    assert (Rg : bpow radix2 40 <= val (b64_z (10 ^ 200))) by (rewrite V; apply rnd_ge; [apply generic_format_bpow; unfold FLT_exp; lia|exact Ge]).
    set (w := b64_z (10 ^ 200)) in *. clearbody w. destruct (quot_le (b64_z 1) w F1) as (_ & W & _); [lra|lra|]. rewrite W, V1. apply rnd_le'; [apply generic_format_bpow; unfold FLT_exp; lia|].
    change (bpow radix2 (-40)) with (/ 1099511627776). unfold Rdiv. rewrite Rmult_1_l. apply Rinv_le; lra. }
  change (flt (Bops l) (fabs (Bops l) m) (e200 (Bops l))) with (Bltb (Babs m) (e200 (Bops l))).
  assert (Fm : fin (Babs m)) by (unfold fin; rewrite is_finite_Babs; exact Fr). assert (Vm : val (Babs m) = val m) by (unfold val; rewrite B2R_Babs; apply Rabs_pos_eq; pose proof (bpow_ge_0 radix2 (-20)); unfold val in B; lra).
  destruct (Bltb (Babs m) (e200 (Bops l))) eqn:C; [|reflexivity]. exfalso. apply (ltb_spec _ _ Fm F2) in C. rewrite Vm in C. assert (bpow radix2 (-40) < bpow radix2 (-20)) by (apply bpow_lt; lia). lra.
Qed.

(** The likelihoods of the sample. *)
Definition single (l : libm) (mu : list (list b64)) (row : list b64) (x : list Z) : b64 :=
  fsum (Bops l) (map (fun j => fmul (Bops l) (fz (Bops l) (nth j x 0%Z)) (flog (Bops l) (place (Bops l) mu row j))) (seq 0 (length x))).
Lemma nth_left {A} (p q d : A) h j : (j < h)%nat -> nth j (repeat p h ++ repeat q h) d = p.
Proof. intro H. rewrite app_nth1 by (rewrite repeat_length; exact H). rewrite (nth_indep _ d p) by (rewrite repeat_length; exact H). apply nth_repeat. Qed.
Lemma nth_right {A} (p q d : A) h j : (h <= j < h + h)%nat -> nth j (repeat p h ++ repeat q h) d = q.
Proof. intro H. rewrite app_nth2 by (rewrite repeat_length; lia). rewrite repeat_length. rewrite (nth_indep _ d q) by (rewrite repeat_length; lia). apply nth_repeat. Qed.
Lemma single_lies l p q p' q' (first : bool) c e lo hi lo' hi' : fin p -> fin q -> fin p' -> fin q' ->
  (let a := if first then p else p' in let b := if first then q else q' in
   bpow radix2 (-20) <= val a <= 1 /\ bpow radix2 (-20) <= val b <= 1 /\ lies lo hi (b64_mul (b64_z c) (l_log l a)) /\ lies lo' hi' (b64_mul (b64_z e) (l_log l b))) ->
  (0 <= hi <= lo)%Z -> (lo <= 2 ^ 20)%Z -> (0 <= hi' <= lo')%Z -> (lo' <= 2 ^ 20)%Z ->
  let ya := repeat p half ++ repeat q half in let yb := repeat p' half ++ repeat q' half in
  lies ((lo + lo') * 2048) ((hi + hi') * 2048) (single l [ya; yb] (if first then ya else yb) (repeat c half ++ repeat e half)).
Proof.
  intros Fp Fq Fp' Fq' (Ba & Bb & La & Lb) H1 H2 H3 H4 ya yb. unfold single. rewrite app_length, !repeat_length, seq_app, map_app. cbn [Nat.add]. unfold fsum. rewrite fold_left_app. change (fadd (Bops l)) with b64_add. change (fz (Bops l)) with b64_z. change (fmul (Bops l)) with b64_mul. change (flog (Bops l)) with (l_log l).
  set (row := if first then ya else yb). assert (Hr : row = ya \/ row = yb) by (unfold row; destruct first; tauto).
  assert (RL : forall j, (j < half)%nat -> nth j row (b64_z 0) = (if first then p else p')) by (intros j Hj; unfold row, ya, yb; destruct first; apply nth_left; exact Hj).
  assert (RR : forall j, (half <= j < half + half)%nat -> nth j row (b64_z 0) = (if first then q else q')) by (intros j Hj; unfold row, ya, yb; destruct first; apply nth_right; exact Hj).
  assert (T1 : Forall (lies lo hi) (map (fun j => b64_mul (b64_z (nth j (repeat c half ++ repeat e half) 0%Z)) (l_log l (place (Bops l) [ya; yb] row j))) (seq 0 half))).
  { apply Forall_map, Forall_forall. intros j Hj. apply in_seq in Hj. cbn [Nat.add] in Hj. destruct Hj as [_ Hj]. rewrite nth_left by exact Hj.
    rewrite (place_pair l ya yb row j Hr); [rewrite (RL j Hj); exact La| | |rewrite (RL j Hj); exact Ba]; [unfold ya|unfold yb]; rewrite nth_left by exact Hj; assumption. }
  assert (T2 : Forall (lies lo' hi') (map (fun j => b64_mul (b64_z (nth j (repeat c half ++ repeat e half) 0%Z)) (l_log l (place (Bops l) [ya; yb] row j))) (seq half half))).
  { apply Forall_map, Forall_forall. intros j Hj. apply in_seq in Hj. rewrite nth_right by exact Hj.
    rewrite (place_pair l ya yb row j Hr); [rewrite (RR j Hj); exact Lb| | |rewrite (RR j Hj); exact Bb]; [unfold ya|unfold yb]; rewrite nth_right by exact Hj; assumption. }
  assert (Z0 : lies 0 0 (b64_z 0)). { destruct (z_spec 0) as [F V]; [lia|]. split; [exact F|]. rewrite V. unfold milli. lra. }
  pose proof (fold_lies lo hi _ T1 H1 H2 (b64_z 0) 0 0 Z0 ltac:(lia)) as S1. rewrite map_length, seq_length, half_Z in S1. specialize (S1 ltac:(lia)).
  pose proof (fold_lies lo' hi' _ T2 H3 H4 _ _ _ S1 ltac:(lia)) as S2. rewrite map_length, seq_length, half_Z in S2. specialize (S2 ltac:(lia)).
  replace ((lo + lo') * 2048)%Z with (0 + lo * 2048 + lo' * 2048)%Z by lia. replace ((hi + hi') * 2048)%Z with (0 + hi * 2048 + hi' * 2048)%Z by lia. exact S2.
Qed.
Lemma zero_lies y : fin y -> lies 0 0 (b64_mul (b64_z 0) y).
Proof.
  intro F. destruct (z_spec 0) as [F0 V0]; [lia|]. destruct (mul_spec (b64_z 0) y F0 F) as [G V]; [rewrite V0, Rmult_0_l, Rabs_R0; apply Rlt_le, big_pos|]. split; [exact G|]. rewrite V, V0, Rmult_0_l, rnd_0. unfold milli. lra.
Qed.
Lemma one_lies lo hi y : (0 <= hi <= lo)%Z -> (lo <= 2 ^ 20)%Z -> lies lo hi y -> lies lo hi (b64_mul (b64_z 1) y).
Proof.
  intros H H' [F B]. destruct one as [F1 V1]. assert (Hb : Rabs (val y) <= big) by (apply (milli_big lo); [lia|]; pose proof (milli_neg hi ltac:(lia)); lra). destruct (mul_spec (b64_z 1) y F1 F) as [G V]; [rewrite V1, Rmult_1_l; exact Hb|]. split; [exact G|]. rewrite V, V1, Rmult_1_l, (rnd_id _ (fmt_val y)). exact B.
Qed.
(** The logarithms. *)
Lemma log_lies l lo hi x a b : good_lib l -> fin x -> 0 < val x -> a <= ln (val x) <= b -> b <= 0 -> -100 <= a -> milli lo <= a - / 1000000000 -> (b + / 1000000000 <= milli hi \/ hi = 0%Z) -> lies lo hi (l_log l x).
Proof.
  intros (_ & A & _) F P [B1 B2] Hb Ha H1 H2. destruct (A x F P) as [G E]. split; [exact G|]. rewrite (Rabs_left1 (ln (val x))) in E by lra. apply abs_in in E. change (bpow radix2 (-50)) with (/ 1125899906842624) in E. split; [lra|].
  destruct H2 as [H2| ->]; [lra|]. unfold milli. lra.
Qed.
Lemma ln_8192 : ln (/ 8192) = - (13 * ln 2).
Proof. replace (/ 8192) with (bpow radix2 (-13)) by reflexivity. rewrite ln_bpow. lra. Qed.
Lemma ln_3 : 1.5 * ln 2 <= ln 3.
Proof.
  assert (H : 3 * ln 2 <= 2 * ln 3); [|lra]. replace (3 * ln 2) with (ln 8) by (replace 8 with (2 * 2 * 2) by lra; rewrite !ln_mult by lra; lra). replace (2 * ln 3) with (ln 9) by (replace 9 with (3 * 3) by lra; rewrite ln_mult by lra; lra). apply ln_le; lra.
Qed.
Lemma minus_spec x : fin x -> 0 <= val x <= / 1024 -> let y := b64_sub (b64_z 1) x in fin y /\ 1 - / 1024 <= val y <= 1.
Proof.
  intros F B y. destruct one as [F1 V1]. destruct (sub_spec (b64_z 1) x F1 F) as [G V]; [rewrite V1; apply (big_abs _ 1); [lia|]; apply Rabs_le; lra|]. split; [exact G|]. unfold y. rewrite V, V1. split; [|apply rnd_le'; [apply fmt_1|lra]].
  apply rnd_ge; [|lra]. replace (1 - / 1024) with (IZR 1023 * bpow radix2 (-10)) by (change (bpow radix2 (-10)) with (/ 1024); lra). apply fmt_F2R; lia.
Qed.
Lemma ln_near_1 y : 1 - / 1024 <= y <= 1 -> - / 1000 <= ln y <= 0.
Proof.
  intro H. split; [|rewrite <- ln_1; apply ln_le; lra]. pose proof (exp_ineq1_le (ln (/ y))) as Q. rewrite exp_ln in Q by (apply Rinv_0_lt_compat; lra). rewrite ln_Rinv in Q by lra.
  assert (/ y <= 1 + / 1000); [|lra]. apply (Rmult_le_reg_r y); [lra|]. rewrite Rinv_l by lra. lra.
Qed.

Section Lost.
Variable l : libm.
Hypothesis G : good_lib l.
Hypothesis U : underflows l.
Notation cm := (map (fun m => b64_sub (b64_z 1) m)).

Lemma split_lik : exists la lb, lik_row l [ma; mb] split_sample = [la; lb] /\ lies (9710 * 2048) (9113 * 2048) la /\ lies (8510 * 2048) 0 lb.
Proof.
  assert (E : lik_row l [ma; mb] split_sample =
    [b64_add (single l [ma; mb] ma split_sample) (single l [cm ma; cm mb] (cm ma) (map (fun b => 1 - b)%Z split_sample));
     b64_add (single l [ma; mb] mb split_sample) (single l [cm ma; cm mb] (cm mb) (map (fun b => 1 - b)%Z split_sample))]) by reflexivity.
  rewrite E. clear E. eexists _, _. split; [reflexivity|].
  destruct (means_spec ra in_ra) as [[Fla Vla] [Fha Vha]]. destruct (means_spec rb in_rb) as [[Flb Vlb] [Fhb Vhb]].
  unfold split_sample, ma, mb. rewrite !split_row. change (1 - 1)%Z with 0%Z. change (1 - 0)%Z with 1%Z.
  set (p := lowm ra) in *. set (q := highm ra) in *. set (p' := highm rb) in *. set (q' := lowm rb) in *. clearbody p q p' q'.
  destruct (minus_spec p Fla ltac:(lra)) as [Fcp Vcp]. destruct (minus_spec q Fha ltac:(lra)) as [Fcq Vcq]. destruct (minus_spec p' Fhb ltac:(lra)) as [Fcp' Vcp']. destruct (minus_spec q' Flb ltac:(lra)) as [Fcq' Vcq'].
  set (cp := b64_sub (b64_z 1) p) in *. set (cq := b64_sub (b64_z 1) q) in *. set (cp' := b64_sub (b64_z 1) p') in *. set (cq' := b64_sub (b64_z 1) q') in *. clearbody cp cq cp' cq'.
  pose proof ln2_lo as L1. pose proof ln2_hi as L2. pose proof ln_3 as L3. pose proof ln_8192 as L4.
  assert (B20 : bpow radix2 (-20) = / 1048576) by reflexivity. assert (Mi : forall r, milli r = - (IZR r * / 1024)) by reflexivity.
  assert (G8 : ln (3 / 8192) = ln 3 - 13 * ln 2) by (unfold Rdiv; rewrite ln_mult by lra; rewrite L4; lra).
  assert (H3 : ln 3 <= 2 * ln 2) by (replace (2 * ln 2) with (ln 4) by (replace 4 with (2 * 2) by lra; rewrite ln_mult by lra; lra); apply ln_le; lra).
  assert (Xp : lies 9700 9113 (l_log l p)).
  { apply (log_lies l 9700 9113 p (- (13 * ln 2)) (- (13 * ln 2)) G Fla ltac:(lra)); [rewrite Vla, L4; lra|lra|lra|rewrite Mi; lra|left; rewrite Mi; lra]. }
  assert (Xq : lies 8500 0 (l_log l q)).
  { apply (log_lies l 8500 0 q (ln (3 / 8192)) (ln (3 / 8192)) G Fha ltac:(lra)); [rewrite Vha; lra|lra|lra|rewrite Mi; lra|right; reflexivity]. }
  assert (Xp' : lies 8500 0 (l_log l p')).
  { apply (log_lies l 8500 0 p' (ln (3 / 8192)) (ln (3 / 8192)) G Fhb ltac:(lra)); [rewrite Vhb; lra|lra|lra|rewrite Mi; lra|right; reflexivity]. }
  assert (Xq' : lies 9700 9113 (l_log l q')).
  { apply (log_lies l 9700 9113 q' (- (13 * ln 2)) (- (13 * ln 2)) G Flb ltac:(lra)); [rewrite Vlb, L4; lra|lra|lra|rewrite Mi; lra|left; rewrite Mi; lra]. }
  assert (Xc : forall y, fin y -> 1 - / 1024 <= val y <= 1 -> lies 10 0 (l_log l y)).
  { intros y Fy By. pose proof (ln_near_1 _ By) as Q. apply (log_lies l 10 0 y (- / 1000) 0 G Fy ltac:(lra)); [exact Q|lra|lra|rewrite Mi; lra|right; reflexivity]. }
  split.
  - replace (9710 * 2048)%Z with ((9700 + 0) * 2048 + (0 + 10) * 2048)%Z by lia. replace (9113 * 2048)%Z with ((9113 + 0) * 2048 + (0 + 0) * 2048)%Z by lia. apply add_lies; try lia.
    + apply (single_lies l p q p' q' true 1 0 9700 9113 0 0 Fla Fha Fhb Flb); try lia. cbv zeta iota. split; [lra|]. split; [lra|]. split; [apply one_lies; [lia|lia|exact Xp]|apply zero_lies; apply Xq].
    + apply (single_lies l cp cq cp' cq' true 0 1 0 0 10 0 Fcp Fcq Fcp' Fcq'); try lia. cbv zeta iota. split; [lra|]. split; [lra|]. split; [apply zero_lies; apply (Xc cp Fcp Vcp)|apply one_lies; [lia|lia|apply (Xc cq Fcq Vcq)]].
  - apply (add_lies _ _ ((8500 + 0) * 2048)%Z ((0 + 0) * 2048)%Z ((0 + 10) * 2048)%Z ((0 + 0) * 2048)%Z); try lia.
    + apply (single_lies l p q p' q' false 1 0 8500 0 0 0 Fla Fha Fhb Flb); try lia. cbv zeta iota. split; [lra|]. split; [lra|]. split; [apply one_lies; [lia|lia|exact Xp']|apply zero_lies; apply Xq'].
    + apply (single_lies l cp cq cp' cq' false 0 1 0 0 10 0 Fcp Fcq Fcp' Fcq'); try lia. cbv zeta iota. split; [lra|]. split; [lra|]. split; [apply zero_lies; apply (Xc cp' Fcp' Vcp')|apply one_lies; [lia|lia|apply (Xc cq' Fcq' Vcq')]].
Qed.
Lemma split_sizes : data_sizes 2 (half + half) [split_sample].
Proof.
  pose proof half_Z as H. split; [lia|]. split; [lia|]. split; [lia|]. split; [lia|]. split; [discriminate|]. split; [cbn [length]; lia|]. constructor; [|constructor]. split; [unfold split_sample; rewrite app_length, !repeat_length; reflexivity|].
  apply Forall_app. split; apply Forall_forall; intros b Hb; apply repeat_spec in Hb; subst b; [right|left]; reflexivity.
Qed.
Lemma split_drawn : drawn64 2 (half + half) split_means.
Proof.
  destruct quarter_spec as [Fq Vq]. destruct tq_spec as [Ft Vt].
  assert (Q : forall k, Forall (fun x => fin x /\ / 4 <= val x <= 3 / 4) (repeat quarter k)) by (intro k; apply Forall_forall; intros b Hb; apply repeat_spec in Hb; subst b; split; [exact Fq|lra]).
  assert (T : forall k, Forall (fun x => fin x /\ / 4 <= val x <= 3 / 4) (repeat three_quarters k)) by (intro k; apply Forall_forall; intros b Hb; apply repeat_spec in Hb; subst b; split; [exact Ft|lra]).
  split; [reflexivity|]. constructor; [|constructor; [|constructor]]; (split; [rewrite app_length, !repeat_length; reflexivity|apply Forall_app; split; auto]).
Qed.
Lemma split_emptied : emptied l [split_sample] (repeat (weight0 2) 2) [ma; mb] 0.
Proof.
  intros x [<-|[]]. destruct split_lik as (la & lb & E & [Fa Ba] & [Fb Bb]).
  assert (Gp : good_params 2 (half + half) (repeat (weight0 2) 2) [ma; mb]).
  { pose proof (start_ok l 2 (half + half) [split_sample] split_means split_sizes split_drawn) as I. unfold start in I. cbv zeta in I. rewrite (mean0_split l) in I. apply I. }
  destruct (estep l 2 (half + half) [split_sample] G split_sizes _ _ split_sample Gp (or_introl eq_refl)) as ([Fz Az] & _).
  unfold gam. rewrite E. cbn [repeat]. unfold zip_with. cbn [combine map fst snd nth]. set (w := weight0 2) in *.
  assert (Lw : lies 1024 0 (l_log l w)).
  { assert (Vw : fin w /\ val w = / 2).
    { unfold w, weight0. change (Z.of_nat 2) with 2%Z. destruct one as [F1 V1]. destruct (z_spec 2) as [F2 V2]; [lia|]. destruct (quot_le (b64_z 1) (b64_z 2) F1) as (F & V & B); [lra|lra|].
      assert (Vh : val (b64_div (b64_z 1) (b64_z 2)) = / 2) by (rewrite V, V1, V2; replace (1 / 2) with (bpow radix2 (-1)) by (change (bpow radix2 (-1)) with (/ 2); lra); rewrite rnd_id; [reflexivity|apply generic_format_bpow; unfold FLT_exp; lia]).
      destruct (times_1 _ F) as [Fm Vm]; [apply (big_abs _ 1); [lia|]; apply Rabs_le; lra|]. split; [exact Fm|]. rewrite Vm. exact Vh. }
    destruct Vw as [Fw Vw]. pose proof ln2_lo. pose proof ln2_hi. assert (L : ln (/ 2) = - ln 2) by (apply ln_Rinv; lra).
    apply (log_lies l 1024 0 w (- ln 2) (- ln 2) G Fw ltac:(lra)); [rewrite Vw, L; lra|lra|lra|unfold milli; change (bpow radix2 (-10)) with (/ 1024); lra|right; reflexivity]. }
  assert (Ea : lies (1024 + 9710 * 2048) (0 + 9113 * 2048) (expo l w la)) by (apply add_lies; try lia; [exact Lw|split; assumption]).
  assert (Eb : lies (1024 + 8510 * 2048) (0 + 0) (expo l w lb)) by (apply add_lies; try lia; [exact Lw|split; assumption]).
  assert (Zb : val (expo l w lb) <= val (zed l (repeat w 2) [ma; mb] split_sample)).
  { unfold zed. rewrite E. cbn [repeat]. unfold zip_with. cbn [combine map fst snd].
    assert (Low : forall A B y, lies A B y -> (0 <= B)%Z -> (A <= 20000000)%Z -> low y).
    { intros A B y [Fy By] HB HA. left. split; [exact Fy|]. pose proof (milli_neg B HB). apply IZR_le in HA. unfold milli in *. unfold LA. change (bpow radix2 (-10)) with (/ 1024) in *. lra. }
    destruct (logsumexp_low l [expo l w la; expo l w lb] (expo l w lb) G) as (m & z & Ez & _ & _ & Mx & _ & Rz).
    - constructor; [apply (Low _ _ _ Ea); lia|]. constructor; [apply (Low _ _ _ Eb); lia|constructor].
    - cbn [length]. lia.
    - right. left. reflexivity.
    - apply Eb.
    - rewrite Ez. specialize (Mx _ (or_intror (or_introl eq_refl)) (proj1 Eb)). lra. }
  change (repeat w 2) with [w; w] in *. set (z := zed l [w; w] [ma; mb] split_sample) in *. clearbody z. destruct Ea as [Fea Bea]. destruct Eb as [Feb Beb]. unfold LA in Az. apply abs_in in Az. unfold milli in Bea, Beb. change (bpow radix2 (-10)) with (/ 1024) in *.
  change (1024 + 9710 * 2048)%Z with 19887104%Z in Bea. change (0 + 9113 * 2048)%Z with 18663424%Z in Bea. change (1024 + 8510 * 2048)%Z with 17429504%Z in Beb.
  destruct (sub_spec (expo l w la) z Fea Fz) as [Fs Vs]; [apply (big_abs _ 100000000); [lia|]; apply Rabs_le; lra|]. apply U; [exact Fs|]. rewrite Vs. apply rnd_le'; [apply (fmt_IZR (-800)); lia|lra].
Qed.
Lemma split_lost m : b_pi _ (snd (after l 2 (half + half) [split_sample] split_means m)) = repeat (weight0 2) 2 /\ b_mu _ (snd (after l 2 (half + half) [split_sample] split_means m)) = [ma; mb].
Proof.
  pose proof split_sizes as D. pose proof split_drawn as M. assert (Z : after l 2 (half + half) [split_sample] split_means 0 = start l 2 [split_sample] split_means) by reflexivity.
  assert (P0 : b_pi _ (snd (start l 2 [split_sample] split_means)) = repeat (weight0 2) 2) by reflexivity. assert (M0 : b_mu _ (snd (start l 2 [split_sample] split_means)) = [ma; mb]) by (rewrite <- (mean0_split l); reflexivity).
  destruct m as [|m]; [rewrite Z; split; assumption|].
  assert (S1 : fst (fst (fst (after l 2 (half + half) [split_sample] split_means 1))) = true /\ b_pi _ (snd (after l 2 (half + half) [split_sample] split_means 1)) = repeat (weight0 2) 2 /\ b_mu _ (snd (after l 2 (half + half) [split_sample] split_means 1)) = [ma; mb]).
  { pose proof (start_ok l 2 (half + half) [split_sample] split_means D M) as I. destruct I as (Gp & _). 
    assert (E : emptied l [split_sample] (b_pi _ (snd (start l 2 [split_sample] split_means))) (b_mu _ (snd (start l 2 [split_sample] split_means))) 0) by (rewrite P0, M0; exact split_emptied).
    destruct (step_stop l 2 (half + half) [split_sample] G D true (snd (start l 2 [split_sample] split_means)) 0 Gp ltac:(lia) E) as (lb' & old & ll & Es & _).
    change (after l 2 (half + half) [split_sample] split_means 1) with (adv l 2 (half + half) [split_sample] (start l 2 [split_sample] split_means)).
    change (start l 2 [split_sample] split_means) with (false, true, get_log_bernoullis (Bops l) [split_sample] (b_mu _ (snd (start l 2 [split_sample] split_means))), snd (start l 2 [split_sample] split_means)).
    unfold adv. cbv beta iota. cbn [snd]. rewrite Es. cbn [fst snd b_pi b_mu]. split; [reflexivity|]. split; assumption. }
  assert (On : after l 2 (half + half) [split_sample] split_means (S m) = after l 2 (half + half) [split_sample] split_means 1).
  { destruct S1 as [S1 _]. induction m as [|m IH]; [reflexivity|]. change (after l 2 (half + half) [split_sample] split_means (S (S m))) with (adv l 2 (half + half) [split_sample] (after l 2 (half + half) [split_sample] split_means (S m))). rewrite IH.
    destruct (after l 2 (half + half) [split_sample] split_means 1) as [[[a b] c] w]. cbn [fst] in S1. subst a. reflexivity. }
  rewrite On. apply S1.
Qed.
End Lost.
