(** Lemmas about fitting a mixture in double precision: how accurate the responsibilities are. *)
From Coq Require Import List ZArith Reals Bool Lia Lra.
From Flocq Require Import Core Relative IEEE754.BinarySingleNaN.
From Verif.Model Require Import Py Float Clustering Bmm.
From Verif.Spec Require Import RealOps Info BmmSpec IeeeOps IeeeCluster IeeeBmmSpec.
From Verif.Proofs Require ClusterP EntropyP BmmEm InfoP.
From Verif.Proofs Require Import Base EmleP IeeeP IeeeInfoP IeeeEmleP IeeeSweepP IeeeDudeP IeeeBmmP IeeeBmmQ IeeeBmmS IeeeBmmT IeeeBmmU.
Import ListNotations.
Open Scope R_scope.

(** ** Real numbers *)
Lemma exp_small e : 0 <= e <= / 2 -> 1 - e <= exp (- e) /\ exp e <= 1 + 2 * e.
Proof.
  intro H. pose proof (exp_ineq1_le (- e)) as A. split; [lra|]. assert (P : 0 < exp (- e)) by apply exp_pos. assert (I : exp e * exp (- e) = 1) by (rewrite <- exp_plus; replace (e + - e) with 0 by lra; apply exp_0).
  assert (Q : 0 < exp e) by apply exp_pos. nra.
Qed.
Lemma exp_near r d e : 0 <= e <= / 2 -> Rabs d <= e -> (1 - e) * exp r <= exp (r + d) <= (1 + 2 * e) * exp r.
Proof.
  intros He H. apply abs_in in H. destruct (exp_small e He) as [A B]. rewrite exp_plus. assert (P : 0 < exp r) by apply exp_pos. assert (L : exp (- e) <= exp d) by (apply exp_mono; lra). assert (U : exp d <= exp e) by (apply exp_mono; lra).
  split; [apply Rle_trans with (exp r * (1 - e)); [lra|apply Rmult_le_compat_l; lra]|apply Rle_trans with (exp r * (1 + 2 * e)); [apply Rmult_le_compat_l; lra|lra]].
Qed.
Lemma Rsum_bounds {A} (f g : A -> R) a b l : (forall x, In x l -> a * g x <= f x <= b * g x) -> a * Rsum (map g l) <= Rsum (map f l) <= b * Rsum (map g l).
Proof.
  induction l as [|x l IH]; intro H; [cbn; lra|]. cbn [map]. unfold Rsum in *. cbn [fold_right]. specialize (IH (fun y Hy => H y (or_intror Hy))). specialize (H x (or_introl eq_refl)). lra.
Qed.
Lemma Rsum_err {A} (f g : A -> R) e t l : (forall x, In x l -> Rabs (f x - g x) <= e * g x + t) -> Rabs (Rsum (map f l) - Rsum (map g l)) <= e * Rsum (map g l) + INR (length l) * t.
Proof.
  induction l as [|x l IH]; intro H; [cbn; rewrite Rminus_diag_eq, Rabs_R0 by reflexivity; lra|]. cbn [map length]. rewrite S_INR. unfold Rsum in *. cbn [fold_right]. specialize (IH (fun y Hy => H y (or_intror Hy))). specialize (H x (or_introl eq_refl)).
  apply abs_in in IH. apply abs_in in H. apply Rabs_le. lra.
Qed.
Lemma Rsum_ge {A} (f : A -> R) l x : (forall y, In y l -> 0 <= f y) -> In x l -> f x <= Rsum (map f l).
Proof.
  induction l as [|y l IH]; intros H I; [contradiction|]. cbn [map]. unfold Rsum in *. cbn [fold_right]. assert (N : 0 <= fold_right Rplus 0 (map f l)).
  { clear IH I. assert (H' : forall z, In z l -> 0 <= f z) by (intros z Hz; apply H; right; exact Hz). clear H. induction l as [|z l IH]; [cbn; lra|]. cbn [map fold_right]. specialize (IH (fun w Hw => H' w (or_intror Hw))). specialize (H' z (or_introl eq_refl)). lra. }
  destruct I as [-> |I]; [lra|]. specialize (IH (fun z Hz => H z (or_intror Hz)) I). specialize (H y (or_introl eq_refl)). lra.
Qed.
(** Shares of numbers that are right up to a factor. *)
Lemma share_near w W e E c d : 0 < c -> 0 <= d <= / 8192 -> 0 <= w <= W -> 0 < W -> c * (1 - d) * w <= e <= c * (1 + 2 * d) * w -> c * (1 - d) * W <= E <= c * (1 + 2 * d) * W -> Rabs (e / E - w / W) <= / 2100.
Proof.
  intros Hc Hd Hw HW He HE. assert (PE : 0 < E) by nra. set (p := w / W). assert (Hp : 0 <= p <= 1). { unfold p. split; [apply Rmult_le_pos; [lra|left; apply Rinv_0_lt_compat; lra]|]. apply (Rmult_le_reg_r W); [lra|]. unfold Rdiv. rewrite Rmult_assoc, Rinv_l by lra. lra. }
  assert (Ew : w = p * W) by (unfold p; field; lra). rewrite Ew in *. clearbody p. clear w Ew Hw. set (q := e / E). assert (Eq : e = q * E) by (unfold q; field; lra). rewrite Eq in *. clearbody q. clear e Eq.
  assert (C1 : 0 < c * (1 - d)) by (apply Rmult_lt_0_compat; lra). assert (C3 : 0 <= p * W) by (apply Rmult_le_pos; lra).
  assert (Q0 : 0 <= q). { destruct (Rle_lt_dec 0 q) as [Q|Q]; [exact Q|]. exfalso. assert (0 <= c * (1 - d) * (p * W)) by (apply Rmult_le_pos; lra). assert (0 < - q * E) by (apply Rmult_lt_0_compat; lra). lra. }
  assert (CW : 0 < c * W) by (apply Rmult_lt_0_compat; lra).
  assert (Lo : (1 - d) * p <= q * (1 + 2 * d)).
  { apply (Rmult_le_reg_r (c * W)); [exact CW|]. apply Rle_trans with (q * E); [lra|]. apply Rle_trans with (q * (c * (1 + 2 * d) * W)); [apply Rmult_le_compat_l; lra|lra]. }
  assert (Hi : q * (1 - d) <= (1 + 2 * d) * p).
  { apply (Rmult_le_reg_r (c * W)); [exact CW|]. apply Rle_trans with (q * E); [|lra]. apply Rle_trans with (q * (c * (1 - d) * W)); [lra|apply Rmult_le_compat_l; lra]. }
  apply Rabs_le. assert (q <= 1.01) by nra. split; nra.
Qed.
Lemma ln_near S T d : 0 < T -> 0 <= d <= / 2 -> (1 - d) * T <= S <= (1 + d) * T -> Rabs (ln S - ln T) <= 2 * d.
Proof.
  intros PT Hd H. assert (PS : 0 < S) by nra. assert (E1 : exp (- (2 * d)) <= 1 - d).
  { destruct (exp_small d Hd) as [_ _]. replace (- (2 * d)) with (- d + - d) by lra. rewrite exp_plus. assert (I : exp d * exp (- d) = 1) by (rewrite <- exp_plus; replace (d + - d) with 0 by lra; apply exp_0). pose proof (exp_ineq1_le d). pose proof (exp_pos (- d)).
    assert (exp (- d) <= / (1 + d)) by (apply (Rmult_le_reg_r (1 + d)); [lra|]; rewrite Rinv_l by lra; nra). assert (J : / (1 + d) * (1 + d) = 1) by (apply Rinv_l; lra). set (v := / (1 + d)) in *. clearbody v. set (w := exp (- d)) in *. clearbody w. assert (0 < v) by nra.
    apply Rle_trans with (v * v); [nra|]. assert (K : v * v * ((1 + d) * (1 + d)) = 1) by (replace (v * v * ((1 + d) * (1 + d))) with ((v * (1 + d)) * (v * (1 + d))) by ring; rewrite J; ring). assert ((1 - d) * ((1 + d) * (1 + d)) >= 1) by nra. apply (Rmult_le_reg_r ((1 + d) * (1 + d))); [nra|]. lra. }
  pose proof (exp_ineq1_le (2 * d)) as E2. apply Rabs_le. split.
  - assert (L : ln (T * exp (- (2 * d))) <= ln S) by (apply ln_le; [apply Rmult_lt_0_compat; [exact PT|apply exp_pos]|nra]). rewrite ln_mult in L by (try exact PT; apply exp_pos). rewrite ln_exp in L. lra.
  - assert (L : ln S <= ln (T * exp (2 * d))) by (apply ln_le; [exact PS|nra]). rewrite ln_mult in L by (try exact PT; apply exp_pos). rewrite ln_exp in L. lra.
Qed.

(** ** Rounding errors *)
Lemma rnd_err x b e : Rabs x <= b -> b * u + u * u <= e -> Rabs (rnd x - x) <= e.
Proof. intros H He. pose proof (rnd_near x) as N. pose proof (Rabs_pos x). assert (0 <= u) by (rewrite u_val; lra). assert (u * Rabs x <= u * b) by (apply Rmult_le_compat_l; assumption). lra. Qed.
(** A sum of terms of one sign that are right up to an error. *)
Lemma fold_neg_err (m K : Z) e r ts : (0 <= m)%Z -> (0 <= K)%Z -> (K <= 2 ^ 53)%Z -> IZR K * u + u * u <= r -> forall ys, Forall2 (fun y t => bounded m y /\ Rabs (val y - t) <= e) ys ts ->
  forall a A k, bounded k a -> (0 <= k)%Z -> (k + m * Z.of_nat (length ys) <= K)%Z -> 
  Rabs (val (fold_left b64_add ys a) - (A + Rsum ts)) <= Rabs (val a - A) + INR (length ys) * (e + r).
Proof.
  intros Hm HK HK' Hr ys F. induction F as [|y t ys ts [[Fy By] Ey] F IH]; intros a A k [Fa Ba] Hk B.
  - cbn [fold_left length]. unfold Rsum. cbn [fold_right]. change (INR 0) with 0. replace (val a - (A + 0)) with (val a - A) by lra. lra.
  - cbn [fold_left length] in *. rewrite S_INR. unfold Rsum in *. cbn [fold_right]. assert (Bl : (k + m <= K)%Z) by nia. assert (Bl' := Bl). apply IZR_le in Bl'. rewrite plus_IZR in Bl'.
    destruct (add_spec a y Fa Fy) as [Fs Vs]; [apply (big_abs _ K); [lia|]; apply Rabs_le; lra|].
    assert (N : Rabs (rnd (val a + val y) - (val a + val y)) <= r) by (apply (rnd_err _ (IZR K)); [apply Rabs_le; lra|exact Hr]).
    assert (Bs : bounded (k + m) (b64_add a y)).
    { split; [exact Fs|]. rewrite Vs, plus_IZR. split; [|apply rnd_le'; [apply fmt_0|lra]]. apply rnd_ge; [|lra]. rewrite <- plus_IZR, <- opp_IZR. apply fmt_IZR. lia. }
    specialize (IH (b64_add a y) (A + t) (k + m)%Z Bs ltac:(lia) ltac:(nia)).
    replace (A + (t + fold_right Rplus 0 ts)) with (A + t + fold_right Rplus 0 ts) by ring. eapply Rle_trans; [exact IH|]. 
    assert (X : Rabs (val (b64_add a y) - (A + t)) <= Rabs (val a - A) + (e + r)).
    { rewrite Vs. replace (rnd (val a + val y) - (A + t)) with ((val a - A) + ((val y - t) + (rnd (val a + val y) - (val a + val y)))) by ring. eapply Rle_trans; [apply Rabs_triang|]. pose proof (Rabs_triang (val y - t) (rnd (val a + val y) - (val a + val y))). lra. }
    lra.
Qed.
(** A sum of numbers in [0,1]. *)
Lemma fold_unit_err r ys : IZR 2048 * u + u * u <= r -> Forall unit64 ys -> forall a k, within k a -> (0 <= k)%Z -> (k + Z.of_nat (length ys) <= 2048)%Z ->
  Rabs (val (fold_left b64_add ys a) - (val a + Rsum (map val ys))) <= INR (length ys) * r.
Proof.
  intros Hr F. induction F as [|y ys [Fy By] F IH]; intros a k [Fa Ba] Hk B.
  - cbn [fold_left length map]. unfold Rsum. cbn [fold_right]. change (INR 0) with 0. rewrite Rplus_0_r, Rminus_diag_eq, Rabs_R0 by reflexivity. lra.
  - cbn [fold_left length map] in *. rewrite S_INR. unfold Rsum in *. cbn [fold_right]. assert (Bl : (k + 1 <= 2048)%Z) by lia. assert (Bl' := Bl). apply IZR_le in Bl'. rewrite plus_IZR in Bl'.
    destruct (add_spec a y Fa Fy) as [Fs Vs]; [apply (big_abs _ 2048); [lia|]; apply Rabs_le; lra|].
    assert (N : Rabs (rnd (val a + val y) - (val a + val y)) <= r) by (apply (rnd_err _ (IZR 2048)); [apply Rabs_le; lra|exact Hr]).
    assert (Bs : within (k + 1) (b64_add a y)).
    { split; [exact Fs|]. rewrite Vs, plus_IZR. split; [apply rnd_ge; [apply fmt_0|lra]|]. rewrite <- plus_IZR. apply rnd_le'; [apply fmt_IZR; lia|rewrite plus_IZR; lra]. }
    specialize (IH (b64_add a y) (k + 1)%Z Bs ltac:(lia) ltac:(lia)). apply abs_in in IH. apply abs_in in N. rewrite <- Vs in N. apply Rabs_le. lra.
Qed.

(** ** Computed exponentials *)
Definition tiny : R := bpow radix2 (-960).
Lemma tiny_small : 0 <= tiny <= / 1152921504606846976.
Proof. unfold tiny. split; [apply bpow_ge_0|]. change (/ 1152921504606846976) with (bpow radix2 (-60)). apply bpow_le. lia. Qed.
Lemma exp_m699 : exp (-699) <= tiny.
Proof. unfold tiny. rewrite bpow_exp. apply exp_mono. pose proof ln2_hi. assert (Q : -699 <= -960 * ln 2) by lra. exact Q. Qed.
Lemma exp_step l x r e : good_lib l -> accurate_exp l -> fin x -> val x <= 0 -> 0 <= e <= / 4 -> Rabs (val x - r) <= e ->
  Rabs (val (l_exp l x) - exp r) <= (2 * e + / 562949953421312) * exp r + tiny.
Proof.
  intros G A F N He H. destruct (exp_unit l x G F N) as [_ Bx]. destruct (A x F N) as [A1 A2]. pose proof tiny_small as T. pose proof (exp_pos r) as P.
  destruct (exp_near r (val x - r) e ltac:(lra) H) as [L U]. replace (r + (val x - r)) with (val x) in L, U by ring. apply abs_in in H.
  destruct (Rle_lt_dec (-700) (val x)) as [Q|Q].
  - specialize (A1 Q). change (bpow radix2 (-50)) with (/ 1125899906842624) in A1. apply abs_in in A1. set (v := exp (val x)) in *. clearbody v. set (w := val (l_exp l x)) in *. clearbody w. set (R := exp r) in *. clearbody R.
    assert (e * R <= / 4 * R) by (apply Rmult_le_compat_r; lra). assert (0 <= e * R) by (apply Rmult_le_pos; lra). apply Rabs_le. lra.
  - specialize (A2 ltac:(lra)). fold tiny in A2. assert (X : exp r <= tiny) by (apply Rle_trans with (exp (-699)); [apply exp_mono; lra|exact exp_m699]).
    assert (0 <= (2 * e + / 562949953421312) * exp r) by (apply Rmult_le_pos; lra). apply Rabs_le. lra.
Qed.

(** ** Exponents *)
Lemma expo_err l p v q : good_lib l -> unit64 p -> 0 < val p -> bounded LB v -> Rabs (val v - q) <= / 16000 -> Rabs (val (expo l p v) - (ln (val p) + q)) <= / 8192.
Proof.
  intros G [Fp Bp] Pp [Fv Bv] H. destruct (log_bounds l 1074 p G ltac:(lia) Fp ltac:(split; [apply (pos_min p Fp Pp)|lra])) as [Fl Bl]. change (1074 + 1)%Z with 1075%Z in Bl. unfold LB in *. unfold expo.
  destruct (add_spec (l_log l p) v Fl Fv) as [Fs Vs]; [apply (big_abs _ 22002000); [lia|]; apply Rabs_le; lra|]. rewrite Vs.
  assert (N : Rabs (rnd (val (l_log l p) + val v) - (val (l_log l p) + val v)) <= / 268435456) by (apply (rnd_err _ 22002000); [apply Rabs_le; lra|rewrite u_val; lra]).
  destruct G as (_ & A & _). destruct (A p Fp Pp) as [_ El]. change (bpow radix2 (-50)) with (/ 1125899906842624) in El.
  assert (L1 : Rabs (ln (val p)) <= 1074).
  { apply Rabs_le. split; [|apply Rle_trans with (ln 1); [apply ln_le; lra|rewrite ln_1; lra]]. apply Rle_trans with (ln (bpow radix2 (-1074))); [rewrite ln_bpow; pose proof ln2_hi; assert (Q : - (1074) <= -1074 * ln 2) by lra; exact Q|]. apply ln_le; [apply bpow_gt_0|apply (pos_min p Fp Pp)]. }
  apply abs_in in N. apply abs_in in H. assert (El' : Rabs (val (l_log l p) - ln (val p)) <= / 1000000000) by lra. apply abs_in in El'. apply Rabs_le. lra.
Qed.
Lemma logsumexp_eq l xs x : Forall low xs -> In x xs -> fin x -> let m := fmaximum (Bops l) xs in
  bounded LA m /\ In m xs /\ (forall y, In y xs -> fin y -> val y <= val m) /\ logsumexp (Bops l) xs = b64_add (l_log l (fold_left b64_add (map (fun y => l_exp l (b64_sub y m)) xs) (b64_z 0))) m.
Proof.
  intros F I Fx m. destruct (fmaximum_low l xs x F I Fx) as (Bm & Im & Mx). split; [exact Bm|]. split; [exact Im|]. split; [exact Mx|].
  unfold logsumexp. fold m. cbv zeta. change (Float.F (Bops l)) with b64 in *. rewrite (isfinite_fin l m (proj1 Bm)). reflexivity.
Qed.

Section Row.
Variables (l : libm) (n : nat) (ps row : list b64) (lam : nat -> R).
Hypothesis G : good_lib l.
Hypothesis A : accurate_exp l.
Hypothesis Lp : length ps = n.
Hypothesis Lr : length row = n.
Hypothesis Hn : (Z.of_nat n <= 2 ^ 10)%Z.
Hypothesis U : Forall unit64 ps.
Hypothesis P : Exists (fun p => 0 < val p) ps.
Hypothesis B : Forall (bounded LB) row.
Hypothesis Lam : forall k, (k < n)%nat -> Rabs (val (nth k row (b64_z 0)) - lam k) <= / 16000.
Notation d0 := (b64_z 0).
Definition pk (k : nat) : b64 := nth k ps d0.
Definition ak (k : nat) : b64 := expo l (pk k) (nth k row d0).
Definition Wk (k : nat) : R := val (pk k) * exp (lam k).
Notation z := (logsumexp (Bops l) (zip_with (expo l) ps row)).
Notation g := (zip_with (fun p v => l_exp l (b64_sub (expo l p v) z)) ps row).

Lemma pk_unit k : (k < n)%nat -> unit64 (pk k).
Proof. intro Hk. rewrite Forall_forall in U. apply U, nth_In. lia. Qed.
Lemma row_bounded k : (k < n)%nat -> bounded LB (nth k row d0).
Proof. intro Hk. rewrite Forall_forall in B. apply B, nth_In. lia. Qed.
Lemma ak_pos k : (k < n)%nat -> 0 < val (pk k) -> bounded LA (ak k) /\ Rabs (val (ak k) - (ln (val (pk k)) + lam k)) <= / 8192.
Proof.
  intros Hk H. split; [apply (expo_low l _ _ G (pk_unit k Hk) (row_bounded k Hk)); exact H|]. apply expo_err; [exact G|apply pk_unit; exact Hk|exact H|apply row_bounded; exact Hk|apply Lam; exact Hk].
Qed.
Lemma ak_zero k : (k < n)%nat -> val (pk k) = 0 -> ak k = minus_inf.
Proof. intros Hk H. apply (expo_low l _ _ G (pk_unit k Hk) (row_bounded k Hk)). exact H. Qed.
Lemma pk_cases k : (k < n)%nat -> 0 < val (pk k) \/ val (pk k) = 0.
Proof. intro Hk. destruct (pk_unit k Hk) as [_ [[H|H] _]]; [left; exact H|right; symmetry; exact H]. Qed.
Lemma ak_low k : (k < n)%nat -> low (ak k).
Proof. intro Hk. destruct (pk_cases k Hk) as [H|H]; [left; apply (ak_pos k Hk H)|right; apply (ak_zero k Hk H)]. Qed.
Lemma zip_ak : zip_with (expo l) ps row = map ak (seq 0 n).
Proof.
  rewrite (ClusterP.list_seq (zip_with (expo l) ps row) d0). rewrite zip_with_length, Lp, Lr, Nat.min_id. apply map_ext_in. intros k Hk. apply in_seq in Hk. unfold ak, pk. apply zip_with_nth; lia.
Qed.
Definition Ek (m : b64) (k : nat) : R := if Rlt_dec 0 (val (pk k)) then exp (val (ak k) - val m) else 0.
Lemma row_sum : exists m s, bounded LA m /\ (forall k, (k < n)%nat -> fin (ak k) -> val (ak k) <= val m) /\ z = b64_add (l_log l s) m /\ fin s /\ 1 <= val s <= 1024 /\
  1 <= Rsum (map (Ek m) (seq 0 n)) /\ Rabs (val s - Rsum (map (Ek m) (seq 0 n))) <= / 33554432 * Rsum (map (Ek m) (seq 0 n)).
Proof.
  assert (FL : Forall low (map ak (seq 0 n))) by (apply Forall_map, Forall_forall; intros k Hk; apply in_seq in Hk; apply ak_low; lia).
  assert (X : exists k, (k < n)%nat /\ 0 < val (pk k)).
  { apply Exists_exists in P. destruct P as (p & Ip & Pp). destruct (In_nth _ _ d0 Ip) as (k & Hk & E). exists k. split; [lia|]. unfold pk. rewrite E. exact Pp. }
  destruct X as (k0 & Hk0 & P0). rewrite zip_ak.
  assert (I0 : In (ak k0) (map ak (seq 0 n))) by (apply in_map, in_seq; lia).
  destruct (logsumexp_eq l _ (ak k0) FL I0 (proj1 (proj1 (ak_pos k0 Hk0 P0)))) as (Bm & Im & Mx & E). set (m := fmaximum (Bops l) (map ak (seq 0 n))) in *. clearbody m.
  exists m. rewrite map_map in E. set (e := fun k => l_exp l (b64_sub (ak k) m)) in *.
  assert (Sm : forall k, (k < n)%nat -> unit64 (e k) /\ (ak k = minus_inf -> e k = b64_z 0)).
  { intros k Hk. apply low_sub_exp; [exact G|apply ak_low; exact Hk|apply Bm| |intro Fk; apply Mx; [apply in_map, in_seq; lia|exact Fk]]. destruct Bm as [_ Bm]. unfold LA in Bm. apply Rabs_le. lra. }
  assert (Ue : Forall unit64 (map e (seq 0 n))) by (apply Forall_map, Forall_forall; intros k Hk; apply in_seq in Hk; apply Sm; lia).
  assert (We : Forall (within 1) (map e (seq 0 n))) by (eapply Forall_impl; [|exact Ue]; intros y Hy; apply unit_within; exact Hy).
  destruct (fsum_spec l 1 _ ltac:(lia) We) as [[Fs Rs] Ls]; [rewrite map_length, seq_length; lia|]. rewrite map_length, seq_length, Z.mul_1_l in Rs.
  change (fsum (Bops l) (map e (seq 0 n))) with (fold_left b64_add (map e (seq 0 n)) (b64_z 0)) in *.
  assert (Er := fold_unit_err (/ 4000000000000) (map e (seq 0 n)) ltac:(rewrite u_val; lra) Ue (b64_z 0) 0%Z (zero_within 0%Z ltac:(lia)) ltac:(lia)). rewrite map_length, seq_length in Er. specialize (Er ltac:(lia)). rewrite map_map, val_0, Rplus_0_l in Er.
  change (Float.F (Bops l)) with b64 in *. set (s := fold_left b64_add (map e (seq 0 n)) (b64_z 0)) in *. clearbody s. exists s.
  assert (Hn' : IZR (Z.of_nat n) <= 1024) by (change 1024 with (IZR (2 ^ 10)); apply IZR_le; exact Hn).
  assert (Im' : exists km, (km < n)%nat /\ ak km = m) by (apply in_map_iff in Im; destruct Im as (km & Ekm & Hkm); apply in_seq in Hkm; exists km; split; [lia|exact Ekm]). destruct Im' as (km & Hkm & Ekm).
  assert (Pm : 0 < val (pk km)). { destruct (pk_cases km Hkm) as [Q|Q]; [exact Q|]. pose proof (ak_zero km Hkm Q) as Y. rewrite Ekm in Y. rewrite Y in Bm. destruct Bm as [Fm _]. destruct (minf_not_fin Fm). }
  assert (S1 : 1 <= val s).
  { assert (V1 : val (e km) = 1). { unfold e. rewrite Ekm. destruct Bm as [Fm Rm]. destruct (sub_spec m m Fm Fm) as [F0 V0]; [rewrite Rminus_diag_eq, Rabs_R0 by reflexivity; apply Rlt_le, big_pos|]. rewrite Rminus_diag_eq, rnd_0 in V0 by reflexivity. apply (exp_one l _ G F0 V0). }
    rewrite <- V1. apply Ls. apply in_map, in_seq. lia. }
  assert (Mk : forall k, (k < n)%nat -> fin (ak k) -> val (ak k) <= val m) by (intros k Hk Fk; apply Mx; [apply in_map, in_seq; lia|exact Fk]).
  assert (Er2 : forall k, (k < n)%nat -> Rabs (val (e k) - Ek m k) <= / 67108864 * Ek m k + tiny).
  { intros k Hk. unfold Ek. pose proof tiny_small as T. destruct (Rlt_dec 0 (val (pk k))) as [Q|Q].
    - destruct (ak_pos k Hk Q) as [[Fa Ra] _]. specialize (Mk k Hk Fa). destruct Bm as [Fm Rm]. unfold LA in *. unfold e.
      destruct (sub_spec (ak k) m Fa Fm) as [F V]; [apply (big_abs _ 22002000); [lia|]; apply Rabs_le; lra|].
      assert (N : Rabs (val (b64_sub (ak k) m) - (val (ak k) - val m)) <= / 268435456) by (rewrite V; apply (rnd_err _ 22002000); [apply Rabs_le; lra|rewrite u_val; lra]).
      assert (Neg : val (b64_sub (ak k) m) <= 0) by (rewrite V; apply rnd_le'; [apply fmt_0|lra]).
      eapply Rle_trans; [apply (exp_step l _ _ (/ 268435456) G A F Neg ltac:(lra) N)|]. apply Rplus_le_compat_r. apply Rmult_le_compat_r; [left; apply exp_pos|lra].
    - assert (Z0 : val (pk k) = 0) by (destruct (pk_cases k Hk); [contradiction|assumption]). destruct (Sm k Hk) as [_ S0]. rewrite (S0 (ak_zero k Hk Z0)), val_0, Rminus_0_r, Rabs_R0. lra. }
  assert (E1 : 1 <= Rsum (map (Ek m) (seq 0 n))).
  { apply Rle_trans with (Ek m km).
    - unfold Ek. destruct (Rlt_dec 0 (val (pk km))) as [Q|Q]; [|contradiction]. rewrite Ekm, Rminus_diag_eq, exp_0 by reflexivity. lra.
    - apply Rsum_ge; [|apply in_seq; lia]. intros y _. unfold Ek. destruct (Rlt_dec 0 (val (pk y))); [left; apply exp_pos|lra]. }
  split; [exact Bm|]. split; [exact Mk|]. split; [exact E|]. split; [exact Fs|]. split; [lra|]. split; [exact E1|].
  assert (Er3 := Rsum_err (fun k => val (e k)) (Ek m) (/ 67108864) tiny (seq 0 n) (fun k Hk => Er2 k ltac:(apply in_seq in Hk; lia))). rewrite seq_length in Er3.
  pose proof tiny_small as T. assert (In1 : INR n <= 1024) by (rewrite INR_IZR_INZ; exact Hn'). assert (In0 : 0 <= INR n) by apply pos_INR.
  assert (T2 : INR n * tiny <= 1024 * / 1152921504606846976) by (apply Rmult_le_compat; lra). apply abs_in in Er. apply abs_in in Er3. apply Rabs_le. lra.
Qed.
Lemma Wk_nonneg k : (k < n)%nat -> 0 <= Wk k.
Proof. intro Hk. destruct (pk_unit k Hk) as [_ H]. unfold Wk. apply Rmult_le_pos; [lra|left; apply exp_pos]. Qed.
Lemma W_E m k : (k < n)%nat -> exp (- val m) * (1 - / 8192) * Wk k <= Ek m k <= exp (- val m) * (1 + 2 * / 8192) * Wk k.
Proof.
  intro Hk. unfold Ek, Wk. destruct (Rlt_dec 0 (val (pk k))) as [Q|Q].
  - destruct (ak_pos k Hk Q) as [_ H]. set (a := val (ak k)) in *. clearbody a. destruct (exp_near (ln (val (pk k)) + lam k - val m) (a - (ln (val (pk k)) + lam k)) (/ 8192) ltac:(lra) H) as [X Y].
    replace (ln (val (pk k)) + lam k - val m + (a - (ln (val (pk k)) + lam k))) with (a - val m) in X, Y by ring.
    replace (exp (ln (val (pk k)) + lam k - val m)) with (exp (- val m) * (val (pk k) * exp (lam k))) in X, Y; [lra|]. unfold Rminus. rewrite !exp_plus, exp_ln by exact Q. ring.
  - destruct (pk_cases k Hk) as [Y|Y]; [contradiction|]. rewrite Y. lra.
Qed.
Lemma W_pos : 0 < Rsum (map Wk (seq 0 n)).
Proof.
  apply Exists_exists in P. destruct P as (p & Ip & Pp). destruct (In_nth _ _ d0 Ip) as (k & Hk & E). apply Rlt_le_trans with (Wk k); [unfold Wk, pk; rewrite E; apply Rmult_lt_0_compat; [exact Pp|apply exp_pos]|].
  apply Rsum_ge; [intros y Hy; apply in_seq in Hy; apply Wk_nonneg; lia|apply in_seq; lia].
Qed.
(** The log-likelihood of the sample, the responsibilities, and their sum. *)
Lemma row_accurate : fin z /\ Rabs (val z - ln (Rsum (map Wk (seq 0 n)))) <= / 4096 /\ (forall k, (k < n)%nat -> Rabs (val (nth k g d0) - Wk k / Rsum (map Wk (seq 0 n))) <= / 2048) /\
  Rabs (Rsum (map (fun k => val (nth k g d0)) (seq 0 n)) - 1) <= / 1048576.
Proof.
  destruct row_sum as (m & s & [Fm Rm] & Mx & Ez & Fs & Rs & E1 & Es). set (S := Rsum (map (Ek m) (seq 0 n))) in *. unfold LA in Rm.
  destruct (resp_row l ps row G U P ltac:(lia) ltac:(lia) B) as ((Fz & Rz) & _ & _ & _). unfold LA in Rz.
  pose proof G as (_ & Al & _). destruct (Al s Fs ltac:(lra)) as [Fl El]. assert (L0 : 0 <= ln (val s)) by (rewrite <- ln_1; apply ln_le; lra). assert (L7 : ln (val s) <= 7.2) by (apply Rle_trans with (ln 1024); [apply ln_le; lra|apply ln_1024]).
  rewrite (Rabs_pos_eq _ L0) in El. change (bpow radix2 (-50)) with (/ 1125899906842624) in El. assert (El' : Rabs (val (l_log l s) - ln (val s)) <= / 100000000000000) by lra. assert (Lg0 : 0 <= val (l_log l s)) by (apply abs_in in El; lra). clear El. apply abs_in in El'.
  assert (Ls : Rabs (ln (val s) - ln S) <= 2 * / 33554432) by (apply ln_near; [lra|lra|]; apply abs_in in Es; lra). apply abs_in in Ls.
  assert (Zd : Rabs (val z - (val m + ln S)) <= / 15000000).
  { rewrite Ez. set (q := l_log l s) in *. clearbody q. destruct (add_spec q m Fl Fm) as [Fa Va]; [apply (big_abs _ 30000000); [lia|]; apply Rabs_le; lra|]. rewrite Va.
    assert (N : Rabs (rnd (val q + val m) - (val q + val m)) <= / 268435456) by (apply (rnd_err _ 22003000); [apply Rabs_le; lra|rewrite u_val; lra]). apply abs_in in N. apply Rabs_le. lra. }
  assert (SW : exp (- val m) * (1 - / 8192) * Rsum (map Wk (seq 0 n)) <= S <= exp (- val m) * (1 + 2 * / 8192) * Rsum (map Wk (seq 0 n))).
  { apply Rsum_bounds. intros k Hk. apply in_seq in Hk. apply W_E. lia. }
  pose proof W_pos as PW. set (W := Rsum (map Wk (seq 0 n))) in *. split; [exact Fz|].
  assert (Gk : forall k, (k < n)%nat -> Rabs (val (nth k g d0) - Ek m k / S) <= / 2097152 * (Ek m k / S) + tiny).
  { intros k Hk. rewrite (zip_with_nth (fun p v => l_exp l (b64_sub (expo l p v) z)) ps row k d0 d0) by lia. fold (pk k). fold (ak k). pose proof tiny_small as T.
    assert (Zm : val m <= val z). { rewrite Ez. destruct (add_spec (l_log l s) m Fl Fm) as [_ Va]; [apply (big_abs _ 30000000); [lia|]; apply Rabs_le; lra|]. rewrite Va. apply rnd_ge; [apply fmt_val|lra]. }
    change (Float.F (Bops l)) with b64 in *. set (zz := z) in *. clearbody zz. unfold Ek. destruct (Rlt_dec 0 (val (pk k))) as [Q|Q].
    - destruct (ak_pos k Hk Q) as [[Fa Ra] _]. specialize (Mx k Hk Fa). unfold LA in Ra. apply abs_in in Rz.
      destruct (sub_spec (ak k) zz Fa Fz) as [F V]; [apply (big_abs _ 60000000); [lia|]; apply Rabs_le; lra|].
      assert (N : Rabs (val (b64_sub (ak k) zz) - (val (ak k) - val zz)) <= / 134217728) by (rewrite V; apply (rnd_err _ 45000000); [apply Rabs_le; lra|rewrite u_val; lra]).
      assert (Neg : val (b64_sub (ak k) zz) <= 0) by (rewrite V; apply rnd_le'; [apply fmt_0|lra]).
      assert (N2 : Rabs (val (b64_sub (ak k) zz) - (val (ak k) - val m + - ln S)) <= / 8388608) by (apply abs_in in N; apply abs_in in Zd; apply Rabs_le; lra).
      assert (Ex : exp (val (ak k) - val m + - ln S) = exp (val (ak k) - val m) / S) by (rewrite exp_plus, exp_Ropp, exp_ln by lra; reflexivity). rewrite <- Ex.
      eapply Rle_trans; [apply (exp_step l _ _ (/ 8388608) G A F Neg ltac:(lra) N2)|]. apply Rplus_le_compat_r. apply Rmult_le_compat_r; [left; apply exp_pos|lra].
    - assert (Z0 : val (pk k) = 0) by (destruct (pk_cases k Hk); [contradiction|assumption]). rewrite (ak_zero k Hk Z0), (minf_sub zz Fz). pose proof G as (_ & _ & _ & Gm & _). rewrite Gm, val_0. unfold Rdiv. rewrite Rmult_0_l, Rminus_0_r, Rabs_R0. lra. }
  clear El' Ls L0 L7 Fl. split; [|split].
  - assert (LW' : Rabs (ln S - (- val m + ln W)) <= / 8192 + / 1000000).
    { assert (Q1 : S <= exp (- val m + / 8192) * W).
      { unfold S, W. destruct (Rsum_bounds (Ek m) Wk 0 (exp (- val m + / 8192)) (seq 0 n)) as [_ X]; [|lra]. intros k Hk. apply in_seq in Hk. split; [rewrite Rmult_0_l; unfold Ek; destruct (Rlt_dec 0 (val (pk k))); [left; apply exp_pos|lra]|].
        unfold Ek, Wk. destruct (Rlt_dec 0 (val (pk k))) as [Q|Q]; [|apply Rmult_le_pos; [left; apply exp_pos|apply Wk_nonneg; lia]]. destruct (ak_pos k ltac:(lia) Q) as [_ H]. apply abs_in in H.
        rewrite <- (exp_ln (val (pk k)) Q) at 1. rewrite <- !exp_plus. apply exp_mono. lra. }
      assert (Q2 : exp (- val m - / 8192) * W <= S).
      { unfold S, W. assert (X : Rsum (map (fun k => exp (- val m - / 8192) * Wk k) (seq 0 n)) <= Rsum (map (Ek m) (seq 0 n))).
        { apply EntropyP.Rsum_map_le. intros k Hk. apply in_seq in Hk. unfold Ek, Wk. destruct (Rlt_dec 0 (val (pk k))) as [Q|Q]; [|destruct (pk_cases k ltac:(lia)) as [Y|Y]; [contradiction|rewrite Y; lra]]. destruct (ak_pos k ltac:(lia) Q) as [_ H]. apply abs_in in H.
          rewrite <- (exp_ln (val (pk k)) Q) at 1. rewrite <- !exp_plus. apply exp_mono. lra. }
        rewrite BmmEm.Rsum_mult in X. exact X. }
      apply Rabs_le. split.
      - apply ln_le in Q2; [|apply Rmult_lt_0_compat; [apply exp_pos|exact PW]]. rewrite ln_mult, ln_exp in Q2 by (try apply exp_pos; exact PW). lra.
      - apply ln_le in Q1; [|lra]. rewrite ln_mult, ln_exp in Q1 by (try apply exp_pos; exact PW). lra. }
    apply abs_in in LW'. apply abs_in in Zd. apply Rabs_le. lra.
  - intros k Hk. specialize (Gk k Hk). assert (Hs : Rabs (Ek m k / S - Wk k / W) <= / 2100).
    { apply (share_near (Wk k) W (Ek m k) S (exp (- val m)) (/ 8192)); [apply exp_pos|lra| |exact PW|apply W_E; exact Hk|exact SW]. split; [apply Wk_nonneg; exact Hk|]. apply Rsum_ge; [intros y Hy; apply in_seq in Hy; apply Wk_nonneg; lia|apply in_seq; lia]. }
    assert (Sh : Ek m k / S <= 1).
    { apply (Rmult_le_reg_r S); [lra|]. unfold Rdiv. rewrite Rmult_assoc, Rinv_l by lra. rewrite Rmult_1_r, Rmult_1_l. apply Rsum_ge; [|apply in_seq; lia]. intros y _. unfold Ek. destruct (Rlt_dec 0 (val (pk y))); [left; apply exp_pos|lra]. }
    pose proof tiny_small as T. apply abs_in in Gk. apply abs_in in Hs. apply Rabs_le. lra.
  - assert (Er := Rsum_err (fun k => val (nth k g d0)) (fun k => Ek m k / S) (/ 2097152) tiny (seq 0 n) (fun k Hk => Gk k ltac:(apply in_seq in Hk; lia))). rewrite seq_length in Er.
    assert (Su : Rsum (map (fun k => Ek m k / S) (seq 0 n)) = 1).
    { rewrite <- (map_map (Ek m) (fun v => v / S)), InfoP.Rsum_div. fold S. unfold Rdiv. apply Rinv_r. lra. }
    rewrite Su in Er. pose proof tiny_small as T. assert (Hn' : IZR (Z.of_nat n) <= 1024) by (change 1024 with (IZR (2 ^ 10)); apply IZR_le; exact Hn). assert (In1 : INR n <= 1024) by (rewrite INR_IZR_INZ; exact Hn'). assert (In0 : 0 <= INR n) by apply pos_INR.
    assert (T2 : INR n * tiny <= 1024 * / 1152921504606846976) by (apply Rmult_le_compat; lra). lra.
Qed.
End Row.
