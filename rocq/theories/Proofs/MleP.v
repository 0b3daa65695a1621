(** Lemmas about the estimate of the probability of a noisy bit. *)
From Coq Require Import List Arith ZArith Bool Lia Reals Lra Psatz.
From Verif.Model Require Import Py Float InfoTheory Clustering Emle NoisyMle.
From Verif.Spec Require Import RealOps Info Cluster EmleSpec MleSpec.
From Verif.Proofs Require Import EmleP.
Import ListNotations.
Local Open Scope R_scope.

(** ** The likelihood *)
Definition power2 (k m : nat) (q : R) : R := q ^ k * (1 - q) ^ m.

Lemma ln_below y : 0 < y -> y <> 1 -> 1 - / y < ln y.
Proof.
  intros Hy H1. assert (Hi : 0 < / y) by (apply Rinv_0_lt_compat; exact Hy). assert (N : ln (/ y) <> 0).
  { intro E. apply H1. rewrite ln_Rinv in E by exact Hy. assert (E0 : ln y = 0) by lra. rewrite <- ln_1 in E0. apply ln_inv in E0; lra. }
  pose proof (exp_ineq1 (ln (/ y)) N) as E. rewrite exp_ln in E by exact Hi. rewrite ln_Rinv in E by exact Hy. lra.
Qed.
Lemma pow_exp x n : 0 < x -> x ^ n = exp (INR n * ln x).
Proof. intros H. rewrite <- Rpower_pow by exact H. reflexivity. Qed.
Lemma INR_pos n : 0 <= INR n.
Proof. apply pos_INR. Qed.

(** Below the share of ones the likelihood rises. *)
Lemma power2_rises k m q1 q2 : 0 <= q1 -> q1 < q2 -> q2 <= 1 -> (0 < k + m)%nat -> INR m * q2 <= INR k * (1 - q2) -> power2 k m q1 < power2 k m q2.
Proof.
  intros H0 H12 H1 Hn Hs. unfold power2. pose proof (INR_pos k) as Pk. pose proof (INR_pos m) as Pm.
  destruct k as [|k].
  { exfalso. cbn [INR] in Hs. assert (INR m * q2 <= 0) by lra. assert (0 < INR m) by (apply lt_0_INR; lia). nra. }
  destruct (Req_dec q2 1) as [->|N1].
  { assert (m = 0%nat). { destruct m as [|m]; [reflexivity|]. exfalso. assert (0 < INR (S m)) by (apply lt_0_INR; lia). lra. } subst m. rewrite pow1. cbn [pow]. rewrite !Rmult_1_r.
    change (q1 * q1 ^ k) with (q1 ^ S k). apply Rlt_le_trans with 1; [|lra]. clear -H0 H12. induction k as [|k IH]; [cbn [pow]; lra|]. change (q1 ^ S (S k)) with (q1 * q1 ^ S k).
    assert (0 <= q1 ^ S k) by (apply pow_le; exact H0). nra. }
  destruct (Req_dec q1 0) as [->|N0].
  { cbn [pow]. rewrite Rmult_0_l, Rmult_0_l. apply Rmult_lt_0_compat; [apply Rmult_lt_0_compat; [lra|apply pow_lt; lra]|apply pow_lt; lra]. }
  rewrite !pow_exp by lra. rewrite <- !exp_plus. apply exp_increasing.
  assert (L1 : 1 - q1 / q2 < ln q2 - ln q1).
  { assert (Y : 0 < q2 / q1) by (apply Rdiv_lt_0_compat; lra). pose proof (ln_below (q2 / q1) Y) as L. assert (q2 / q1 <> 1) as Ne. { intro E. apply (f_equal (fun x => x * q1)) in E. unfold Rdiv in E. rewrite Rmult_assoc, Rinv_l in E by lra. lra. }
    specialize (L Ne). unfold Rdiv in L at 2. rewrite ln_mult, ln_Rinv in L by (try apply Rinv_0_lt_compat; lra). replace (/ (q2 / q1)) with (q1 / q2) in L by (field; lra). lra. }
  assert (L2 : 1 - (1 - q1) / (1 - q2) < ln (1 - q2) - ln (1 - q1)).
  { assert (Y : 0 < (1 - q2) / (1 - q1)) by (apply Rdiv_lt_0_compat; lra). pose proof (ln_below ((1 - q2) / (1 - q1)) Y) as L.
    assert ((1 - q2) / (1 - q1) <> 1) as Ne. { intro E. apply (f_equal (fun x => x * (1 - q1))) in E. unfold Rdiv in E. rewrite Rmult_assoc, Rinv_l in E by lra. lra. }
    specialize (L Ne). unfold Rdiv in L at 2. rewrite ln_mult, ln_Rinv in L by (try apply Rinv_0_lt_compat; lra). replace (/ ((1 - q2) / (1 - q1))) with ((1 - q1) / (1 - q2)) in L by (field; lra). lra. }
  assert (D : 0 <= INR (S k) * (1 - q1 / q2) + INR m * (1 - (1 - q1) / (1 - q2))).
  { replace (INR (S k) * (1 - q1 / q2) + INR m * (1 - (1 - q1) / (1 - q2))) with ((q2 - q1) * ((INR (S k) * (1 - q2) - INR m * q2) * (/ q2 * / (1 - q2)))) by (field; lra).
    apply Rmult_le_pos; [lra|]. apply Rmult_le_pos; [lra|]. apply Rmult_le_pos; left; apply Rinv_0_lt_compat; lra. }
  assert (0 < INR (S k)) by (apply lt_0_INR; lia). nra.
Qed.
Lemma power2_falls k m q1 q2 : q1 <= 1 -> q2 < q1 -> 0 <= q2 -> (0 < k + m)%nat -> INR k * (1 - q2) <= INR m * q2 -> power2 k m q1 < power2 k m q2.
Proof.
  intros H1 H12 H0 Hn Hs. pose proof (power2_rises m k (1 - q1) (1 - q2)) as P. unfold power2 in *. replace (1 - (1 - q1)) with q1 in P by ring. replace (1 - (1 - q2)) with q2 in P by ring.
  rewrite (Rmult_comm (q1 ^ k)), (Rmult_comm (q2 ^ k)). apply P; try lra. lia.
Qed.

(** The number of ones. *)
Definition ones (l : list Z) : nat := length (filter (fun b => (b =? 1)%Z) l).
Lemma likelihood_power f p l : likelihood f p l = power2 (ones l) (length l - ones l) (arrives p f).
Proof.
  unfold likelihood, power2, ones. assert (G : forall l, (length (filter (fun b => (b =? 1)%Z) l) <= length l)%nat).
  { clear. induction l as [|b l IH]; cbn [filter length]; [lia|]. destruct (b =? 1)%Z; cbn [length]; lia. }
  induction l as [|b l IH]; cbn [fold_right filter length]; [cbn; ring|]. specialize (G l). destruct (b =? 1)%Z; cbn [length].
  - rewrite IH. replace (S (length l) - S (length (filter (fun b => (b =? 1)%Z) l)))%nat with (length l - length (filter (fun b => (b =? 1)%Z) l))%nat by lia. cbn [pow]. ring.
  - rewrite IH. replace (S (length l) - length (filter (fun b => (b =? 1)%Z) l))%nat with (S (length l - length (filter (fun b => (b =? 1)%Z) l)))%nat by lia. cbn [pow]. ring.
Qed.
Lemma ones_length l : (ones l <= length l)%nat.
Proof. unfold ones. induction l as [|b l IH]; cbn [filter length]; [lia|]. destruct (b =? 1)%Z; cbn [length]; lia. Qed.

(** What explains the share of ones is the unique maximum of the likelihood, for every noise but one half. *)
Lemma clip_maximum f l p p' : 0 <= f <= 1 -> f <> / 2 -> l <> [] -> p = Rmax 0 (Rmin 1 ((INR (ones l) / INR (length l) - f) / (1 - 2 * f))) -> 0 <= p' <= 1 -> p' <> p ->
  0 <= p <= 1 /\ likelihood f p' l < likelihood f p l.
Proof.
  intros Hf Hh Hl Ep Hp' Hne. pose proof (ones_length l) as Lo. assert (Ln : (0 < length l)%nat) by (destruct l; [contradiction|cbn; lia]).
  assert (Pn : 0 < INR (length l)) by (apply lt_0_INR; exact Ln). set (v := INR (ones l) / INR (length l)) in *. assert (Ev : INR (ones l) = v * INR (length l)) by (unfold v; field; lra).
  assert (Em : INR (length l - ones l) = (1 - v) * INR (length l)) by (rewrite minus_INR by exact Lo; rewrite Ev; ring).
  assert (Hp : 0 <= p <= 1) by (rewrite Ep; unfold Rmax, Rmin; repeat destruct (Rle_dec _ _); lra). split; [exact Hp|]. rewrite !likelihood_power. set (x := (v - f) / (1 - 2 * f)) in *. assert (Ex : v = arrives x f) by (unfold arrives, x; field; lra).
  set (q := arrives p f). set (q' := arrives p' f). assert (Dq : q - q' = (p - p') * (1 - 2 * f)) by (unfold q, q', arrives; ring). assert (Dv : v - q = (x - p) * (1 - 2 * f)) by (rewrite Ex; unfold q, arrives; ring).
  assert (Bq : 0 <= q <= 1) by (unfold q, arrives; nra). assert (Bq' : 0 <= q' <= 1) by (unfold q', arrives; nra).
  assert (Side : (p' < p /\ p <= x) \/ (p < p' /\ x <= p)).
  { rewrite Ep in *. unfold Rmax, Rmin in *. repeat destruct (Rle_dec _ _); lra. }
  assert (Up : q' < q -> q <= v -> power2 (ones l) (length l - ones l) q' < power2 (ones l) (length l - ones l) q).
  { intros A B. apply power2_rises; try lra; [lia|]. rewrite Ev, Em. nra. }
  assert (Down : q < q' -> v <= q -> power2 (ones l) (length l - ones l) q' < power2 (ones l) (length l - ones l) q).
  { intros A B. apply power2_falls; try lra; [lia|]. rewrite Ev, Em. nra. }
  destruct (Rtotal_order f (/ 2)) as [Lt|[?|Gt]]; [|contradiction|]; destruct Side as [[S1 S2]|[S1 S2]].
  - apply Up; nra.
  - apply Down; nra.
  - apply Down; nra.
  - apply Up; nra.
Qed.

(** ** What the code computes *)
Lemma clip_R x : fclip Rops x 0 1 = Rmax 0 (Rmin 1 x).
Proof. unfold fclip, fmin, fmax. cbn [fle Rops]. unfold Rleb, Rmax, Rmin. repeat (destruct (Rle_dec _ _); cbn); lra. Qed.
Lemma p1_hat_R f v : p1_hat Rops f v = Rmax 0 (Rmin 1 ((v - f) / (1 - 2 * f))).
Proof. apply (clip_R ((v - f) / (1 - 2 * f))). Qed.
Lemma bits_sum l : Forall is_bit l -> fold_right Z.add 0%Z l = Z.of_nat (ones l).
Proof.
  unfold ones. induction 1 as [|b l [-> | ->] Hl IH]; cbn [fold_right filter]; [reflexivity| |]; cbn [Z.eqb]; [rewrite IH; reflexivity|]. change (Pos.eqb 1 1) with true. cbn [length]. rewrite IH. lia.
Qed.
Lemma v_hat_R l : Forall is_bit l -> v_hat Rops l = INR (ones l) / INR (length l).
Proof. intros H. unfold v_hat. cbn [fdiv fz Rops]. rewrite (bits_sum l H). rewrite <- !INR_IZR_INZ. reflexivity. Qed.
Lemma explains_clip f m p : 0 <= f < / 2 -> explains f m p -> p = Rmax 0 (Rmin 1 ((m - f) / (1 - 2 * f))).
Proof.
  intros Hf H. assert (D : 0 < 1 - 2 * f) by lra. assert (E : (m - f) / (1 - 2 * f) * (1 - 2 * f) = m - f) by (field; lra). set (x := (m - f) / (1 - 2 * f)) in *.
  destruct H as [[H ->]|[[H ->]|(H & Hp & Em)]].
  - assert (x <= 0) by nra. unfold Rmax, Rmin. repeat destruct (Rle_dec _ _); lra.
  - assert (1 <= x) by nra. unfold Rmax, Rmin. repeat destruct (Rle_dec _ _); lra.
  - assert (x = p) by nra. unfold Rmax, Rmin. repeat destruct (Rle_dec _ _); lra.
Qed.
Lemma votes_ones g i n : Forall (bits_of_length n) g -> (i < n)%nat -> votes g 1 i = ones (map (fun b => nth i b 0%Z) g).
Proof.
  intros Hg Hi. unfold votes, ones. induction Hg as [|b g [Lb _] Hg IH]; [reflexivity|]. cbn [filter map]. rewrite (nth_indep b (-1)%Z 0%Z) by lia. destruct (nth i b 0 =? 1)%Z; cbn [length]; rewrite IH; reflexivity.
Qed.

(** ** Means *)
Lemma mean_ext n q g h : (forall l, length l = n -> Forall is_bit l -> g l = h l) -> mean_of n q g = mean_of n q h.
Proof.
  revert g h. induction n as [|n IH]; intros g h E; cbn [mean_of]; [apply E; constructor|]. 
  rewrite (IH (fun l => g (1%Z :: l)) (fun l => h (1%Z :: l))), (IH (fun l => g (0%Z :: l)) (fun l => h (0%Z :: l))); [reflexivity| |].
  - intros l L B. apply E; [cbn [length]; congruence|constructor; [left; reflexivity|exact B]].
  - intros l L B. apply E; [cbn [length]; congruence|constructor; [right; reflexivity|exact B]].
Qed.
Lemma mean_mono n q g h : 0 <= q <= 1 -> (forall l, length l = n -> Forall is_bit l -> g l <= h l) -> mean_of n q g <= mean_of n q h.
Proof.
  intros Hq. revert g h. induction n as [|n IH]; intros g h E; cbn [mean_of]; [apply E; constructor|].
  assert (A : mean_of n q (fun l => g (1%Z :: l)) <= mean_of n q (fun l => h (1%Z :: l))) by (apply IH; intros l L B; apply E; [cbn; lia|constructor; [right; reflexivity|exact B]]).
  assert (B : mean_of n q (fun l => g (0%Z :: l)) <= mean_of n q (fun l => h (0%Z :: l))) by (apply IH; intros l L B; apply E; [cbn; lia|constructor; [left; reflexivity|exact B]]). nra.
Qed.
Lemma mean_square_poly n q a b c : mean_of n q (fun l => a * (INR (ones l) * INR (ones l)) + b * INR (ones l) + c) = a * (INR n * q * (1 - q) + INR n * q * (INR n * q)) + b * (INR n * q) + c.
Proof.
  revert a b c. induction n as [|n IH]; intros a b c; [cbn; ring|]. cbn [mean_of].
  rewrite (mean_ext n q (fun l => a * (INR (ones (1%Z :: l)) * INR (ones (1%Z :: l))) + b * INR (ones (1%Z :: l)) + c) (fun l => a * (INR (ones l) * INR (ones l)) + (2 * a + b) * INR (ones l) + (a + b + c))).
  2: { intros l _ _. change (ones (1%Z :: l)) with (S (ones l)). rewrite S_INR. ring. }
  change (fun l => a * (INR (ones (0%Z :: l)) * INR (ones (0%Z :: l))) + b * INR (ones (0%Z :: l)) + c) with (fun l => a * (INR (ones l) * INR (ones l)) + b * INR (ones l) + c).
  rewrite !IH. rewrite S_INR. ring.
Qed.
Lemma noisy_cons a b x w : noisy (a :: x) (b :: w) = ((a + b) mod 2)%Z :: noisy x w.
Proof. reflexivity. Qed.
Lemma mean_linear n q g h u v : mean_of n q (fun l => u * g l + v * h l) = u * mean_of n q g + v * mean_of n q h.
Proof. revert g h. induction n as [|n IH]; intros g h; cbn [mean_of]; [reflexivity|]. rewrite (IH (fun l => g (1%Z :: l)) (fun l => h (1%Z :: l))), (IH (fun l => g (0%Z :: l)) (fun l => h (0%Z :: l))). ring. Qed.
(** Sending through the channel. *)
Lemma mean_channel n p f g : mean_of n p (fun x => mean_of n f (fun w => g (noisy x w))) = mean_of n (arrives p f) g.
Proof.
  revert g. induction n as [|n IH]; intros g; cbn [mean_of]; [reflexivity|].
  rewrite (mean_ext n p (fun l => f * mean_of n f (fun w => g (noisy (1%Z :: l) (1%Z :: w))) + (1 - f) * mean_of n f (fun w => g (noisy (1%Z :: l) (0%Z :: w))))
    (fun l => f * mean_of n f (fun w => g (0%Z :: noisy l w)) + (1 - f) * mean_of n f (fun w => g (1%Z :: noisy l w)))) by reflexivity.
  rewrite (mean_ext n p (fun l => f * mean_of n f (fun w => g (noisy (0%Z :: l) (1%Z :: w))) + (1 - f) * mean_of n f (fun w => g (noisy (0%Z :: l) (0%Z :: w))))
    (fun l => f * mean_of n f (fun w => g (1%Z :: noisy l w)) + (1 - f) * mean_of n f (fun w => g (0%Z :: noisy l w)))) by reflexivity.
  rewrite !mean_linear. rewrite (IH (fun l => g (0%Z :: l))), (IH (fun l => g (1%Z :: l))). unfold arrives. ring.
Qed.

(** ** The table *)
Lemma largest_R l : l <> [] -> exists m, largest Rops l = Ok m /\ is_largest m l.
Proof.
  destruct l as [|x l]; [contradiction|]. intros _. cbn [largest]. eexists. split; [reflexivity|]. revert x. induction l as [|y l IH]; intros x; cbn [fold_left]; [split; [left; reflexivity|intros z [<- |[]]; apply Rle_refl]|].
  cbn [flt Rops]. unfold Rltb. destruct (Rlt_dec x y) as [L|L].
  - destruct (IH y) as [I M]. split; [right; exact I|]. intros z [<- |Hz]; [|apply M; exact Hz]. apply Rle_trans with y; [left; exact L|apply M; left; reflexivity].
  - destruct (IH x) as [I M]. split; [destruct I as [I|I]; [left; exact I|right; right; exact I]|]. intros z [<- |[<- |Hz]]; [apply M; left; reflexivity| |apply M; right; exact Hz]. apply Rle_trans with x; [apply Rnot_lt_le; exact L|apply M; left; reflexivity].
Qed.
Lemma fsum_R l : fsum Rops l = Rsum l.
Proof.
  unfold fsum. cbn [fadd fz Rops]. assert (G : forall l a, fold_left Rplus l a = a + Rsum l) by (clear; induction l as [|x l IH]; intros a; cbn [fold_left Rsum fold_right]; [lra|rewrite IH; unfold Rsum; ring]).
  change (fold_left Rplus l 0 = Rsum l). rewrite G. ring.
Qed.
Lemma mean_squares (g : R -> R) (v : list R) : mean_square Rops (map (fun x => Rabs (g x)) v) = Rsum (map (fun x => g x * g x) v) / INR (length v).
Proof.
  unfold mean_square, fmean. rewrite fsum_R. cbn [fdiv fz fmul Rops]. rewrite !map_map, map_length, <- INR_IZR_INZ. f_equal. f_equal. apply map_ext. intros x. rewrite <- Rabs_mult. apply Rabs_right. nra.
Qed.
