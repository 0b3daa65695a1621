(** Lemmas about the entropy of a bit and the capacity of the channel. *)
From Coq Require Import List ZArith Reals Bool Lia Lra Arith Ranalysis5.
From Verif.Model Require Import Py Float InfoTheory Capacity.
From Verif.Spec Require Import RealOps Info DecoderSpec CapacitySpec.
From Verif.Proofs Require Import RealP InfoP EntropyP.
Import ListNotations.
Local Open Scope R_scope.

(** Entropy of a bit in nats. *)
Definition hb (p : R) : R := surprise (1 - p) + surprise p.
Lemma ln2_pos : 0 < ln 2.
Proof. exact (ln_base_pos 2 ltac:(lia)). Qed.
Lemma bit_hb p : bit_entropy p = hb p / ln 2.
Proof. unfold bit_entropy. rewrite shannon_surprise. cbn [map Rsum fold_right]. unfold hb. f_equal. ring. Qed.
Lemma hb_sym p : hb (1 - p) = hb p.
Proof. unfold hb. replace (1 - (1 - p)) with p by ring. ring. Qed.
Lemma surprise_pos x : 0 < x -> surprise x = - x * ln x.
Proof. intros H. unfold surprise. destruct (Rlt_dec 0 x); [reflexivity|lra]. Qed.
Lemma surprise_0 : surprise 0 = 0.
Proof. unfold surprise. destruct (Rlt_dec 0 0); [lra|reflexivity]. Qed.
Lemma surprise_mult x y : 0 <= x -> 0 <= y -> surprise (x * y) = x * surprise y + y * surprise x.
Proof.
  intros [Hx|<-] [Hy|<-]; try (rewrite ?Rmult_0_l, ?Rmult_0_r, surprise_0; ring).
  rewrite !surprise_pos by (try apply Rmult_lt_0_compat; assumption). rewrite ln_mult by assumption. ring.
Qed.

Lemma cross x y : 0 <= x -> 0 < y -> surprise x <= - x * ln y + (y - x) /\ (surprise x = - x * ln y + (y - x) -> x = y).
Proof.
  intros Hx Hy. pose proof (gibbs (/ y) x (Rinv_0_lt_compat _ Hy) Hx) as [G1 G2]. rewrite ln_Rinv, Rinv_inv in * by exact Hy. split; [lra|].
  intros E. apply G2. lra.
Qed.
Lemma hb_cross p q : 0 <= p <= 1 -> 0 < q < 1 -> hb p <= - p * ln q - (1 - p) * ln (1 - q) /\ (hb p = - p * ln q - (1 - p) * ln (1 - q) -> p = q).
Proof.
  intros Hp Hq. unfold hb. destruct (cross p q) as [A1 A2]; [lra|lra|]. destruct (cross (1 - p) (1 - q)) as [B1 B2]; [lra|lra|]. split; [lra|]. intros E. apply A2. lra.
Qed.
Lemma hb_inside q : 0 < q < 1 -> hb q = - q * ln q - (1 - q) * ln (1 - q).
Proof. intros H. unfold hb. rewrite !surprise_pos by lra. ring. Qed.
Lemma hb_up p q : 0 <= p < q -> q <= / 2 -> hb p < hb q.
Proof.
  intros Hp Hq. destruct (hb_cross p q) as [C1 C2]; [lra|lra|]. rewrite (hb_inside q) by lra. assert (L : ln q <= ln (1 - q)).
  { destruct (Req_dec q (1 - q)) as [E|NE]; [rewrite <- E; lra|]. apply Rlt_le, ln_increasing; lra. }
  assert (hb p <> - p * ln q - (1 - p) * ln (1 - q)) by (intro E; apply C2 in E; lra).
  assert (0 <= (q - p) * (ln (1 - q) - ln q)) by (apply Rmult_le_pos; lra). lra.
Qed.
(** The nearer to one half, the larger. *)
Lemma hb_near p q : 0 <= p <= 1 -> 0 <= q <= 1 -> (hb p < hb q <-> Rabs (q - / 2) < Rabs (p - / 2)).
Proof.
  intros Hp Hq. set (g x := if Rle_dec x (/ 2) then x else 1 - x).
  assert (G : forall x, 0 <= x <= 1 -> 0 <= g x <= / 2 /\ hb (g x) = hb x /\ Rabs (x - / 2) = / 2 - g x).
  { intros x Hx. unfold g. destruct (Rle_dec x (/ 2)) as [L|L].
    - split; [lra|]. split; [reflexivity|]. rewrite Rabs_left1; lra.
    - split; [lra|]. split; [apply hb_sym|]. rewrite Rabs_right; lra. }
  destruct (G p Hp) as (P1 & <- & ->), (G q Hq) as (Q1 & <- & ->). clearbody g. split; intros H.
  - destruct (Rlt_le_dec (g p) (g q)) as [L|L]; [lra|]. destruct (Req_dec (g p) (g q)) as [E|NE]; [rewrite E in H; lra|]. pose proof (hb_up (g q) (g p)). lra.
  - apply hb_up; lra.
Qed.
Lemma hb_nonneg p : 0 <= p <= 1 -> 0 <= hb p.
Proof. intros H. unfold hb. pose proof (surprise_nonneg p H). pose proof (surprise_nonneg (1 - p)). lra. Qed.
Lemma hb_half : hb (/ 2) = ln 2.
Proof. rewrite hb_inside by lra. replace (1 - / 2) with (/ 2) by lra. rewrite ln_Rinv by lra. lra. Qed.
Lemma hb_concave t p q : 0 <= t <= 1 -> 0 <= p <= 1 -> 0 <= q <= 1 -> t * hb p + (1 - t) * hb q <= hb (t * p + (1 - t) * q).
Proof.
  intros Ht Hp Hq. set (m := t * p + (1 - t) * q). assert (Hm : 0 <= m <= 1) by (unfold m; split; nra).
  destruct (Req_dec m 0) as [E0|N0]; [|destruct (Req_dec m 1) as [E1|N1]].
  - assert (t * p = 0 /\ (1 - t) * q = 0) as [A B] by (unfold m in E0; split; nra). rewrite E0. unfold hb at 3. replace (1 - 0) with 1 by ring. rewrite surprise_0, surprise_pos, ln_1 by lra.
    assert (Z : hb 0 = 0) by (unfold hb; rewrite surprise_0, Rminus_0_r, surprise_pos, ln_1 by lra; ring).
    apply Rmult_integral in A. apply Rmult_integral in B. destruct A as [->| ->], B as [B| ->]; try (assert (t = 1) by lra; subst t); rewrite ?Z; lra.
  - assert (t * (1 - p) = 0 /\ (1 - t) * (1 - q) = 0) as [A B] by (unfold m in E1; split; nra). rewrite E1.
    assert (Z : hb 1 = 0) by (unfold hb; replace (1 - 1) with 0 by ring; rewrite surprise_0, surprise_pos, ln_1 by lra; ring).
    rewrite Z. apply Rmult_integral in A. apply Rmult_integral in B. assert (A' : t = 0 \/ p = 1) by lra. assert (B' : t = 1 \/ q = 1) by lra. clear A B. destruct A' as [->| ->], B' as [B| ->]; try lra; try (subst t); rewrite ?Z; lra.
  - destruct (hb_cross p m) as [A _]; [lra|lra|]. destruct (hb_cross q m) as [B _]; [lra|lra|]. rewrite (hb_inside m) by lra.
    assert (t * hb p <= t * (- p * ln m - (1 - p) * ln (1 - m))) by (apply Rmult_le_compat_l; lra).
    assert ((1 - t) * hb q <= (1 - t) * (- q * ln m - (1 - q) * ln (1 - m))) by (apply Rmult_le_compat_l; lra).
    assert (E : - m * ln m - (1 - m) * ln (1 - m) = t * (- p * ln m - (1 - p) * ln (1 - m)) + (1 - t) * (- q * ln m - (1 - q) * ln (1 - m))) by (unfold m; ring). lra.
Qed.

(** The code over the reals. *)
Lemma capacity_R p : 0 < p < 1 -> @eq R (capacity Rops p) (1 - bit_entropy p).
Proof. intros H. rewrite bit_hb, hb_inside by exact H. unfold capacity. cbn. field. pose proof ln2_pos. lra. Qed.
Lemma ent_real_R p : 0 < p < 1 -> @eq R (ent_real Rops p) (bit_entropy p).
Proof. intros H. rewrite bit_hb, hb_inside by exact H. unfold ent_real. cbn. field. pose proof ln2_pos. lra. Qed.
Lemma bit_lt p q : bit_entropy p < bit_entropy q <-> hb p < hb q.
Proof.
  rewrite !bit_hb. pose proof ln2_pos as L. assert (I : 0 < / ln 2) by (apply Rinv_0_lt_compat; exact L). unfold Rdiv. split; intros H; [|apply Rmult_lt_compat_r; assumption]. eapply Rmult_lt_reg_r; [exact I|exact H].
Qed.
Lemma bit_near p q : 0 <= p <= 1 -> 0 <= q <= 1 -> (bit_entropy p < bit_entropy q <-> Rabs (q - / 2) < Rabs (p - / 2)).
Proof. intros Hp Hq. rewrite bit_lt. apply hb_near; assumption. Qed.
Lemma bit_near_eq p q : 0 <= p <= 1 -> 0 <= q <= 1 -> (bit_entropy p <= bit_entropy q <-> Rabs (q - / 2) <= Rabs (p - / 2)).
Proof. intros Hp Hq. pose proof (bit_near q p Hq Hp). lra. Qed.
Lemma bit_half : bit_entropy (/ 2) = 1.
Proof. rewrite bit_hb, hb_half. field. pose proof ln2_pos. lra. Qed.
Lemma bit_sym p : bit_entropy (1 - p) = bit_entropy p.
Proof. rewrite !bit_hb, hb_sym. reflexivity. Qed.
Lemma bit_nonneg p : 0 <= p <= 1 -> 0 <= bit_entropy p.
Proof. intros H. rewrite bit_hb. apply Rmult_le_pos; [apply hb_nonneg; exact H|]. apply Rlt_le, Rinv_0_lt_compat, ln2_pos. Qed.

(** Information over the channel. *)
Lemma information_R f q : 0 <= f <= 1 -> 0 <= q <= 1 -> information f q = bit_entropy (behind f q) - bit_entropy f.
Proof.
  intros Hf Hq. unfold information. fold (bit_entropy q). fold (bit_entropy (behind f q)). enough (E : shannon 2 (joint f q) = bit_entropy q + bit_entropy f) by (rewrite E; ring).
  rewrite !bit_hb, shannon_surprise. unfold joint, hb. cbn [map Rsum fold_right]. rewrite !surprise_mult by lra. field. pose proof ln2_pos. lra.
Qed.
Lemma behind_unit f q : 0 <= f <= 1 -> 0 <= q <= 1 -> 0 <= behind f q <= 1.
Proof. intros Hf Hq. unfold behind. split; nra. Qed.
Lemma behind_half f q : behind f q - / 2 = (1 - 2 * f) * (q - / 2).
Proof. unfold behind. field. Qed.

(** Numbers. *)
Lemma ln_pow_bound x (n k : nat) : 0 < x -> 2 ^ k <= x ^ n -> INR k * ln 2 <= INR n * ln x.
Proof.
  intros Hx H. rewrite <- !ln_pow by lra. assert (P : 0 < 2 ^ k) by (apply pow_lt; lra). destruct H as [H|H]; [apply Rlt_le, ln_increasing; assumption|rewrite H; lra].
Qed.
Lemma ln_pow_bound_up x (n k : nat) : 0 < x -> x ^ n <= 2 ^ k -> INR n * ln x <= INR k * ln 2.
Proof.
  intros Hx H. rewrite <- !ln_pow by lra. assert (P : 0 < x ^ n) by (apply pow_lt; lra). destruct H as [H|H]; [apply Rlt_le, ln_increasing; assumption|rewrite H; lra].
Qed.
Ltac num H := cbn [pow INR] in H; lra.
Lemma ln_inv_le x y : 0 < x -> x * y = 1 -> ln x = - ln y.
Proof. intros Hx E. assert (Ey : y = / x) by (apply (Rmult_eq_reg_l x); [rewrite E; field; lra|lra]). rewrite Ey, ln_Rinv by exact Hx. ring. Qed.
Lemma bit_from p a : 0 < p < 1 -> - p * ln p - (1 - p) * ln (1 - p) = a * ln 2 -> bit_entropy p = a.
Proof. intros H E. rewrite bit_hb, hb_inside, E by exact H. field. pose proof ln2_pos. lra. Qed.
Lemma bit_tenth : 465 / 1000 <= bit_entropy (1 / 10).
Proof.
  pose proof ln2_pos as L. rewrite bit_hb, hb_inside by lra. rewrite (ln_inv_le (1 / 10) 10), (ln_inv_le (1 - 1 / 10) (10 / 9)) by lra.
  assert (A : INR 33 * ln 2 <= INR 10 * ln 10) by (apply ln_pow_bound; [lra|]; cbn [pow]; lra).
  assert (B : INR 3 * ln 2 <= INR 20 * ln (10 / 9)) by (apply ln_pow_bound; [lra|]; cbn [pow]; lra).
  cbn [INR] in A, B. apply (Rmult_le_reg_r (ln 2)); [exact L|]. unfold Rdiv at 2. rewrite Rmult_assoc, Rinv_l, Rmult_1_r by lra. lra.
Qed.
Lemma bit_twentieth : 28 / 100 <= bit_entropy (1 / 20).
Proof.
  pose proof ln2_pos as L. rewrite bit_hb, hb_inside by lra. rewrite (ln_inv_le (1 / 20) 20), (ln_inv_le (1 - 1 / 20) (20 / 19)) by lra.
  assert (A : INR 43 * ln 2 <= INR 10 * ln 20) by (apply ln_pow_bound; [lra|]; cbn [pow]; lra).
  assert (B : INR 1 * ln 2 <= INR 14 * ln (20 / 19)) by (apply ln_pow_bound; [lra|]; cbn [pow]; lra).
  cbn [INR] in A, B. apply (Rmult_le_reg_r (ln 2)); [exact L|]. unfold Rdiv at 2. rewrite Rmult_assoc, Rinv_l, Rmult_1_r by lra. lra.
Qed.
Lemma bit_three : bit_entropy (3 / 100) <= 2 / 10.
Proof.
  pose proof ln2_pos as L. rewrite bit_hb, hb_inside by lra. rewrite (ln_inv_le (3 / 100) (100 / 3)), (ln_inv_le (1 - 3 / 100) (100 / 97)) by lra.
  assert (A : INR 10 * ln (100 / 3) <= INR 51 * ln 2) by (apply ln_pow_bound_up; [lra|]; cbn [pow]; lra).
  assert (B : INR 22 * ln (100 / 97) <= INR 1 * ln 2) by (apply ln_pow_bound_up; [lra|]; cbn [pow]; lra).
  cbn [INR] in A, B. apply (Rmult_le_reg_r (ln 2)); [exact L|]. unfold Rdiv at 1. rewrite Rmult_assoc, Rinv_l, Rmult_1_r by lra. lra.
Qed.

(** Continuity and crossings. *)
Lemma ln_cont x : 0 < x -> continuity_pt ln x.
Proof. intros H. apply derivable_continuous_pt. exists (/ x). apply derivable_pt_lim_ln. exact H. Qed.
Lemma id_cont x : continuity_pt (fun y => y) x.
Proof. apply derivable_continuous_pt, derivable_pt_id. Qed.
Lemma const_cont c x : continuity_pt (fun _ : R => c) x.
Proof. apply continuity_pt_const. intros a b. reflexivity. Qed.
Lemma capacity_cont p : 0 < p < 1 -> continuity_pt (capacity Rops) p.
Proof.
  intros H. change (continuity_pt (fun p => 1 + (p * (ln p / ln 2) + (1 - p) * (ln (1 - p) / ln 2))) p).
  assert (L : forall g x, continuity_pt g x -> 0 < g x -> continuity_pt (fun y => ln (g y) / ln 2) x).
  { intros g x C P. apply (continuity_pt_mult (fun y => ln (g y)) (fun _ => / ln 2)); [|apply const_cont]. apply (continuity_pt_comp g ln); [exact C|apply ln_cont; exact P]. }
  assert (M : continuity_pt (fun y => 1 - y) p) by (apply (continuity_pt_minus (fun _ => 1) (fun y => y)); [apply const_cont|apply id_cont]).
  apply (continuity_pt_plus (fun _ => 1) (fun p => p * (ln p / ln 2) + (1 - p) * (ln (1 - p) / ln 2))); [apply const_cont|].
  apply (continuity_pt_plus (fun p => p * (ln p / ln 2)) (fun p => (1 - p) * (ln (1 - p) / ln 2))).
  - apply (continuity_pt_mult (fun p => p) (fun p => ln p / ln 2)); [apply id_cont|]. apply (L (fun y => y)); [apply id_cont|lra].
  - apply (continuity_pt_mult (fun p => 1 - p) (fun p => ln (1 - p) / ln 2)); [exact M|]. apply (L (fun y => 1 - y)); [exact M|lra].
Qed.
Lemma nr_cont r p : 0 < p < 1 -> continuity_pt (nr_capacity Rops r) p.
Proof.
  intros H. change (continuity_pt (fun p => (1 - r) * capacity Rops p + r * capacity Rops (p / 2)) p).
  apply (continuity_pt_plus (fun p => (1 - r) * capacity Rops p) (fun p => r * capacity Rops (p / 2))).
  - apply (continuity_pt_mult (fun _ => 1 - r) (capacity Rops)); [apply const_cont|apply capacity_cont; exact H].
  - apply (continuity_pt_mult (fun _ => r) (fun p => capacity Rops (p / 2))); [apply const_cont|].
    apply (continuity_pt_comp (fun p => p / 2) (capacity Rops)).
    + apply (continuity_pt_mult (fun p => p) (fun _ => / 2)); [apply id_cont|apply const_cont].
    + apply capacity_cont. lra.
Qed.
Lemma crossing (g : R -> R) v a b : 0 < a < b -> b <= / 2 -> (forall x, a <= x <= b -> continuity_pt g x) ->
  (forall p q, 0 < p < q -> q <= / 2 -> g q < g p) -> v < g a -> g b < v ->
  exists z, a < z < b /\ g z = v /\ forall p, 0 < p <= / 2 -> (v <= g p <-> p <= z).
Proof.
  intros Hab Hb Hc Hd Ha Hv. destruct (IVT_interv (fun x => v - g x) a b) as (z & Hz & Ez).
  - intros x Hx. apply (continuity_pt_minus (fun _ => v) g); [apply const_cont|apply Hc; exact Hx].
  - lra.
  - lra.
  - lra.
  - exists z. assert (z <> a) by (intro; subst; lra). assert (z <> b) by (intro; subst; lra). split; [lra|]. split; [lra|]. intros p Hp. split; intros H1.
    + destruct (Rle_lt_dec p z) as [L|L]; [exact L|]. pose proof (Hd z p). lra.
    + destruct (Req_dec p z) as [->|NE]; [lra|]. pose proof (Hd p z). lra.
Qed.
Lemma capacity_down p q : 0 < p < q -> q <= / 2 -> capacity Rops q < capacity Rops p.
Proof. intros H Hq. rewrite !capacity_R by lra. assert (bit_entropy p < bit_entropy q) by (apply bit_lt, hb_up; lra). lra. Qed.
Lemma nr_R r p : @eq R (nr_capacity Rops r p) ((1 - r) * capacity Rops p + r * capacity Rops (p / 2)).
Proof. reflexivity. Qed.
Lemma convex_lt r a b c d : 0 <= r <= 1 -> a < b -> c < d -> (1 - r) * a + r * c < (1 - r) * b + r * d.
Proof.
  intros Hr Hab Hcd. assert (A : 0 <= (1 - r) * (b - a)) by (apply Rmult_le_pos; lra). assert (B : 0 <= r * (d - c)) by (apply Rmult_le_pos; lra).
  destruct (Rle_lt_dec r (/ 2)) as [L|L]; [assert (0 < (1 - r) * (b - a)) by (apply Rmult_lt_0_compat; lra)|assert (0 < r * (d - c)) by (apply Rmult_lt_0_compat; lra)]; lra.
Qed.
Lemma nr_down r p q : 0 <= r <= 1 -> 0 < p < q -> q <= / 2 -> nr_capacity Rops r q < nr_capacity Rops r p.
Proof. intros Hr H Hq. rewrite !nr_R. apply convex_lt; [exact Hr|apply capacity_down; lra|apply capacity_down; lra]. Qed.
