(** C92: the capacity curves of the binary symmetric channel and the entropy of flipped bits. *)
From Coq Require Import List ZArith Reals Bool Lia Lra Arith.
From Verif.Model Require Import Py Float Capacity.
From Verif.Spec Require Import RealOps Info DecoderSpec CapacitySpec.
From Verif.Proofs Require Import RealP CapacityP.
Import ListNotations.
Local Open Scope R_scope.

(** The formula is the capacity: no way to send tells more about the bit sent, and (but for p = 1/2) only the even one tells as much. *)
Theorem c92_capacity : forall p, 0 < p < 1 ->
  is_capacity p (capacity Rops p) /\ forall q, 0 <= q <= 1 -> (information p q = capacity Rops p <-> q = / 2 \/ p = / 2).
Proof.
  intros p Hp. rewrite capacity_R by exact Hp. assert (M : forall q, 0 <= q <= 1 -> bit_entropy (behind p q) <= 1 /\ (bit_entropy (behind p q) = 1 <-> q = / 2 \/ p = / 2)).
  { intros q Hq. assert (B : 0 <= behind p q <= 1) by (apply behind_unit; lra). assert (HH : 0 <= / 2 <= 1) by lra. pose proof (bit_near (behind p q) (/ 2) B HH) as Q. pose proof (bit_near_eq (behind p q) (/ 2) B HH) as Q'. rewrite bit_half in Q, Q'.
    pose proof (behind_half p q) as E. replace (/ 2 - / 2) with 0 in Q, Q' by ring. rewrite Rabs_R0 in Q, Q'. pose proof (Rabs_pos (behind p q - / 2)) as P. split; [tauto|]. split; intros H.
    - assert (Z : Rabs (behind p q - / 2) = 0) by (destruct (Req_dec (Rabs (behind p q - / 2)) 0) as [Z|NZ]; [exact Z|assert (bit_entropy (behind p q) < 1) by (apply Q; lra); lra]).
      assert (Z' : behind p q - / 2 = 0) by (destruct (Req_dec (behind p q - / 2) 0) as [K|NK]; [exact K|pose proof (Rabs_pos_lt _ NK); lra]). clear Z. rename Z' into Z. rewrite E in Z. apply Rmult_integral in Z. lra.
    - assert (Z : behind p q = / 2) by (destruct H as [-> | -> ]; lra). rewrite Z. apply bit_half. }
  split; [split|].
  - intros q Hq. rewrite information_R by lra. destruct (M q Hq). lra.
  - exists (/ 2). split; [lra|]. rewrite information_R by lra. destruct (M (/ 2)) as [_ K]; [lra|]. assert (bit_entropy (behind p (/ 2)) = 1) by (apply K; auto). lra.
  - intros q Hq. rewrite information_R by lra. destruct (M q Hq) as [_ <-]. lra.
Qed.
Print Assumptions c92_capacity.
Example c92_ex_capacity : is_capacity (1 / 10) (capacity Rops (1 / 10)).
Proof. apply c92_capacity. lra. Qed.

(** Its shape: from 0 at one half up towards 1, the same for p and 1 - p, and the smaller the nearer p is to one half. *)
Theorem c92_shape : forall p, 0 < p < 1 ->
  0 <= capacity Rops p < 1 /\ (capacity Rops p = 0 <-> p = / 2) /\ capacity Rops (1 - p) = capacity Rops p /\
  forall q, 0 < q < 1 -> (capacity Rops q < capacity Rops p <-> Rabs (q - / 2) < Rabs (p - / 2)).
Proof.
  intros p Hp. rewrite !capacity_R by lra. assert (HH : 0 <= / 2 <= 1) by lra. pose proof (bit_near p (/ 2) ltac:(lra) HH) as Q. pose proof (bit_near_eq p (/ 2) ltac:(lra) HH) as Q'. rewrite bit_half in Q, Q'.
  replace (/ 2 - / 2) with 0 in Q, Q' by ring. rewrite Rabs_R0 in Q, Q'. pose proof (Rabs_pos (p - / 2)) as P. pose proof (bit_near 0 p ltac:(lra) ltac:(lra)) as Z.
  assert (L : bit_entropy 0 < bit_entropy p) by (apply Z; rewrite (Rabs_left (0 - / 2)) by lra; unfold Rabs; destruct (Rcase_abs (p - / 2)); lra).
  pose proof (bit_nonneg 0 ltac:(lra)). split; [split; [assert (bit_entropy p <= 1) by tauto; lra|lra]|]. split; [|split; [rewrite bit_sym; reflexivity|]].
  - split; intros H1; [|subst; rewrite bit_half; lra]. destruct (Req_dec p (/ 2)) as [E|NE]; [exact E|]. assert (0 < Rabs (p - / 2)) by (apply Rabs_pos_lt; lra). assert (bit_entropy p < 1) by tauto. lra.
  - intros q Hq. rewrite capacity_R by lra. rewrite <- (bit_near p q) by lra. lra.
Qed.
Print Assumptions c92_shape.

(** The modified capacity lies above the plain one exactly for p < 2/3 (below it beyond), never above that of half the flips, grows with the share
    of helped bits and falls with p. *)
Theorem c92_modified : forall r p, 0 <= r <= 1 -> 0 < p < 1 ->
  (capacity Rops p < nr_capacity Rops r p <-> 0 < r /\ p < 2 / 3) /\
  (nr_capacity Rops r p < capacity Rops p <-> 0 < r /\ 2 / 3 < p) /\
  (p <= / 2 -> nr_capacity Rops r p <= capacity Rops (p / 2)) /\
  (forall r', r < r' <= 1 -> p < 2 / 3 -> nr_capacity Rops r p < nr_capacity Rops r' p) /\
  (forall q, p < q <= / 2 -> nr_capacity Rops r q < nr_capacity Rops r p).
Proof.
  intros r p Hr Hp. destruct (c92_shape (p / 2) ltac:(lra)) as (_ & _ & _ & S1). specialize (S1 p Hp). destruct (c92_shape p Hp) as (_ & _ & _ & S2). specialize (S2 (p / 2) ltac:(lra)).
  rewrite (Rabs_left (p / 2 - / 2)) in S1, S2 by lra. assert (A : Rabs (p - / 2) < - (p / 2 - / 2) <-> p < 2 / 3) by (unfold Rabs; destruct (Rcase_abs (p - / 2)); lra).
  assert (B : - (p / 2 - / 2) < Rabs (p - / 2) <-> 2 / 3 < p) by (unfold Rabs; destruct (Rcase_abs (p - / 2)); lra).
  rewrite A in S1. rewrite B in S2. rewrite nr_R. set (c := capacity Rops p) in *. set (c' := capacity Rops (p / 2)) in *. assert (E : (1 - r) * c + r * c' = c + r * (c' - c)) by ring. rewrite E.
  split; [|split; [|split; [|split]]].
  - split; intros H.
    + assert (0 < r * (c' - c)) by lra. assert (0 < r) by (destruct (Req_dec r 0) as [->|]; [lra|lra]). split; [assumption|]. apply S1. destruct (Rlt_le_dec c c') as [L|L]; [exact L|]. assert (r * (c' - c) <= 0) by nra. lra.
    + destruct H as [H1 H2]. apply S1 in H2. assert (0 < r * (c' - c)) by (apply Rmult_lt_0_compat; lra). lra.
  - split; intros H.
    + assert (r * (c' - c) < 0) by lra. assert (0 < r) by (destruct (Req_dec r 0) as [->|]; [lra|lra]). split; [assumption|]. apply S2. destruct (Rlt_le_dec c' c) as [L|L]; [exact L|]. assert (0 <= r * (c' - c)) by nra. lra.
    + destruct H as [H1 H2]. apply S2 in H2. assert (0 < r * (c - c')) by (apply Rmult_lt_0_compat; lra). lra.
  - intros H. assert (c < c') by (apply S1; lra). nra.
  - intros r' Hr' H. apply S1 in H. rewrite nr_R. fold c c'. nra.
  - intros q Hq. rewrite <- E. unfold c, c'. rewrite <- nr_R. apply nr_down; lra.
Qed.
Print Assumptions c92_modified.
Example c92_ex_modified : capacity Rops (6 / 100) < nr_capacity Rops (24 / 100) (6 / 100) /\ nr_capacity Rops (24 / 100) (9 / 10) < capacity Rops (9 / 10).
Proof. split; apply c92_modified; lra. Qed.

(** For every share r > 0 of helped bits there is one largest flip probability for which the rate 2/3 is within the modified capacity; it lies
    beyond that of the plain one, but at most at twice that. *)
Theorem c92_limit : exists p0, 3 / 100 < p0 < 1 / 10 /\ (forall p, 0 < p <= / 2 -> (2 / 3 <= capacity Rops p <-> p <= p0)) /\
  forall r, 0 < r <= 1 -> exists p1, p0 < p1 <= 2 * p0 /\ (p1 = 2 * p0 <-> r = 1) /\ (forall p, 0 < p <= / 2 -> (2 / 3 <= nr_capacity Rops r p <-> p <= p1)) /\
    (r <= 24 / 100 -> p1 < 1 / 10).
Proof.
  pose proof bit_three as N3. pose proof bit_tenth as N10. pose proof bit_twentieth as N20.
  destruct (crossing (capacity Rops) (2 / 3) (3 / 100) (1 / 10)) as (p0 & H0 & E0 & C0); [lra|lra|intros; apply capacity_cont; lra|apply capacity_down|rewrite capacity_R by lra; lra|rewrite capacity_R by lra; lra|].
  exists p0. split; [exact H0|]. split; [exact C0|]. intros r Hr.
  assert (U : @eq R (capacity Rops (/ 2)) 0) by (rewrite capacity_R, bit_half by lra; ring).
  assert (Q : capacity Rops (/ 2 / 2) < 2 / 3) by (rewrite capacity_R by lra; assert (bit_entropy (1 / 10) < bit_entropy (/ 2 / 2)) by (apply bit_lt, hb_up; lra); lra).
  assert (G : 2 / 3 < nr_capacity Rops r p0).
  { rewrite nr_R, E0. assert (2 / 3 < capacity Rops (p0 / 2)) by (rewrite <- E0; apply capacity_down; lra). nra. }
  destruct (crossing (nr_capacity Rops r) (2 / 3) p0 (/ 2)) as (p1 & H1 & E1 & C1); [lra|lra|intros; apply nr_cont; lra|intros; apply nr_down; lra|exact G|rewrite nr_R, U; nra|].
  assert (D : @eq R (nr_capacity Rops r (2 * p0)) (2 / 3 - (1 - r) * (2 / 3 - capacity Rops (2 * p0)))) by (rewrite nr_R; replace (2 * p0 / 2) with p0 by field; rewrite E0; ring).
  assert (D' : capacity Rops (2 * p0) < 2 / 3) by (rewrite <- E0; apply capacity_down; lra).
  exists p1. split; [|split; [|split; [exact C1|]]].
  - split; [lra|]. destruct (Rle_lt_dec p1 (2 * p0)) as [L|L]; [exact L|]. assert (nr_capacity Rops r p1 < nr_capacity Rops r (2 * p0)) by (apply nr_down; lra). nra.
  - split; intros H.
    + rewrite <- H in D at 1. nra.
    + subst r. assert (E2 : @eq R (nr_capacity Rops 1 (2 * p0)) (2 / 3)) by lra. destruct (Rtotal_order p1 (2 * p0)) as [L|[E|L]]; [|exact E|].
      * assert (nr_capacity Rops 1 (2 * p0) < nr_capacity Rops 1 p1) by (apply nr_down; lra). lra.
      * assert (nr_capacity Rops 1 p1 < nr_capacity Rops 1 (2 * p0)) by (apply nr_down; lra). lra.
  - intros Hr'. destruct (Rlt_le_dec p1 (1 / 10)) as [L|L]; [exact L|]. assert (2 / 3 <= nr_capacity Rops r (1 / 10)) by (apply C1; lra). rewrite nr_R, !capacity_R in H by lra. replace (1 / 10 / 2) with (1 / 20) in H by field. nra.
Qed.
Print Assumptions c92_limit.

(** The figure: at all 50 points, from 0.03 to 0.1, the modified curve lies above the plain one; both fall. *)
Theorem c92_curves : forall i, (i < 50)%nat ->
  let p := 3 / 100 + INR i * (7 / 4900) in
  nth i (flips_axis Rops) 0 = p /\ nth i (capacity_curve Rops) 0 = capacity Rops p /\ nth i (nr_curve Rops) 0 = nr_capacity Rops (24 / 100) p /\
  nth i (capacity_curve Rops) 0 < nth i (nr_curve Rops) 0 /\ nth i (rate_curve Rops) 0 = 2 / 3.
Proof.
  intros i Hi p. assert (LX : length (flips_axis Rops) = 50%nat) by reflexivity. assert (Ex : nth i (flips_axis Rops) 0 = p).
  { unfold flips_axis, linspace. change (50 - 1)%nat with 49%nat. destruct (Nat.eq_dec i 49) as [->|NE].
    - rewrite app_nth2 by (rewrite map_length, seq_length; lia). rewrite map_length, seq_length, Nat.sub_diag. cbn [nth fdiv fz Rops]. unfold p. cbn [INR]. change (F Rops) with R. lra.
    - rewrite app_nth1 by (rewrite map_length, seq_length; lia). match goal with |- nth i (map ?f _) _ = _ => rewrite nth_indep with (d' := f 0%nat) by (rewrite map_length, seq_length; lia); rewrite (map_nth f) end.
      rewrite seq_nth by lia. cbn [fadd fdiv fz fmul fsub Rops Nat.add]. unfold p. rewrite <- INR_IZR_INZ. change (Z.of_nat 49) with 49%Z. change (F Rops) with R. field. }
  assert (Ec : nth i (capacity_curve Rops) 0 = capacity Rops p).
  { unfold capacity_curve. rewrite nth_indep with (d' := capacity Rops 0) by (rewrite map_length, LX; exact Hi). rewrite map_nth. f_equal. exact Ex. }
  assert (En : nth i (nr_curve Rops) 0 = nr_capacity Rops (24 / 100) p).
  { unfold nr_curve. rewrite nth_indep with (d' := nr_capacity Rops (24 / 100) 0) by (rewrite map_length, LX; exact Hi). rewrite (map_nth (nr_capacity Rops (24 / 100))). f_equal. exact Ex. }
  assert (Hp : 0 < p < / 2). { assert (0 <= INR i <= 49) by (split; [apply pos_INR|]; change 49 with (IZR 49); replace (IZR 49) with (INR 49) by (cbn [INR]; lra); apply le_INR; lia). unfold p. lra. }
  split; [exact Ex|]. split; [exact Ec|]. split; [exact En|]. split; [|unfold rate_curve; rewrite nth_indep with (d' := fdiv Rops (fz Rops 2) (fz Rops 3)) by (rewrite repeat_length; exact Hi); apply nth_repeat]. rewrite Ec, En. apply c92_modified; lra.
Qed.
Print Assumptions c92_curves.
Theorem c92_curves_fall : strictly_decreasing (capacity_curve Rops) /\ strictly_decreasing (nr_curve Rops) /\ length (capacity_curve Rops) = 50%nat /\ length (nr_curve Rops) = 50%nat.
Proof.
  assert (LC : length (capacity_curve Rops) = 50%nat) by reflexivity. assert (LN : length (nr_curve Rops) = 50%nat) by reflexivity.
  assert (K : forall i j, (i < j < 50)%nat -> 0 < 3 / 100 + INR i * (7 / 4900) < 3 / 100 + INR j * (7 / 4900) /\ 3 / 100 + INR j * (7 / 4900) <= / 2).
  { intros i j H. assert (0 <= INR i) by apply pos_INR. assert (INR i < INR j) by (apply lt_INR; lia). assert (INR j <= 49) by (replace 49 with (INR 49) by (cbn [INR]; lra); apply le_INR; lia). lra. }
  split; [|split; [|auto]]; intros i j H; (assert (H' : (i < j < 50)%nat) by (first [rewrite <- LC; exact H|rewrite <- LN; exact H])); clear H; rename H' into H; destruct (c92_curves i ltac:(lia)) as (_ & Ei & Ni & _); destruct (c92_curves j ltac:(lia)) as (_ & Ej & Nj & _); destruct (K i j H).
  - change (@nth (F Rops) j (capacity_curve Rops) 0 < @nth (F Rops) i (capacity_curve Rops) 0). rewrite Ei, Ej. apply capacity_down; assumption.
  - change (@nth (F Rops) j (nr_curve Rops) 0 < @nth (F Rops) i (nr_curve Rops) 0). rewrite Ni, Nj. apply nr_down; [lra|assumption|assumption].
Qed.
Print Assumptions c92_curves_fall.

(** Flips never lower the entropy of a bit; they raise it exactly if they happen, but not always, and the bit is not already even; more flips raise it more. *)
Theorem c92_flips : forall f q, 0 <= f <= 1 -> 0 <= q <= 1 ->
  bit_entropy q <= bit_entropy (behind f q) /\ (bit_entropy q < bit_entropy (behind f q) <-> 0 < f < 1 /\ q <> / 2) /\
  forall g, f <= g <= / 2 -> bit_entropy (behind f q) <= bit_entropy (behind g q).
Proof.
  intros f q Hf Hq. pose proof (behind_unit f q Hf Hq) as B. rewrite (bit_near_eq q (behind f q)), (bit_near q (behind f q)) by assumption. rewrite behind_half, Rabs_mult.
  pose proof (Rabs_pos (q - / 2)) as P. assert (A : Rabs (1 - 2 * f) <= 1 /\ (Rabs (1 - 2 * f) < 1 <-> 0 < f < 1)) by (unfold Rabs; destruct (Rcase_abs (1 - 2 * f)); lra). destruct A as [A1 A2].
  split; [|split].
  - rewrite <- (Rmult_1_l (Rabs (q - / 2))) at 2. apply Rmult_le_compat_r; assumption.
  - rewrite <- A2. split.
    + intros H. destruct (Req_dec q (/ 2)) as [->|NE]; [replace (/ 2 - / 2) with 0 in H by ring; rewrite Rabs_R0 in H; lra|]. split; [|exact NE]. nra.
    + intros [H NE]. assert (0 < Rabs (q - / 2)) by (apply Rabs_pos_lt; lra). nra.
  - intros g Hg. pose proof (behind_unit g q ltac:(lra) Hq). rewrite bit_near_eq by assumption. rewrite !behind_half, !Rabs_mult. apply Rmult_le_compat_r; [exact P|]. rewrite !Rabs_right by lra. lra.
Qed.
Print Assumptions c92_flips.
Example c92_ex_flips : bit_entropy (9 / 10) < bit_entropy (behind (5 / 100) (9 / 10)).
Proof. apply c92_flips; lra. Qed.

(** The script adds the flip probability to that of a 0.  The entropy it calls measured is lower than the real one whenever 2 p0 + f > 1: for every
    bit that is a 0 more often than not, though flips then raise it (defect). *)
Theorem c92_measured : forall p0 f, 0 < p0 -> 0 < f -> p0 + f < 1 ->
  ent_real Rops p0 = bit_entropy p0 /\ ent_measured Rops p0 f = bit_entropy (p0 + f) /\
  (ent_measured Rops p0 f < ent_real Rops p0 <-> 1 < 2 * p0 + f).
Proof.
  intros p0 f Hp Hf H. assert (E : @eq R (ent_measured Rops p0 f) (bit_entropy (p0 + f))) by (apply ent_real_R; lra). rewrite E, ent_real_R by lra. split; [reflexivity|]. split; [reflexivity|].
  rewrite bit_near by lra. unfold Rabs. destruct (Rcase_abs (p0 - / 2)), (Rcase_abs (p0 + f - / 2)); lra.
Qed.
Print Assumptions c92_measured.
Theorem c92_measured_refuted : exists p0 f, 0 < p0 < 1 /\ 0 < f < / 2 /\ ent_measured Rops p0 f < ent_real Rops p0 /\ ent_real Rops p0 < bit_entropy (behind f (1 - p0)).
Proof.
  exists (9 / 10), (5 / 100). split; [lra|]. split; [lra|]. split; [apply c92_measured; lra|]. rewrite ent_real_R by lra. rewrite <- bit_sym. apply c92_flips; lra.
Qed.
Print Assumptions c92_measured_refuted.
