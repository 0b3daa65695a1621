(** C102: clustering in double precision. *)
From Coq Require Import List NArith ZArith Reals Bool Lia Lra Psatz Arith Permutation.
From Flocq Require Import Core IEEE754.BinarySingleNaN.
From Verif.Model Require Import Py Float Clustering.
From Verif.Spec Require Import RealOps Info Cluster IeeeOps IeeeCluster.
From Verif.Proofs Require Import Base ClusterP ClusterH ClusterR ClusterRun IeeeP IeeeHellP IeeeEmleP IeeeSweepP IeeeClusterP IeeeClusterR IeeeClusterS IeeeClusterT.
Import ListNotations.
Local Close Scope R_scope.

(** The computed fit of a buffer to a cluster is a number in [-100, 0], close to the exact one, and 0 just if the cluster holds nothing but copies of the buffer. *)
Theorem c102_fit : forall l n g c b, accurate_log l -> counts_exactly n g c -> Forall (bits_of_length n) g -> bits_of_length n b -> 0 < n -> (Z.of_nat n <= 2 ^ 40)%Z -> (Z.of_nat (length g) <= 2 ^ 50)%Z ->
  exists x : b64, log_likelihood (Bops l) c b = Ok x /\ fin x /\ (-100 <= val x <= 0)%R /\ (Rabs (val x - fit g b) <= tolerance n)%R /\ (val x = 0%R <-> Forall (eq b) g).
Proof. intros l n g c b AL G Hg Hb Pn Bn Lg. exact (fit_64 l n g c b AL G Hg Hb Pn Bn Lg). Qed.
Print Assumptions c102_fit.

(** The cluster chosen by log likelihood fits best, up to twice that tolerance, and is the first with nothing but copies of the buffer if there is one. *)
Theorem c102_log_likelihood : forall l kl n m k md ws h b, accurate_log l -> (Z.of_nat n <= 2 ^ 40)%Z -> (2 <= m)%Z -> (1 <= k)%Z ->
  Forall (bits_of_length n) h -> bits_of_length n b -> Forall both_values (firstn (Z.to_nat (m - 1)) h) -> (m - 1 <= Z.of_nat (length h) <= 2 ^ 50)%Z ->
  let s := after (Bops l) kl (classifier_new m k CLogLikelihood md ws) h in
  exists gs u, represents n gs (k_clusters (ready (Bops l) kl s)) /\ Permutation (concat gs) h /\ Z.of_nat (length gs) = Z.min k (m - 1) /\
    best_up_to (2 * tolerance n) (fun g => fit g b) gs u /\ (Exists (copies b) gs -> first_index (copies b) gs u) /\ snd (classify (Bops l) kl s b) = Ok (Z.of_nat u) /\
    represents n (set_nth gs u (nth u gs [] ++ [b])) (k_clusters (fst (classify (Bops l) kl s b))).
Proof.
  intros l kl n m k md ws h b AL Bn Hm Hk B Hb V [L Lb] s.
  assert (Pn : 0 < n).
  { destruct h as [|x h]; [cbn in L; lia|]. destruct (Z.to_nat (m - 1)) as [|q] eqn:Eq; [lia|]. cbn [firstn] in V. inversion B; inversion V; subst. pose proof (both_length n x ltac:(assumption) ltac:(assumption)). lia. }
  destruct (next (Bops l) kl n m k CLogLikelihood md ws Hm Hk (fun _ _ _ => True)) with (h := h) (b := b) as (gs & u & R & P & Lg & Hu & E & R' & _ & st & Ec & Rs & Es); auto.
  { intros g c F _ Lc. destruct (pick_any (Bops l) kl n md ws g c F Lc) as (d & i & j & X & Y). exists d, i, j. auto. }
  destruct (closest_LL_64 l n st gs b u AL Pn Bn Ec Hb (proj1 Rs)) as [C1 C2]; auto.
  { eapply Permutation_Forall; [symmetry; exact P|exact B]. }
  { rewrite (Permutation_length P). exact Lb. }
  exists gs, u. split; [exact R|]. split; [exact P|]. split; [exact Lg|]. split; [exact C1|]. split; [exact C2|]. split; [exact E|exact R'].
Qed.
Print Assumptions c102_log_likelihood.
(** So a cluster that fits better than every other by more than that is the one chosen. *)
Theorem c102_clear_winner : forall {A} tol (score : A -> R) l u w x, best_up_to tol score l u -> nth_error l w = Some x ->
  (forall j y, j <> w -> nth_error l j = Some y -> (score y + tol < score x)%R) -> u = w.
Proof.
  intros A tol score l u w x (y & Ey & H) Ex D. destruct (Nat.eq_dec u w) as [|N]; [assumption|]. exfalso. specialize (H w x Ex). specialize (D u y N Ey). lra.
Qed.
Print Assumptions c102_clear_winner.

(** By Hamming distance nothing is changed by rounding. *)
Theorem c102_hamming : forall l kl n m k md ws h b, (2 <= m)%Z -> (1 <= k)%Z ->
  Forall (bits_of_length n) h -> bits_of_length n b -> Forall both_values (firstn (Z.to_nat (m - 1)) h) -> (m - 1 <= Z.of_nat (length h) <= 2 ^ 50)%Z ->
  let s := after (Bops l) kl (classifier_new m k CHamming md ws) h in
  exists gs u, represents n gs (k_clusters (ready (Bops l) kl s)) /\ Permutation (concat gs) h /\ Z.of_nat (length gs) = Z.min k (m - 1) /\
    first_min (mismatch b) gs u /\ u < length gs /\ snd (classify (Bops l) kl s b) = Ok (Z.of_nat u) /\
    represents n (set_nth gs u (nth u gs [] ++ [b])) (k_clusters (fst (classify (Bops l) kl s b))).
Proof.
  intros l kl n m k md ws h b Hm Hk B Hb V [L Lb] s.
  destruct (next (Bops l) kl n m k CHamming md ws Hm Hk (fun _ _ _ => True)) with (h := h) (b := b) as (gs & u & R & P & Lg & Hu & E & R' & _ & st & Ec & Rs & Es); auto.
  { intros g c F _ Lc. destruct (pick_any (Bops l) kl n md ws g c F Lc) as (d & i & j & X & Y). exists d, i, j. auto. }
  exists gs, u. split; [exact R|]. split; [exact P|]. split; [exact Lg|]. split; [|split; [exact Hu|split; [exact E|exact R']]].
  eapply closest_Hamming_64; eauto; [apply Rs|]. rewrite (Permutation_length P). exact Lb.
Qed.
Print Assumptions c102_hamming.

(** While training clusters are merged by Hellinger distance, clusters with the same distributions are merged first, in order. *)
Theorem c102_merging : forall l kl n m k cd ws h, (Z.of_nat n <= 2 ^ 40)%Z -> (2 <= m)%Z -> (1 <= k)%Z ->
  Forall (bits_of_length n) h -> Forall both_values h -> Z.of_nat (length h) = (m - 1)%Z -> (m - 1 <= 2 ^ 12)%Z ->
  exists gs, merging (first_same n) k (map (fun b => [b]) h) gs /\
    represents n gs (k_clusters (ready (Bops l) kl (after (Bops l) kl (classifier_new m k cd MHellinger ws) h))).
Proof.
  intros l kl n m k cd ws h Bn Hm Hk B V L Lm.
  assert (Hn : 0 < n). { destruct h as [|b h]; [cbn in L; lia|]. inversion B; inversion V; subst. pose proof (both_length n b ltac:(assumption) ltac:(assumption)). lia. }
  destruct (trained (Bops l) kl n m k cd MHellinger ws Hk (fun gs i j => (Z.of_nat (length (concat gs)) <= 2 ^ 12)%Z -> first_same n gs i j)) with (h := h) as (gs & M & R); auto.
  { intros gs cs F2 Bg Lc. apply pick_64; auto. }
  exists gs. split; [|exact R]. clear R.
  assert (G : forall a b, merging (fun gs i j => (Z.of_nat (length (concat gs)) <= 2 ^ 12)%Z -> first_same n gs i j) k a b -> (Z.of_nat (length (concat a)) <= 2 ^ 12)%Z -> merging (first_same n) k a b).
  { induction 1 as [a Ha|a i j b Ha Hij Q Mg IH]; intro La; [now apply merging_done|]. eapply merging_step; eauto. apply IH. rewrite (Permutation_length (join_perm a i j Hij)). exact La. }
  apply G; [exact M|]. rewrite concat_singletons. lia.
Qed.
Print Assumptions c102_merging.

(** Trained with at most k distinct buffers, the classifier recognises each of them for good: equal buffers get the same label and different
    ones different labels, whatever the metric and the weights. *)
Theorem c102_recognised : forall l kl n m k cd ws h, accurate_log l -> (Z.of_nat n <= 2 ^ 40)%Z -> (2 <= m)%Z -> (1 <= k)%Z ->
  Forall (bits_of_length n) h -> Forall both_values h -> Z.of_nat (length h) = (m - 1)%Z -> (m - 1 <= 2 ^ 12)%Z ->
  (exists distinct, incl h distinct /\ (Z.of_nat (length distinct) <= k)%Z) ->
  exists label : list Z -> Z,
    (forall b b', In b h -> In b' h -> label b = label b' -> b = b') /\ (forall b, In b h -> (0 <= label b < k)%Z) /\
    forall h2 b, incl h2 h -> In b h -> (Z.of_nat (length (h ++ h2)) <= 2 ^ 50)%Z ->
      snd (classify (Bops l) kl (after (Bops l) kl (classifier_new m k cd MHellinger ws) (h ++ h2)) b) = Ok (label b).
Proof.
  intros l kl n m k cd ws h AL Bn Hm Hk B V L Lm (U & I & Lu).
  destruct (recognised l kl n m k cd ws AL Bn Hm Hk h U B V L Lm I Lu) as (rs & Rs & Lr & H).
  exists (fun b => Z.of_nat (find_index b rs)). split; [|split; [|exact H]].
  - intros b b' Hb Hb' E. destruct (find_index_spec b rs (proj2 (Rs b) Hb)) as [A _]. destruct (find_index_spec b' rs (proj2 (Rs b') Hb')) as [A' _]. apply Nat2Z.inj in E. rewrite E in A. congruence.
  - intros b Hb. destruct (find_index_spec b rs (proj2 (Rs b) Hb)) as [A _]. assert (find_index b rs < length rs) by (apply nth_error_Some; congruence). lia.
Qed.
Print Assumptions c102_recognised.

(** Examples: a correctly rounded logarithm is accurate enough, and four training buffers of two kinds meet the hypotheses. *)
Example c102_ex_log : accurate_log rounded.
Proof.
  intros x Fx Px. destruct (rounded_log x Fx Px) as (F & _). split; [exact F|]. cbn [l_log rounded] in *.
  assert (E : lift_log ln x = near (ln (val x))).
  { destruct x as [s|s| |[|] m e H]; try discriminate Fx; try reflexivity; exfalso; unfold val in Px; cbn [B2R] in Px; [lra|].
    apply (Rlt_not_le _ _ Px). left. now apply F2R_lt_0. }
  rewrite E. assert (V : val (near (ln (val x))) = rnd (ln (val x))).
  { apply near_spec. assert (B1 := rounded_log x Fx Px). destruct B1 as (_ & B1 & _). clear B1.
    assert (L2 := ln2_bounds). assert (Lb : forall e, ln (bpow radix2 e) = (IZR e * ln 2)%R) by (intro e; rewrite bpow_exp, ln_exp; reflexivity).
    assert (B2 : (val x <= bpow radix2 1024)%R) by (left; eapply Rle_lt_trans; [apply Rle_abs|apply abs_B2R_lt_emax]).
    assert (B3 : (bpow radix2 (-1100) <= val x)%R).
    { destruct (Rle_lt_dec (bpow radix2 (-1100)) (val x)) as [G|G]; [exact G|]. exfalso.
      assert (FLT_format radix2 (-1074) 53 (val x)) as [f Ef Em Ee] by (apply FLT_format_generic; [reflexivity|apply fmt_val]).
      assert (Pm : (0 < Fnum f)%Z). { apply (gt_0_F2R radix2 (Fnum f) (Fexp f)). destruct f as [fm fe]. cbn [Fnum Fexp]. now rewrite <- Ef. }
      apply (Rlt_not_le _ _ G). rewrite Ef. unfold F2R. rewrite <- (Rmult_1_l (bpow radix2 (-1100))). apply Rmult_le_compat; [lra|apply bpow_ge_0|apply IZR_le; lia|apply bpow_le; lia]. }
    assert (L1 : (-2000 <= ln (val x))%R) by (apply Rle_trans with (ln (bpow radix2 (-1100))); [rewrite Lb; lra|]; apply ln_le; [apply bpow_gt_0|exact B3]).
    assert (L3 : (ln (val x) <= 2000)%R) by (apply Rle_trans with (ln (bpow radix2 1024)); [apply ln_le; [exact Px|exact B2]|]; rewrite Lb; lra).
    apply Rle_trans with 2000%R; [apply Rabs_le; lra|]. change 2000%R with (IZR 2000). rewrite <- (Rabs_pos_eq (IZR 2000)) by (apply IZR_le; lia). apply big_Z. lia. }
  rewrite V. clear V E F.
  assert (P60 := bpow_gt_0 radix2 (-60)).
  assert (Far : val x = 1%R \/ (bpow radix2 (-60) <= Rabs (ln (val x)))%R).
  { assert (U : forall y, (0 < y)%R -> (ln y <= y - 1)%R) by (intros y Py; pose proof (exp_ineq1_le (ln y)) as Q; rewrite exp_ln in Q by exact Py; lra).
    destruct (Rlt_le_dec (val x) (/ 2)) as [S|S].
    - right. assert (ln (val x) <= - / 2)%R by (specialize (U (val x) Px); lra). rewrite Rabs_left1 by lra. apply Rle_trans with (bpow radix2 (-1)); [apply bpow_le; lia|]. change (bpow radix2 (-1)) with (/ 2)%R. lra.
    - destruct (grid (val x) (-1) (fmt_val x) ltac:(lia) S) as [k Ek]. change (-1 - 52)%Z with (-53)%Z in Ek.
      assert (E1 : 1%R = (IZR (2 ^ 53) * bpow radix2 (-53))%R) by (change (IZR (2 ^ 53)) with (bpow radix2 53); rewrite <- bpow_plus; reflexivity).
      assert (P53 := bpow_gt_0 radix2 (-53)). assert (Q60 : (4 * bpow radix2 (-60) <= bpow radix2 (-53))%R) by (change 4%R with (bpow radix2 2); rewrite <- bpow_plus; apply bpow_le; lia).
      destruct (Z.lt_trichotomy k (2 ^ 53)) as [C|[C|C]].
      + right. assert (val x <= 1 - bpow radix2 (-53))%R. { rewrite Ek, E1. assert (Q : (k <= 2 ^ 53 - 1)%Z) by lia. apply IZR_le in Q. rewrite minus_IZR in Q. nra. }
        specialize (U (val x) Px). rewrite Rabs_left1 by lra. lra.
      + left. rewrite Ek, C, <- E1. reflexivity.
      + right. assert (Hx : (1 + bpow radix2 (-53) <= val x)%R). { rewrite Ek. rewrite E1 at 1. assert (Q : (2 ^ 53 + 1 <= k)%Z) by lia. apply IZR_le in Q. rewrite plus_IZR in Q. nra. }
        specialize (U (/ val x)%R (Rinv_0_lt_compat _ Px)). rewrite ln_Rinv in U by exact Px.
        destruct (Rle_lt_dec (val x) 2) as [T|T].
        * assert (D : (1 - / val x >= bpow radix2 (-53) / 2)%R).
          { replace (1 - / val x)%R with ((val x - 1) / val x)%R by (field; lra). apply Rle_ge. apply (Rmult_le_reg_r (val x)); [lra|]. unfold Rdiv at 2. rewrite Rmult_assoc, Rinv_l by lra. nra. }
          rewrite Rabs_pos_eq by lra. lra.
        * assert (/ val x <= / 2)%R by (apply Rinv_le; lra). assert (bpow radix2 (-60) <= / 2)%R by (change (/ 2)%R with (bpow radix2 (-1)); apply bpow_le; lia). rewrite Rabs_pos_eq by lra. lra. }
  destruct Far as [-> |Far].
  - rewrite ln_1, rnd_0, Rminus_0_r, Rabs_R0. lra.
  - assert (K : (bpow radix2 (-53) <= bpow radix2 (-50))%R) by (apply bpow_le; lia). assert (P53 := bpow_gt_0 radix2 (-53)).
    set (r := ln (val x)) in *. assert (Far' : (bpow radix2 (-1000) <= Rabs r)%R) by (eapply Rle_trans; [|exact Far]; apply bpow_le; lia).
    assert (Rr : (Rabs (rnd r - r) <= bpow radix2 (-53) * Rabs r)%R).
    { destruct (Rle_lt_dec 0 r) as [S|S].
      - rewrite (Rabs_pos_eq r) in * by lra. destruct (rnd_up r Far') as [X Y]. fold u in *. apply Rabs_le. unfold u in *. lra.
      - rewrite (Rabs_left1 r) in * by lra. destruct (rnd_up (- r)%R Far') as [X Y]. rewrite rnd_opp in X, Y. apply Rabs_le. unfold u in *. lra. }
    eapply Rle_trans; [exact Rr|]. apply Rmult_le_compat_r; [apply Rabs_pos|exact K].
Qed.
Example c102_ex : let h := [[0; 1; 1]; [1; 0; 0]; [0; 1; 1]; [1; 0; 0]]%Z in
  (Z.of_nat 3 <= 2 ^ 40)%Z /\ Forall (bits_of_length 3) h /\ Forall both_values h /\ Z.of_nat (length h) = (5 - 1)%Z /\ (5 - 1 <= 2 ^ 12)%Z /\
  (exists distinct, incl h distinct /\ (Z.of_nat (length distinct) <= 2)%Z) /\
  map (fun b => snd (classify Qops (fun _ _ => fz Qops 0) (after Qops (fun _ _ => fz Qops 0) (classifier_new 5 2 CHamming MHellinger WLinear) h) b)) [[0; 1; 1]; [1; 0; 0]]%Z = [Ok 0; Ok 1]%Z.
Proof.
  assert (Bs : Forall (bits_of_length 3) [[0; 1; 1]; [1; 0; 0]; [0; 1; 1]; [1; 0; 0]]%Z) by (repeat constructor; unfold is_bit; auto).
  split; [lia|]. split; [exact Bs|]. split; [repeat (apply Forall_cons; [split; cbn; auto|]); constructor|]. split; [reflexivity|]. split; [lia|]. split; [|vm_compute; reflexivity].
  exists [[0; 1; 1]; [1; 0; 0]]%Z. split; [|cbn; lia]. intros x Hx. cbn in Hx |- *. tauto.
Qed.
