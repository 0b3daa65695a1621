(** C107: the Bernoulli mixture in double precision. *)
From Coq Require Import List ZArith Reals Bool Lia Lra.
From Flocq Require Import Core Relative IEEE754.BinarySingleNaN.
From Verif.Model Require Import Py Float Clustering Bmm.
From Verif.Spec Require Import RealOps Info BmmSpec IeeeOps IeeeCluster IeeeBmmSpec.
From Verif.Proofs Require Import Base EmleP ClusterP IeeeP IeeeInfoP IeeeEmleP IeeeSweepP IeeeDudeP IeeeBmmP IeeeBmmQ IeeeBmmS IeeeBmmT IeeeBmmU IeeeBmmV IeeeBmmW.
From Verif.Props Require IeeeClusterProps.
Import ListNotations.
Open Scope R_scope.

(** fit always succeeds: weights, means and responsibilities are numbers in [0,1], never nan, however many iterations are made. *)
Theorem c107_fit : forall l n d xs mu0 m, good_lib l -> data_sizes n d xs -> drawn64 n d mu0 ->
  exists s, fit (Bops l) n m d xs mu0 = Ok s /\ length (b_pi _ s) = n /\ Forall unit64 (b_pi _ s) /\ Exists (fun p => 0 < val p) (b_pi _ s) /\ unit_matrix n d (b_mu _ s) /\
    ((0 < m)%nat -> fin (b_logL _ s) /\ unit_matrix (length xs) n (b_gamma _ s) /\ Forall (Exists (fun g => bpow radix2 (-14) <= val g)) (b_gamma _ s)).
Proof.
  intros l n d xs mu0 m G D M. exists (snd (after l n d xs mu0 m)). split; [apply fit_after; exact D|]. pose proof (after_ok l n d xs mu0 G D M m) as I. pose proof (after_first l n d xs mu0 G D M m) as F.
  destruct (after l n d xs mu0 m) as [[[stop first] lb] s]. cbn [fst snd] in *. destruct I as ((I1 & I2 & I3 & I4) & _ & _ & I5). split; [exact I1|]. split; [exact I2|]. split; [exact I3|]. split; [exact I4|].
  intro Hm. destruct m as [|m]; [lia|]. destruct (I5 F) as (Fl & pi & mu & Gp & E & _). split; [exact Fl|]. unfold made in E. rewrite E. split.
  - split; [apply map_length|]. apply Forall_map, Forall_forall. intros x Hx. destruct (estep l n d xs G D pi mu x Gp Hx) as (_ & L & U & _). split; assumption.
  - apply Forall_map, Forall_forall. intros x Hx. destruct (estep l n d xs G D pi mu x Gp Hx) as (_ & L & _ & (k & Hk & B) & _). apply Exists_exists. eexists. split; [|exact B]. apply nth_In. rewrite L. exact Hk.
Qed.
Print Assumptions c107_fit.

(** An iteration after which no sample counts for some component changes neither weights nor means and is the last; any other replaces the weights and means by
    the rounded shares of the responsibilities. *)
Theorem c107_step : forall l n d xs mu0 m s s', good_lib l -> data_sizes n d xs -> drawn64 n d mu0 -> fit (Bops l) n m d xs mu0 = Ok s -> fit (Bops l) n (S m) d xs mu0 = Ok s' ->
  ((exists k, (k < n)%nat /\ empty_component l s' (length xs) k) -> b_pi _ s' = b_pi _ s /\ b_mu _ s' = b_mu _ s /\ forall m', (S m <= m')%nat -> fit (Bops l) n m' d xs mu0 = Ok s') /\
  (~ (exists k, (k < n)%nat /\ empty_component l s' (length xs) k) -> forall k, (k < n)%nat -> let T := sum64 (all_resp l s' (length xs) k) in
     0 < val T /\ val (nth k (b_pi _ s') (b64_z 0)) = rnd (val T / IZR (Z.of_nat (length xs))) /\
     forall j, (j < d)%nat -> val (nth j (nth k (b_mu _ s') []) (b64_z 0)) = rnd (val (sum64 (resp_set l s' xs j k)) / val T)).
Proof.
  intros l n d xs mu0 m s s' G D M E E'. rewrite (fit_after l n d xs mu0 D m) in E. rewrite (fit_after l n d xs mu0 D (S m)) in E'.
  assert (Es : s = snd (after l n d xs mu0 m)) by congruence. assert (Es' : s' = snd (after l n d xs mu0 (S m))) by congruence. clear E E'.
  pose proof (stopped_iff l n d xs mu0 G D M m) as St. rewrite <- Es' in St. pose proof (after_ok l n d xs mu0 G D M m) as I.
  assert (On : forall m', fst (fst (fst (after l n d xs mu0 (S m)))) = true -> after l n d xs mu0 (m' + S m) = after l n d xs mu0 (S m)).
  { intros m' Q. induction m' as [|m' IH]; [reflexivity|]. change (after l n d xs mu0 (S m' + S m)) with (adv l n d xs (after l n d xs mu0 (m' + S m))). rewrite IH. destruct (after l n d xs mu0 (S m)) as [[[a b] c] w]. cbn [fst] in Q. subst a. reflexivity. }
  destruct (adv_invariant l n d xs G D _ I) as [_ A]. change (adv l n d xs (after l n d xs mu0 m)) with (after l n d xs mu0 (S m)) in A.
  split.
  - intro X. apply St in X. split; [|split].
    1, 2: destruct (after l n d xs mu0 m) as [[[a b] c] w]; destruct (after l n d xs mu0 (S m)) as [[[a' b'] c'] w']; cbn [fst snd] in *; subst; apply A.
    intros m' Hm'. rewrite (fit_after l n d xs mu0 D m'). replace m' with (m' - S m + S m)%nat by lia. rewrite (On _ X), Es'. reflexivity.
  - intros X k Hk. assert (Y : fst (fst (fst (after l n d xs mu0 (S m)))) = false) by (destruct (fst (fst (fst (after l n d xs mu0 (S m))))); [exfalso; apply X, St; reflexivity|reflexivity]). clear St On.
    destruct (after l n d xs mu0 m) as [[[a b] c] w]. destruct (after l n d xs mu0 (S m)) as [[[a' b'] c'] w']. cbn [fst snd] in *. subst. destruct A as (_ & Ag & _ & Ap & Am). destruct I as (Gp & _).
    assert (P : 0 < val (sum64 (map (fun x => nth k (gam l (b_pi _ w) (b_mu _ w) x) (b64_z 0)) xs))).
    { destruct (neff_spec l n d xs G D _ _ k Gp Hk) as (_ & [[B|B] _] & _); [exact B|]. exfalso. apply X. exists k. split; [exact Hk|]. apply (empty_iff l xs w' _ _ k Ag). unfold emptied. apply (neff_zero l n d xs G D _ _ k Gp Hk). symmetry. exact B. }
    rewrite (all_resp_eq l xs w' _ _ k Ag). cbv zeta. split; [exact P|]. rewrite Ap, Am. split; [apply (pi_spec l n d xs G D _ _ k Gp Hk)|]. intros j Hj. rewrite (resp_set_eq l xs w' _ _ j k Ag). apply (mu_spec l n d xs G D _ _ k j Gp Hk Hj P).
Qed.
Print Assumptions c107_step.

(** Scores of any data are finite, and no sample is assigned to a component of weight 0. *)
Theorem c107_predict : forall l n d xs mu0 m s ys, good_lib l -> data_sizes n d xs -> drawn64 n d mu0 -> fit (Bops l) n m d xs mu0 = Ok s -> data_sizes n d ys ->
  fin (score _ s ys) /\ length (score_samples _ s ys) = length ys /\ Forall fin (score_samples _ s ys) /\
  length (bmm_predict _ s ys) = length ys /\ Forall (fun k => (k < n)%nat /\ 0 < val (nth k (b_pi _ s) (b64_z 0))) (bmm_predict _ s ys).
Proof.
  intros l n d xs mu0 m s ys G D M E Dy. rewrite (fit_after l n d xs mu0 D m) in E. assert (Es : s = snd (after l n d xs mu0 m)) by congruence. clear E. pose proof (after_ok l n d xs mu0 G D M m) as I.
  destruct (after l n d xs mu0 m) as [[[a b] c] w]. cbn [snd] in Es. subst w. destruct I as (Gp & _).
  split; [apply (ll_fin l n d ys G Dy _ _ Gp)|]. unfold score_samples, bmm_predict. change (Float.F (Bops l)) with b64 in *. rewrite sll_map, gamma_map, !map_length. split; [reflexivity|]. split; [apply Forall_map, Forall_forall; intros x Hx; apply (estep l n d ys G Dy _ _ x Gp Hx)|].
  split; [reflexivity|]. rewrite map_map. apply Forall_map, Forall_forall. intros x Hx. destruct (estep l n d ys G Dy _ _ x Gp Hx) as (_ & L & U & (k0 & Hk0 & B) & Z).
  assert (Ff : Forall fin (gam l (b_pi _ s) (b_mu _ s) x)) by (eapply Forall_impl; [|exact U]; intros y Hy; apply Hy).
  assert (Ne : gam l (b_pi _ s) (b_mu _ s) x <> []) by (intro Q; rewrite Q in L; cbn in L; lia). destruct (fargmax_spec l _ Ff Ne) as [K1 K2]. rewrite L in K1, K2. split; [exact K1|].
  set (k := fargmax (Bops l) (gam l (b_pi _ s) (b_mu _ s) x)) in *. specialize (K2 k0 Hk0). destruct Gp as (Lp & Up & _). rewrite Forall_forall in Up.
  assert (Uk : unit64 (nth k (b_pi _ s) (b64_z 0))) by (apply Up, nth_In; exact (eq_ind_r (fun q => (k < q)%nat) K1 Lp)). destruct Uk as [_ [[Q|Q] _]]; [exact Q|]. specialize (Z k K1 (eq_sym Q)). pose proof (bpow_gt_0 radix2 (-14)). lra.
Qed.
Print Assumptions c107_predict.

(** The responsibilities of an iteration are the posteriors given by the weights and means before it, up to 1/2048; those for a sample add up to 1 up to 2^-20.
    The scores are the logarithms of the likelihoods, up to 1/4096, and the component assigned to a sample is one whose posterior is largest, up to 1/1024. *)
Theorem c107_posterior : exists t15 t200, literal t15 15 /\ literal t200 200 /\
  forall l n d xs mu0 m s s', good_lib l -> accurate_exp l -> data_sizes n d xs -> drawn64 n d mu0 -> fit (Bops l) n m d xs mu0 = Ok s -> fit (Bops l) n (S m) d xs mu0 = Ok s' ->
    (forall i, (i < length xs)%nat -> Rabs (Rsum (map (fun k => val (resp l s' i k)) (seq 0 n)) - 1) <= bpow radix2 (-20) /\
       forall k, (k < n)%nat -> Rabs (val (resp l s' i k) - posterior64 t15 t200 (b_pi _ s) (b_mu _ s) (nth i xs []) k) <= / 2048) /\
    (forall ys i, data_sizes n d ys -> (i < length ys)%nat -> let y := nth i ys [] in
       Rabs (val (nth i (score_samples _ s ys) (b64_z 0)) - ln (mixture64 t15 t200 (b_pi _ s) (b_mu _ s) y)) <= / 4096 /\
       forall k, (k < n)%nat -> posterior64 t15 t200 (b_pi _ s) (b_mu _ s) y k <= posterior64 t15 t200 (b_pi _ s) (b_mu _ s) y (nth i (bmm_predict _ s ys) 0%nat) + / 1024).
Proof.
  exists (val T15), (val T200). split; [apply (literal_spec 15); lia|]. split; [apply (literal_spec 200); lia|]. intros l n d xs mu0 m s s' G A D M E E'.
  rewrite (fit_after l n d xs mu0 D m) in E. rewrite (fit_after l n d xs mu0 D (S m)) in E'. assert (Es : s = snd (after l n d xs mu0 m)) by congruence. assert (Es' : s' = snd (after l n d xs mu0 (S m))) by congruence. clear E E'.
  pose proof (after_ok l n d xs mu0 G D M m) as I. destruct (adv_invariant l n d xs G D _ I) as [_ Ad]. change (adv l n d xs (after l n d xs mu0 m)) with (after l n d xs mu0 (S m)) in Ad.
  assert (X : good_params n d (b_pi _ s) (b_mu _ s) /\ b_gamma _ s' = map (gam l (b_pi _ s) (b_mu _ s)) xs).
  { destruct (after l n d xs mu0 m) as [[[a b] c] w]. destruct (after l n d xs mu0 (S m)) as [[[a' b'] c'] w']. cbn [snd] in *. subst. destruct I as (I & _). destruct Ad as (_ & Ad & _). split; assumption. }
  destruct X as [Gp Eg]. clear I Ad Es Es'. split.
  - intros i Hi. destruct (sample_accurate l n d xs _ _ (nth i xs []) G A D Gp (nth_In xs [] Hi)) as (_ & S2 & S3). split.
    + rewrite (map_ext _ _ (fun k => f_equal val (resp_gam l xs s' _ _ i k Eg Hi))). exact S3.
    + intros k Hk. rewrite (resp_gam l xs s' _ _ i k Eg Hi). apply S2. exact Hk.
  - intros ys i Dy Hi y. destruct (sample_accurate l n d ys _ _ y G A Dy Gp (nth_In ys [] Hi)) as (S1 & S2 & _). unfold score_samples, bmm_predict. change (Float.F (Bops l)) with b64 in *. rewrite sll_map, gamma_map, map_map. split.
    + rewrite (nth_indep _ _ (zed l (b_pi _ s) (b_mu _ s) [])) by (rewrite map_length; exact Hi). rewrite (map_nth (zed l (b_pi _ s) (b_mu _ s))). exact S1.
    + rewrite (nth_indep _ _ (fargmax (Bops l) (gam l (b_pi _ s) (b_mu _ s) []))) by (rewrite map_length; exact Hi). rewrite (map_nth (fun x => fargmax (Bops l) (gam l (b_pi _ s) (b_mu _ s) x))). fold y.
      destruct (estep l n d ys G Dy _ _ y Gp (nth_In ys [] Hi)) as (_ & L & U & _). assert (Ff : Forall fin (gam l (b_pi _ s) (b_mu _ s) y)) by (eapply Forall_impl; [|exact U]; intros z Hz; apply Hz).
      assert (Ne : gam l (b_pi _ s) (b_mu _ s) y <> []) by (intro Q; rewrite Q in L; cbn in L; destruct Dy as (Dy & _); lia). destruct (fargmax_spec l _ Ff Ne) as [K1 K2]. rewrite L in K1, K2.
      set (b := fargmax (Bops l) (gam l (b_pi _ s) (b_mu _ s) y)) in *. intros k Hk. specialize (K2 k Hk). pose proof (S2 k Hk) as Sk. pose proof (S2 b K1) as Sb. apply abs_in in Sk. apply abs_in in Sb. lra.
Qed.
Print Assumptions c107_posterior.

(** It does happen at once: with this sample and these drawn means the first component ends up without samples in the first iteration, and no number of iterations
    changes the starting weights and means. *)
Theorem c107_lost : forall l, good_lib l -> underflows l -> data_sizes 2 (half + half) [split_sample] /\ drawn64 2 (half + half) split_means /\
  forall m s0 s, fit (Bops l) 2 0 (half + half) [split_sample] split_means = Ok s0 -> fit (Bops l) 2 m (half + half) [split_sample] split_means = Ok s ->
    b_pi _ s = b_pi _ s0 /\ b_mu _ s = b_mu _ s0 /\ ((0 < m)%nat -> exists k, (k < 2)%nat /\ empty_component l s 1 k).
Proof.
  intros l G U. split; [exact split_sizes|]. split; [exact split_drawn|]. intros m s0 s E0 E. pose proof split_sizes as D. pose proof split_drawn as M.
  rewrite (fit_after l 2 _ _ split_means D) in E0. rewrite (fit_after l 2 _ _ split_means D) in E.
  assert (E0' : s0 = snd (after l 2 (half + half) [split_sample] split_means 0)) by congruence. assert (E' : s = snd (after l 2 (half + half) [split_sample] split_means m)) by congruence.
  destruct (split_lost l G U 0) as [P0 M0]. destruct (split_lost l G U m) as [P1 M1]. rewrite E0', E', P0, M0, P1, M1. split; [reflexivity|]. split; [reflexivity|].
  intro Hm. destruct m as [|m]; [lia|]. apply (stopped_iff l 2 (half + half) [split_sample] split_means G D M m).
  clear - G U D M. pose proof (after_ok l 2 (half + half) [split_sample] split_means G D M m) as I. destruct (split_lost l G U m) as [P1 M1].
  change (after l 2 (half + half) [split_sample] split_means (S m)) with (adv l 2 (half + half) [split_sample] (after l 2 (half + half) [split_sample] split_means m)).
  destruct (after l 2 (half + half) [split_sample] split_means m) as [[[a b] c] w]. cbn [snd] in *. unfold adv. destruct a; [reflexivity|]. destruct I as (Gp & I2 & _). rewrite (I2 eq_refl).
  assert (Em : emptied l [split_sample] (b_pi _ w) (b_mu _ w) 0) by (rewrite P1, M1; apply split_emptied; assumption).
  destruct (step_stop l 2 (half + half) [split_sample] G D b w 0 Gp ltac:(lia) Em) as (lb' & old & ll & -> & _). reflexivity.
Qed.
Print Assumptions c107_lost.

(** Example: correctly rounded functions meet the hypotheses. *)
Example c107_ex_lib : good_lib rounded.
Proof.
  split; [exact rounded_exp|]. split; [exact IeeeClusterProps.c102_ex_log|]. split; [|split; [reflexivity|split; [reflexivity|split; [reflexivity|]]]].
  - intros x F [B1 B2]. cbn [l_exp rounded]. assert (E : lift exp (b64_z 0) (B754_infinity false) x = near (exp (val x))) by (destruct x as [s|[|]| |s mm e H]; try discriminate F; reflexivity).
    rewrite E. pose proof (exp_pos (val x)) as P. assert (L1 : exp (val x) <= 1) by (rewrite <- exp_0; destruct B2 as [B2|B2]; [left; apply exp_increasing; exact B2|right; rewrite B2; reflexivity]).
    destruct (near_spec (exp (val x))) as [_ V]; [rewrite Rabs_pos_eq by lra; pose proof big_1; lra|]. rewrite V.
    assert (Lo : bpow radix2 (-1020) <= exp (val x)).
    { apply Rle_trans with (exp (-700)); [|destruct B1 as [B1|B1]; [left; apply exp_increasing; exact B1|right; rewrite B1; reflexivity]].
      rewrite bpow_exp. assert (Q : -1020 * ln 2 <= -700); [|destruct Q as [Q|Q]; [left; apply exp_increasing; exact Q|right; rewrite <- Q; reflexivity]].
      pose proof ln2_lo. lra. }
    destruct (mag radix2 (exp (val x))) as [e He]. specialize (He ltac:(lra)). rewrite Rabs_pos_eq in He by lra.
    assert (Me : (-1020 < e)%Z) by (apply (lt_bpow radix2); lra). apply Rle_trans with (bpow radix2 (e - 1)).
    + replace e with (e - 1 + 1)%Z in He by lia. rewrite (bpow_plus radix2 (e - 1) 1) in He. change (bpow radix2 1) with 2 in He. lra.
    + apply rnd_ge; [apply generic_format_bpow; unfold FLT_exp; lia|apply He].
  - intros x F V. cbn [l_log rounded]. destruct x as [s|s| |s mm e H]; try discriminate F; [reflexivity|]. exfalso. unfold val in V. cbn [B2R] in V. unfold F2R in V. cbn [Fnum Fexp] in V.
    apply Rmult_integral in V. destruct V as [V|V]; [apply eq_IZR in V; destruct s; discriminate|pose proof (bpow_gt_0 radix2 e); lra].
Qed.
Example c107_ex_underflow : underflows rounded.
Proof.
  intros x F B. cbn [l_exp rounded]. assert (E : lift exp (b64_z 0) (B754_infinity false) x = near (exp (val x))) by (destruct x as [s|[|]| |s mm e H]; try discriminate F; reflexivity).
  rewrite E. pose proof (exp_pos (val x)) as P. assert (L1 : exp (val x) <= 1) by (rewrite <- exp_0; apply exp_mono; lra).
  destruct (near_spec (exp (val x))) as [Fn V]; [rewrite Rabs_pos_eq by lra; pose proof big_1; lra|]. split; [exact Fn|]. rewrite V.
  assert (Hi : exp (val x) < bpow radix2 (-1075)).
  { apply Rle_lt_trans with (exp (-800)); [apply exp_mono; exact B|]. rewrite bpow_exp. apply exp_increasing. pose proof ln2_hi. assert (Q : -800 < -1075 * ln 2) by lra. exact Q. }
  destruct (mag radix2 (exp (val x))) as [e He]. specialize (He ltac:(lra)). rewrite Rabs_pos_eq in He by lra. assert (Me : (e - 1 < -1075)%Z) by (apply (lt_bpow radix2); lra).
  apply (round_N_small_pos radix2 (FLT_exp (-1074) 53) (fun z => negb (Z.even z)) (exp (val x)) e He). unfold FLT_exp. lia.
Qed.

Example c107_ex_exp : accurate_exp rounded.
Proof.
  intros x F N. cbn [l_exp rounded]. assert (E : lift exp (b64_z 0) (B754_infinity false) x = near (exp (val x))) by (destruct x as [s|[|]| |s mm e H]; try discriminate F; reflexivity).
  rewrite E. pose proof (exp_pos (val x)) as P. assert (L1 : exp (val x) <= 1) by (rewrite <- exp_0; apply exp_mono; lra).
  destruct (near_spec (exp (val x))) as [_ V]; [rewrite Rabs_pos_eq by lra; pose proof big_1; lra|]. rewrite V. split; intro B.
  - assert (Lo : bpow radix2 (-1022) <= exp (val x)).
    { apply Rle_trans with (exp (-700)); [|apply exp_mono; exact B]. rewrite bpow_exp. apply exp_mono. pose proof ln2_lo. assert (Q : -1022 * ln 2 <= -700) by lra. exact Q. }
    eapply Rle_trans; [apply (rnd_rel _ Lo)|]. apply Rmult_le_compat_r; [lra|]. rewrite u_val. change (bpow radix2 (-50)) with (/ 1125899906842624). lra.
  - apply rnd_le'; [apply generic_format_bpow; unfold FLT_exp; lia|]. apply Rle_trans with (exp (-699)); [apply exp_mono; lra|exact exp_m699].
Qed.
