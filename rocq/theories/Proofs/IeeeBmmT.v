(** Lemmas about fitting a mixture in double precision: fit, score and predict. *)
From Coq Require Import List ZArith Reals Bool Lia Lra.
From Flocq Require Import Core Relative IEEE754.BinarySingleNaN.
From Verif.Model Require Import Py Float Clustering Bmm.
From Verif.Spec Require Import RealOps Info IeeeOps IeeeCluster IeeeBmmSpec.
From Verif.Proofs Require Import Base EmleP ClusterP IeeeP IeeeInfoP IeeeEmleP IeeeSweepP IeeeDudeP IeeeBmmP IeeeBmmQ IeeeBmmS.
Import ListNotations.
Open Scope R_scope.

Definition weight0 (n : nat) : b64 := b64_mul (b64_div (b64_z 1) (b64_z (Z.of_nat n))) (b64_z 1).
Definition mean0 (l : libm) (mu0 : list (list b64)) : list (list b64) := map (fun row => map (fun m => b64_div m (sum64 row)) row) mu0.
Lemma weight0_ok n : (1 <= n)%nat -> (Z.of_nat n <= 2 ^ 10)%Z -> unit64 (weight0 n) /\ 0 < val (weight0 n).
Proof.
  intros H1 H2. destruct one as [F1 V1]. destruct (z_spec (Z.of_nat n)) as [Fn Vn]; [lia|]. assert (Q1 : 1 <= IZR (Z.of_nat n)) by (apply IZR_le; lia). assert (Q2 : IZR (Z.of_nat n) <= 1024) by (change 1024 with (IZR (2 ^ 10)); apply IZR_le; lia).
  destruct (quot_le (b64_z 1) (b64_z (Z.of_nat n)) F1) as (F & V & B); [lra|lra|]. destruct (mul_spec _ (b64_z 1) F F1) as [G W]; [rewrite V1; apply (big_abs _ 1); [lia|]; apply Rabs_le; lra|].
  unfold weight0. rewrite V1, Rmult_1_r, (rnd_id _ (fmt_val _)) in W. split; [split; [exact G|rewrite W; exact B]|]. rewrite W, V. apply Rlt_le_trans with (bpow radix2 (-10)); [apply bpow_gt_0|].
  apply rnd_ge; [apply generic_format_bpow; unfold FLT_exp; lia|]. rewrite V1, Vn. change (bpow radix2 (-10)) with (/ 1024). apply (Rmult_le_reg_r (IZR (Z.of_nat n))); [lra|]. unfold Rdiv. rewrite Rmult_assoc, Rinv_l by lra. lra.
Qed.
Lemma mean0_ok l n d mu0 : (1 <= d)%nat -> (Z.of_nat d <= 2 ^ 14)%Z -> drawn64 n d mu0 -> unit_matrix n d (mean0 l mu0).
Proof.
  intros H1 H2 [L H]. unfold mean0. split; [rewrite map_length; exact L|]. apply Forall_map. eapply Forall_impl; [|exact H]. intros row [Lr U]. split; [rewrite map_length; exact Lr|].
  assert (W : Forall (within 1) row) by (eapply Forall_impl; [|exact U]; intros x [F B]; split; [exact F|lra]). destruct (fsum_spec l 1 row ltac:(lia) W) as [[Fs Rs] Ls]; [lia|].
  change (fsum (Bops l) row) with (sum64 row) in *. assert (P : / 4 <= val (sum64 row)).
  { destruct row as [|a t]; [cbn in Lr; lia|]. apply Forall_cons_iff in U. destruct U as [[_ B] _]. specialize (Ls a (or_introl eq_refl)). lra. }
  apply Forall_map, Forall_forall. intros x Ix. rewrite Forall_forall in U. destruct (U x Ix) as [F B]. specialize (Ls x Ix). destruct (quot_le x (sum64 row) F) as (Q1 & _ & Q2); [lra|lra|]. split; assumption.
Qed.

Section Fit.
Variables (l : libm) (n d : nat) (xs : list (list Z)) (mu0 : list (list b64)).
Hypothesis G : good_lib l.
Hypothesis D : data_sizes n d xs.
Hypothesis M : drawn64 n d mu0.
Notation O := (Bops l).

Definition start : conf l := let pi := repeat (weight0 n) n in let mu := mean0 l mu0 in let lb := get_log_bernoullis O xs mu in (false, true, lb, Bmm O pi mu [] [] (log_likelihood O pi lb) (b64_z 0)).
Definition after (m : nat) : conf l := Nat.iter m (adv l n d xs) start.
Lemma fit_after m : fit O n m d xs mu0 = Ok (snd (after m)).
Proof.
  unfold fit, init_params. destruct D as (D1 & _). destruct (Nat.eqb_spec n 0) as [E|_]; [lia|]. cbn [bind]. unfold after, start. cbv zeta. rewrite <- (loop_iter l n d xs). reflexivity.
Qed.
Lemma start_ok : invariant l n d xs start.
Proof.
  destruct D as (D1 & D2 & D3 & D4 & _). unfold start, invariant. cbv zeta beta iota. cbn [b_pi b_mu b_gamma b_logL]. destruct (weight0_ok n D1 D2) as [U P]. split; [|split; [reflexivity|split; [reflexivity|discriminate]]].
  split; [apply repeat_length|]. split; [apply Forall_forall; intros x Hx; apply repeat_spec in Hx; subst x; exact U|]. split; [|apply mean0_ok; assumption].
  apply Exists_exists. exists (weight0 n). split; [|exact P]. destruct n as [|k]; [lia|]. cbn [repeat]. left. reflexivity.
Qed.
Lemma after_ok m : invariant l n d xs (after m).
Proof. induction m as [|m IH]; [exact start_ok|]. change (after (S m)) with (adv l n d xs (after m)). apply (adv_invariant l n d xs G D _ IH). Qed.
Lemma after_first m : snd (fst (fst (after m))) = match m with 0%nat => true | _ => false end.
Proof.
  destruct m as [|m]; [reflexivity|]. change (after (S m)) with (adv l n d xs (after m)). destruct (adv_invariant l n d xs G D _ (after_ok m)) as [_ H]. destruct (after m) as [[[a b] c] s]. destruct (adv l n d xs (a, b, c, s)) as [[[a' b'] c'] s']. apply H.
Qed.
Lemma resp_gam (s : bmm O) pi mu i k : b_gamma O s = map (gam l pi mu) xs -> (i < length xs)%nat -> resp l s i k = nth k (gam l pi mu (nth i xs [])) (b64_z 0).
Proof.
  intros E Hi. unfold resp. rewrite E. rewrite (nth_indep _ [] (gam l pi mu [])) by (rewrite map_length; exact Hi). rewrite (map_nth (gam l pi mu)). reflexivity.
Qed.
Lemma empty_iff (s : bmm O) pi mu k : b_gamma O s = map (gam l pi mu) xs -> (empty_component l s (length xs) k <-> emptied l xs pi mu k).
Proof.
  intro E. split.
  - intros H x Ix. destruct (In_nth _ _ [] Ix) as (i & Hi & Ei). specialize (H i Hi). rewrite (resp_gam s pi mu i k E Hi), Ei in H. exact H.
  - intros H i Hi. rewrite (resp_gam s pi mu i k E Hi). apply H, nth_In. exact Hi.
Qed.
Lemma stopped_iff m : fst (fst (fst (after (S m)))) = true <-> exists k, (k < n)%nat /\ empty_component l (snd (after (S m))) (length xs) k.
Proof.
  pose proof (after_ok (S m)) as I. pose proof (after_first (S m)) as F. destruct (after (S m)) as [[[a b] c] s]. cbn [fst snd] in *. subst b. destruct I as (I1 & _ & _ & I4). destruct (I4 eq_refl) as (_ & pi & mu & Gp & E & X).
  destruct a.
  - split; [|reflexivity]. intros _. destruct X as (_ & _ & k & Hk & X). exists k. split; [exact Hk|]. apply (empty_iff s pi mu k E). exact X.
  - split; [discriminate|]. intros (k & Hk & Y). apply (empty_iff s pi mu k E) in Y. specialize (X k Hk). apply (neff_zero l n d xs G D pi mu k Gp Hk) in Y. lra.
Qed.
Lemma map_filter_idx {B} (f : list Z -> B) (p : list Z -> bool) ys : map (fun i => f (nth i ys [])) (filter (fun i => p (nth i ys [])) (seq 0 (length ys))) = map f (filter p ys).
Proof.
  symmetry. etransitivity; [apply (f_equal (fun z => map f (filter p z)) (list_seq ys []))|]. symmetry. generalize (seq 0 (length ys)) as is. induction is as [|i is IH]; [reflexivity|]. cbn [map filter]. destruct (p (nth i ys [])); cbn [map]; rewrite IH; reflexivity.
Qed.
Lemma map_idx {B} (f : list Z -> B) ys : map (fun i => f (nth i ys [])) (seq 0 (length ys)) = map f ys.
Proof. symmetry. etransitivity; [apply (f_equal (map f) (list_seq ys []))|]. rewrite map_map. reflexivity. Qed.
Lemma all_resp_eq (s : bmm O) pi mu k : b_gamma O s = map (gam l pi mu) xs -> all_resp l s (length xs) k = map (fun x => nth k (gam l pi mu x) (b64_z 0)) xs.
Proof.
  intro E. rewrite <- map_idx. apply map_ext_in. intros i Hi. apply in_seq in Hi. apply resp_gam; [exact E|lia].
Qed.
Lemma resp_set_eq (s : bmm O) pi mu j k : b_gamma O s = map (gam l pi mu) xs -> resp_set l s xs j k = map (fun x => nth k (gam l pi mu x) (b64_z 0)) (filter (has j) xs).
Proof.
  intro E. rewrite <- map_filter_idx. apply map_ext_in. intros i Hi. apply filter_In in Hi. destruct Hi as [Hi _]. apply in_seq in Hi. apply resp_gam; [exact E|lia].
Qed.
End Fit.

(** ** Prediction *)
Lemma fargmax_from_spec l ys : forall i best v (all : list b64), Forall fin all -> (length all = i + length ys)%nat -> (forall j, nth j ys (b64_z 0) = nth (i + j) all (b64_z 0)) -> (best < i)%nat -> nth best all (b64_z 0) = v ->
  (forall j, (j < i)%nat -> val (nth j all (b64_z 0)) <= val v) ->
  let k := fargmax_from (Bops l) ys i best v in (k < length all)%nat /\ forall j, (j < length all)%nat -> val (nth j all (b64_z 0)) <= val (nth k all (b64_z 0)).
Proof.
  induction ys as [|y ys IH]; intros i best v all Fa La Hj Hb Eb Hv k.
  - cbn [length] in La. unfold k. cbn [fargmax_from]. split; [lia|]. intros j Hjl. rewrite Eb. apply Hv. lia.
  - cbn [length] in La. assert (Ey : y = nth i all (b64_z 0)) by (pose proof (Hj 0%nat) as Q; cbn [nth] in Q; rewrite Nat.add_0_r in Q; exact Q). rewrite Forall_forall in Fa.
    assert (Fy : fin y) by (rewrite Ey; apply Fa, nth_In; lia). assert (Fv : fin v) by (rewrite <- Eb; apply Fa, nth_In; lia).
    assert (Hn : forall j, nth j ys (b64_z 0) = nth (S i + j) all (b64_z 0)) by (intro j; pose proof (Hj (S j)) as Q; cbn [nth] in Q; rewrite Q; f_equal; lia).
    assert (Fa' : Forall fin all) by (apply Forall_forall; exact Fa). unfold k. cbn [fargmax_from]. change (flt (Bops l) v y) with (Bltb v y). destruct (Bltb v y) eqn:C.
    + apply (ltb_spec v y Fv Fy) in C. apply IH; [exact Fa'|lia|exact Hn|lia|symmetry; exact Ey|]. intros j Hjl. destruct (Nat.eq_dec j i) as [-> |Ne]; [rewrite <- Ey; lra|]. specialize (Hv j ltac:(lia)). lra.
    + assert (C' : val y <= val v) by (destruct (Rle_lt_dec (val y) (val v)) as [Q|Q]; [exact Q|]; apply (ltb_spec v y Fv Fy) in Q; congruence).
      apply IH; [exact Fa'|lia|exact Hn|lia|exact Eb|]. intros j Hjl. destruct (Nat.eq_dec j i) as [-> |Ne]; [rewrite <- Ey; exact C'|]. apply Hv. lia.
Qed.
Lemma fargmax_spec l (all : list b64) : Forall fin all -> all <> [] -> let k := fargmax (Bops l) all in (k < length all)%nat /\ forall j, (j < length all)%nat -> val (nth j all (b64_z 0)) <= val (nth k all (b64_z 0)).
Proof.
  intros F H. destruct all as [|y t]; [congruence|]. cbn [fargmax]. apply fargmax_from_spec; [exact F|cbn; lia|intro j; reflexivity|lia|reflexivity|]. intros j Hj. assert (j = 0)%nat as -> by lia. cbn [nth]. lra.
Qed.
