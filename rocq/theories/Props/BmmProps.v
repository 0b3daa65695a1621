(** The Bernoulli mixture (C46). *)
From Coq Require Import List ZArith Reals Lra Bool Lia Arith.
From Verif.Model Require Import Py Float Clustering Bmm.
From Verif.Spec Require Import RealOps Info BmmSpec.
From Verif.Proofs Require Import Base RealP InfoP EntropyP PerfP ClusterP EmleP ClusterR BmmP BmmEm.
Import ListNotations.
Local Open Scope R_scope.

(** The start: equal weights, and the drawn means scaled to sum 1 in each component. *)
Definition start (n : nat) (mu0 : list (list R)) : list R * list (list R) := (repeat (/ INR n) n, map normalised mu0).
Definition drawn (mu0 : list (list R)) : Prop := Forall (Forall (fun v => / 4 <= v <= 3 / 4)) mu0.

Lemma start_current n d xs mu0 : (1 <= n)%nat -> (1 <= d)%nat -> matrix n d mu0 -> drawn mu0 -> current n d xs (start n mu0).
Proof.
  intros Hn Hd [Lm Ld] Hr. assert (Np : 0 < INR n) by (apply lt_0_INR; lia). unfold start, current. cbn [fst snd]. split; [|split].
  - split; [apply repeat_length|]. split.
    + apply Forall_forall. intros p Hp. apply repeat_spec in Hp. subst p. apply Rinv_0_lt_compat. auto.
    + rewrite Rsum_repeat. field. lra.
  - split; [rewrite map_length; auto|]. apply Forall_forall. intros r Hin. apply in_map_iff in Hin. destruct Hin as (r0 & <- & Hin). unfold normalised. rewrite map_length. rewrite Forall_forall in Ld. auto.
  - apply Forall_forall. intros r Hin. apply in_map_iff in Hin. destruct Hin as (r0 & <- & Hin). unfold drawn in Hr. rewrite Forall_forall in Hr, Ld. specialize (Hr r0 Hin). specialize (Ld r0 Hin).
    assert (Sp : 0 < Rsum r0) by (apply Rsum_pos; [destruct r0; [cbn in Ld; lia|discriminate]|]; eapply Forall_impl; [|exact Hr]; cbv beta; intros; lra).
    unfold normalised. apply Forall_forall. intros v Hv. apply in_map_iff in Hv. destruct Hv as (w & <- & Hw).
    assert (Hle : 0 <= w <= Rsum r0).
    { rewrite Forall_forall in Hr. split; [specialize (Hr w Hw); lra|]. clear Ld Sp Hin. induction r0 as [|a r0 IH]; [destruct Hw|]. change (Rsum (a :: r0)) with (a + Rsum r0).
      assert (N0 : 0 <= Rsum r0) by (apply Rsum_nonneg; apply Forall_forall; intros z Hz; specialize (Hr z (or_intror Hz)); lra).
      destruct Hw as [->|Hw]; [lra|]. specialize (IH (fun z Hz => Hr z (or_intror Hz)) Hw). specialize (Hr a (or_introl eq_refl)). lra. }
    unfold Rdiv. assert (0 < / Rsum r0) by (apply Rinv_0_lt_compat; auto). split; [apply Rmult_le_pos; lra|].
    apply Rmult_le_reg_r with (Rsum r0); auto. rewrite Rmult_assoc, Rinv_l by lra. lra.
Qed.
Lemma fit_loop n iters d xs mu0 : (1 <= n)%nat -> (1 <= d)%nat -> binary_data d xs -> matrix n d mu0 -> drawn mu0 ->
  fit Rops n iters d xs mu0 = Ok (let p := start n mu0 in em_loop Rops n d xs iters true (get_log_bernoullis Rops xs (snd p)) (Bmm Rops (fst p) (snd p) [] [] (mean_log_likelihood (fst p) (snd p) xs) 0)).
Proof.
  intros Hn Hd Hb Hm Hr. unfold fit, init_params. destruct (Nat.eqb_spec n 0); [lia|]. cbn [bind].
  assert (E1 : repeat (fmul Rops (fdiv Rops (fz Rops 1) (fz Rops (Z.of_nat n))) (fz Rops 1)) n = repeat (/ INR n) n).
  { f_equal. cbn [fmul fdiv fz Rops]. rewrite <- INR_IZR_INZ. unfold Rdiv. rewrite Rmult_1_l, Rmult_1_r. reflexivity. }
  assert (E2 : map (fun row => let s := fsum Rops row in map (fun m => fdiv Rops m s) row) mu0 = map normalised mu0).
  { apply map_ext. intro row. unfold normalised. cbn zeta. rewrite fsum_R. reflexivity. }
  rewrite E1. match goal with |- context [map ?f mu0] => replace (map f mu0) with (map normalised mu0) by (symmetry; exact E2) end. destruct (start_current n d xs mu0 Hn Hd Hm Hr) as (C1 & C2 & C3). unfold start in *. cbn [fst snd] in *. do 3 f_equal.
  rewrite (log_bernoullis_R n d) by auto. apply log_likelihood_mean; auto.
Qed.

(** C46.  fit performs max_iter steps of expectation maximisation; at every stage the weights are positive and add up to 1, the means
    are in [0,1], and the responsibilities, those of the last but one parameters, are positive and add up to 1 for each sample. *)
Theorem c46_fit : forall n iters d xs mu0, (1 <= n)%nat -> (1 <= d)%nat -> xs <> [] -> binary_data d xs -> matrix n d mu0 -> drawn mu0 ->
  exists s, fit Rops n iters d xs mu0 = Ok s /\ (b_pi Rops s, b_mu Rops s) = iterated (em d xs) iters (start n mu0) /\
    positive_weights n (b_pi Rops s) /\ matrix n d (b_mu Rops s) /\ unit_entries (b_mu Rops s) /\
    (forall m, iters = S m -> let q := iterated (em d xs) m (start n mu0) in
       b_gamma Rops s = map (fun x => map (posterior (fst q) (snd q) x) (seq 0 n)) xs /\
       Forall (fun row => length row = n /\ Forall (fun g => 0 < g) row /\ Rsum row = 1) (b_gamma Rops s) /\
       b_neff Rops s = map (total_weight (fst q) (snd q) xs) (seq 0 n) /\
       b_logL Rops s = mean_log_likelihood (b_pi Rops s) (b_mu Rops s) xs /\ b_old Rops s = mean_log_likelihood (fst q) (snd q) xs).
Proof.
  intros n iters d xs mu0 Hn Hd Hx Hb Hm Hr. rewrite (fit_loop n iters d xs mu0 Hn Hd Hb Hm Hr). eexists. split; [reflexivity|].
  pose proof (start_current n d xs mu0 Hn Hd Hm Hr) as Hc. cbn zeta.
  set (s0 := Bmm Rops (fst (start n mu0)) _ _ _ _ _).
  destruct (em_loop_R n d xs iters true s0 Hn Hx Hb Hc) as (I1 & I2 & I3). change (b_pi Rops s0, b_mu Rops s0) with (start n mu0) in *. change (b_mu Rops s0) with (snd (start n mu0)) in *.
  assert (Hall : forall m, current n d xs (iterated (em d xs) m (start n mu0))).
  { induction m as [|m IH]; [exact Hc|]. change (iterated (em d xs) (S m) (start n mu0)) with (em d xs (iterated (em d xs) m (start n mu0))). apply em_current; auto. }
  split; [exact I1|]. set (r := em_loop _ _ _ _ _ _ _ _) in *. destruct (Hall iters) as (C1 & C2 & C3). rewrite <- I1 in C1, C2, C3. cbn [fst snd] in C1, C2, C3.
  split; [exact C1|]. split; [exact C2|]. split; [exact C3|]. intros m E. destruct (I3 m E) as (J1 & J2 & J3 & J4). cbn zeta in *. split; [exact J1|]. split.
  - rewrite J1. apply Forall_forall. intros row Hrow. apply in_map_iff in Hrow. destruct Hrow as (x & <- & _). destruct (Hall m) as (D1 & _ & _). split; [rewrite map_length, seq_length; reflexivity|]. split.
    + apply Forall_forall. intros g Hg. apply in_map_iff in Hg. destruct Hg as (k & <- & Hk). apply in_seq in Hk. apply (posterior_pos n); auto. lia.
    + apply (posterior_sum n); auto.
  - split; [exact J2|]. split; [rewrite <- I1 in J3; exact J3|]. rewrite J4. destruct m as [|m]; [reflexivity|]. reflexivity.
Qed.
Print Assumptions c46_fit.
Theorem c46_no_components : forall (FO : fops) iters d xs mu0, fit FO 0 iters d xs mu0 = Err ZeroDivision.
Proof. reflexivity. Qed.
Print Assumptions c46_no_components.

(** A step does not decrease the likelihood, unless a mean before the step is within 1e-15 of 0 or 1. *)
Theorem c46_monotone : forall n d xs pi mu, (1 <= n)%nat -> xs <> [] -> binary_data d xs -> positive_weights n pi -> matrix n d mu -> well_inside mu ->
  mean_log_likelihood pi mu xs <= mean_log_likelihood (em_weights pi mu xs) (em_means d pi mu xs) xs.
Proof.
  intros n d xs pi mu Hn Hx Hb Hp Hm Hi. apply (em_monotone n d); auto; [|apply Hp]. split; [exact Hp|]. split; [exact Hm|]. cbn [snd].
  unfold unit_entries. eapply Forall_impl; [|exact Hi]. intros r Hr. eapply Forall_impl; [|exact Hr]. cbv beta. intros v Hv. pose proof (small_pos 15). lra.
Qed.
Print Assumptions c46_monotone.
Theorem c46_fit_monotone : forall n m d xs mu0 s, (1 <= n)%nat -> (1 <= d)%nat -> xs <> [] -> binary_data d xs -> matrix n d mu0 -> drawn mu0 ->
  fit Rops n (S m) d xs mu0 = Ok s -> well_inside (snd (iterated (em d xs) m (start n mu0))) -> b_old Rops s <= b_logL Rops s.
Proof.
  intros n m d xs mu0 s Hn Hd Hx Hb Hm Hr E Hi. destruct (c46_fit n (S m) d xs mu0 Hn Hd Hx Hb Hm Hr) as (s' & E' & H1 & _ & _ & _ & H2). rewrite E in E'. inversion E'; subst s'. clear E'.
  destruct (H2 m eq_refl) as (_ & _ & _ & -> & ->). change (iterated (em d xs) (S m) (start n mu0)) with (em d xs (iterated (em d xs) m (start n mu0))) in H1. unfold em in H1 at 1. pose proof (f_equal fst H1) as K1. pose proof (f_equal snd H1) as K2. cbn [fst snd] in K1, K2. rewrite K1, K2. clear H1 K1 K2 H2.
  destruct (c46_fit n m d xs mu0 Hn Hd Hx Hb Hm Hr) as (s' & _ & G1 & G2 & G3 & _). rewrite <- G1 in Hi |- *. cbn [fst snd] in Hi |- *. apply (c46_monotone n d); auto.
Qed.
Print Assumptions c46_fit_monotone.

(** predict gives the first component of greatest posterior; score and score_samples are the log likelihoods. *)
Theorem c46_predict : forall n d xs s, (1 <= n)%nat -> binary_data d xs -> positive_weights n (b_pi Rops s) -> matrix n d (b_mu Rops s) -> unit_entries (b_mu Rops s) ->
  length (bmm_predict Rops s xs) = length xs /\
  (forall i, (i < length xs)%nat -> first_greatest n (fun k => nth k (b_pi Rops s) 0 * component (b_mu Rops s) k (nth i xs [])) (nth i (bmm_predict Rops s xs) 0%nat)) /\
  score_samples Rops s xs = map (fun x => ln (mixture (b_pi Rops s) (b_mu Rops s) x)) xs /\ score Rops s xs = mean_log_likelihood (b_pi Rops s) (b_mu Rops s) xs.
Proof.
  intros n d xs s Hn Hb Hp Hm Hu. assert (E := log_bernoullis_R n d (b_mu Rops s) xs Hn Hm Hu Hb).
  assert (Ep : bmm_predict Rops s xs = map (fun x => fargmax Rops (map (posterior (b_pi Rops s) (b_mu Rops s) x) (seq 0 n))) xs).
  { unfold bmm_predict. rewrite E, (responsibilities_R n) by auto. apply map_map. }
  split; [rewrite Ep, map_length; reflexivity|]. split; [|split].
  - intros i Hi. rewrite Ep. rewrite (nth_indep _ 0%nat ((fun x => fargmax Rops (map (posterior (b_pi Rops s) (b_mu Rops s) x) (seq 0 n))) [])) by (rewrite map_length; auto).
    rewrite (map_nth (fun x => fargmax Rops (map (posterior (b_pi Rops s) (b_mu Rops s) x) (seq 0 n)))).
    pose proof (mixture_pos n _ (b_mu Rops s) (nth i xs []) Hn Hp) as Mp.
    apply (first_greatest_scale n _ (posterior (b_pi Rops s) (b_mu Rops s) (nth i xs [])) (/ mixture (b_pi Rops s) (b_mu Rops s) (nth i xs []))); [apply Rinv_0_lt_compat; auto|reflexivity|].
    apply fargmax_spec. auto.
  - unfold score_samples. rewrite E. apply sample_log_likelihood_R; auto.
  - unfold score. rewrite E. apply log_likelihood_mean; auto.
Qed.
Print Assumptions c46_predict.

(** Examples. *)
Example c46_ex_data : binary_data 2 [[0; 1]; [1; 1]; [0; 0]]%Z /\ matrix 2 2 [[/ 4; 3 / 4]; [/ 2; / 2]] /\ drawn [[/ 4; 3 / 4]; [/ 2; / 2]].
Proof.
  split; [repeat (apply Forall_cons; [split; [reflexivity|repeat (apply Forall_cons; [unfold is_bit; lia|]); constructor]|]); constructor|]. split; [repeat constructor|]. unfold drawn. apply Forall_cons; [|apply Forall_cons; [|constructor]]; apply Forall_cons; [lra| |lra|]; apply Forall_cons; try constructor; lra.
Qed.
Example c46_ex_inside : well_inside (snd (start 2 [[/ 4; 3 / 4]; [/ 2; / 2]])).
Proof.
  assert (H : / 10 ^ 15 < / 8) by (apply Rinv_lt_contravar; [apply Rmult_lt_0_compat; [lra|apply pow_lt; lra]|]; apply Rlt_le_trans with (10 ^ 1); [lra|apply Rle_pow; [lra|lia]]).
  set (e := / 10 ^ 15) in *. unfold start, well_inside. fold e. clearbody e. cbn [snd map normalised Rsum fold_right]. unfold normalised. cbn [map Rsum fold_right].
  apply Forall_cons; [|apply Forall_cons; [|constructor]]; (apply Forall_cons; [|apply Forall_cons; [|constructor]]); lra.
Qed.
(** One component: the means become the shares of ones. *)
Example c46_ex_step : em_means 1 [1] [[/ 2]] [[1]; [0]; [0]; [0]]%Z = [[/ 4]].
Proof.
  assert (Hp : positive_weights 1 [1]) by (split; [reflexivity|]; split; [constructor; [lra|constructor]|cbn; lra]).
  assert (P : forall x, posterior [1] [[/ 2]] x 0 = 1).
  { intro x. pose proof (posterior_sum 1 [1] [[/ 2]] x (le_n 1) Hp) as E. cbn [seq map Rsum fold_right] in E. lra. }
  unfold em_means, total_weight. cbn [length seq map]. rewrite !P. cbn. f_equal. f_equal. lra.
Qed.
