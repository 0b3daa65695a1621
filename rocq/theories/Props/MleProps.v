(** C82, C83: the estimate of the probability of a noisy bit. *)
From Coq Require Import List Arith ZArith QArith Bool Lia Reals Lra Psatz.
From Verif.Model Require Import Py Float InfoTheory Clustering Emle NoisyMle.
From Verif.Spec Require Import RealOps Info Cluster EmleSpec MleSpec.
From Verif.Proofs Require Import EmleP MleP.
Import ListNotations.
Local Open Scope R_scope.

(** C82.  After any history the stored probability of each bit is the one that makes what the window holds most likely, and the only one. *)
Theorem c82_emle : forall (c : emle_conf Rops) n obs i p', 0 <= e_f Rops c < / 2 -> obs <> [] -> Forall (bits_of_length n) obs -> (i < n)%nat -> 0 <= p' <= 1 ->
  let p := nth i (e_p1 Rops (updated Rops c (emle_new Rops) obs)) 0 in
  let seen := map (fun b => nth i b 0%Z) (in_window (e_window Rops c) obs) in
  0 <= p <= 1 /\ (p' <> p -> likelihood (e_f Rops c) p' seen < likelihood (e_f Rops c) p seen).
Proof.
  intros c n obs i p' Hf Hne Ho Hi Hp' p seen. assert (I : emle_inv Rops c n obs (updated Rops c (emle_new Rops) obs)) by (apply updated_inv; [lia|]; eapply Forall_impl; [|exact Ho]; intros b [L _]; exact L).
  destruct (emle_values c n obs _ i Hf Hne Ho I Hi) as [E _]. fold p in E. split; [eapply explains_unit; exact E|]. intros Hd. apply explains_clip in E; [|exact Hf].
  assert (Hw : Forall (bits_of_length n) (in_window (e_window Rops c) obs)).
  { unfold in_window, last_of. destruct (0 <? _)%Z; [|exact Ho]. rewrite <- (firstn_skipn (length obs - Z.to_nat (e_window Rops c)) obs) in Ho. apply Forall_app in Ho. apply Ho. }
  assert (Hn : seen <> []).
  { unfold seen. intro K. apply (f_equal (@length Z)) in K. rewrite map_length in K. unfold in_window, last_of in K. destruct (Z.ltb_spec 0 (e_window Rops c)); [rewrite skipn_length in K|]; destruct obs; try contradiction; cbn [length] in K; lia. }
  unfold share in E. rewrite (votes_ones _ i n Hw Hi) in E. fold seen in E. assert (Ls : length (in_window (e_window Rops c) obs) = length seen) by (unfold seen; rewrite map_length; reflexivity). rewrite Ls in E.
  apply (clip_maximum (e_f Rops c) seen p p'); auto; lra.
Qed.
Print Assumptions c82_emle.

(** The same of the formula of the analysis, for every noise but one half. *)
Theorem c82_formula : forall f bits p', 0 <= f <= 1 -> f <> / 2 -> Forall is_bit bits -> bits <> [] -> 0 <= p' <= 1 ->
  let p := p1_hat Rops f (v_hat Rops bits) in
  0 <= p <= 1 /\ (p' <> p -> likelihood f p' bits < likelihood f p bits).
Proof.
  intros f bits p' Hf Hh Hb Hn Hp' p. assert (E : p = Rmax 0 (Rmin 1 ((INR (ones bits) / INR (length bits) - f) / (1 - 2 * f)))) by (unfold p; rewrite p1_hat_R, (v_hat_R bits Hb); reflexivity).
  split; [|intros Hd; apply (clip_maximum f bits p p'); auto]. rewrite E. unfold Rmax, Rmin. repeat destruct (Rle_dec _ _); lra.
Qed.
Print Assumptions c82_formula.

(** Five observations 1 1 0 1 1 with noise 1/10: the share of ones is 4/5, the estimate (4/5 - 1/10) / (8/10) = 7/8. *)
Example c82_ex : p1_hat Rops (1 / 10) (v_hat Rops [1; 1; 0; 1; 1]%Z) = 7 / 8 /\ p1_hat Rops (1 / 10) (v_hat Rops [0; 0; 0; 0; 0]%Z) = 0 /\
  likelihood (1 / 10) (7 / 8) [1; 1; 0; 1; 1]%Z = (4 / 5) * ((4 / 5) * ((1 / 5) * ((4 / 5) * (4 / 5)))).
Proof.
  split; [|split].
  - rewrite p1_hat_R, v_hat_R by (repeat constructor; unfold is_bit; auto). cbn. unfold Rmax, Rmin. repeat destruct (Rle_dec _ _); lra.
  - rewrite p1_hat_R, v_hat_R by (repeat constructor; unfold is_bit; auto). cbn. unfold Rmax, Rmin. repeat destruct (Rle_dec _ _); lra.
  - unfold likelihood, arrives. cbn. lra.
Qed.

(** C83.  Independent bits sent through the channel arrive as independent bits. *)
Theorem c83_channel : forall n p f (g : list Z -> R), mean_of n p (fun x => mean_of n f (fun w => g (noisy x w))) = mean_of n (arrives p f) g.
Proof. exact mean_channel. Qed.
Print Assumptions c83_channel.

(** The share of ones that arrive is wrong by f (1 - 2 p) on average; its mean square error. *)
Theorem c83_ignorant : forall n p f, (0 < n)%nat -> 
  mean_of n (arrives p f) (v_hat Rops) - p = f * (1 - 2 * p) /\
  mean_of n (arrives p f) (fun y => (v_hat Rops y - p) * (v_hat Rops y - p)) = arrives p f * (1 - arrives p f) / INR n + (f * (1 - 2 * p)) * (f * (1 - 2 * p)).
Proof.
  intros n p f Hn. assert (Pn : 0 < INR n) by (apply lt_0_INR; exact Hn). set (q := arrives p f). assert (Eq : q = arrives p f) by reflexivity. split.
  - rewrite (mean_ext n q (v_hat Rops) (fun l => 0 * (INR (ones l) * INR (ones l)) + / INR n * INR (ones l) + 0)).
    2: { intros l L B. rewrite (v_hat_R l B), L. unfold Rdiv. ring. }
    rewrite mean_square_poly. rewrite Eq. unfold arrives. field. lra.
  - rewrite (mean_ext n q (fun y => (v_hat Rops y - p) * (v_hat Rops y - p)) (fun l => (/ INR n * / INR n) * (INR (ones l) * INR (ones l)) + (- 2 * p * / INR n) * INR (ones l) + p * p)).
    2: { intros l L B. rewrite (v_hat_R l B), L. unfold Rdiv. ring. }
    rewrite mean_square_poly. rewrite Eq. unfold arrives. field. lra.
Qed.
Print Assumptions c83_ignorant.

(** The corrected share is right on average; its mean square error. *)
Theorem c83_corrected : forall n p f, (0 < n)%nat -> f <> / 2 ->
  mean_of n (arrives p f) (fun y => raw_hat Rops f (v_hat Rops y)) = p /\
  mean_of n (arrives p f) (fun y => (raw_hat Rops f (v_hat Rops y) - p) * (raw_hat Rops f (v_hat Rops y) - p)) = arrives p f * (1 - arrives p f) / (INR n * ((1 - 2 * f) * (1 - 2 * f))).
Proof.
  intros n p f Hn Hh. assert (Pn : 0 < INR n) by (apply lt_0_INR; exact Hn). assert (D : 1 - 2 * f <> 0) by lra. set (q := arrives p f). assert (Eq : q = arrives p f) by reflexivity.
  assert (Er : forall v, raw_hat Rops f v = (v - f) / (1 - 2 * f)) by reflexivity. split.
  - rewrite (mean_ext n q (fun y => raw_hat Rops f (v_hat Rops y)) (fun l => 0 * (INR (ones l) * INR (ones l)) + (/ INR n * / (1 - 2 * f)) * INR (ones l) + (- f * / (1 - 2 * f)))).
    2: { intros l L B. rewrite Er, (v_hat_R l B), L. field. lra. }
    rewrite mean_square_poly. rewrite Eq. unfold arrives. field. lra.
  - rewrite (mean_ext n q (fun y => (raw_hat Rops f (v_hat Rops y) - p) * (raw_hat Rops f (v_hat Rops y) - p))
      (fun l => (/ INR n * / INR n * / ((1 - 2 * f) * (1 - 2 * f))) * (INR (ones l) * INR (ones l)) + (2 * / INR n * / (1 - 2 * f) * (- f * / (1 - 2 * f) - p)) * INR (ones l) + (- f * / (1 - 2 * f) - p) * (- f * / (1 - 2 * f) - p))).
    2: { intros l L B. rewrite !Er, (v_hat_R l B), L. field. lra. }
    rewrite mean_square_poly. rewrite Eq. unfold arrives. field. lra.
Qed.
Print Assumptions c83_corrected.

(** Limiting it to [0, 1] never makes an error larger, nor the mean square error. *)
Theorem c83_clipped : forall n p f, 0 <= p <= 1 -> 0 <= f <= 1 ->
  (forall v, Rabs (p1_hat Rops f v - p) <= Rabs (raw_hat Rops f v - p)) /\
  mean_of n (arrives p f) (fun y => (p1_hat Rops f (v_hat Rops y) - p) * (p1_hat Rops f (v_hat Rops y) - p)) <=
  mean_of n (arrives p f) (fun y => (raw_hat Rops f (v_hat Rops y) - p) * (raw_hat Rops f (v_hat Rops y) - p)).
Proof.
  intros n p f Hp Hf. assert (Er : forall v, raw_hat Rops f v = (v - f) / (1 - 2 * f)) by reflexivity.
  assert (G : forall v, Rabs (p1_hat Rops f v - p) <= Rabs (raw_hat Rops f v - p)).
  { intros v. rewrite p1_hat_R, Er. set (x := (v - f) / (1 - 2 * f)). unfold Rabs, Rmax, Rmin. repeat destruct (Rle_dec _ _); repeat destruct (Rcase_abs _); lra. }
  split; [exact G|]. apply mean_mono; [unfold arrives; nra|]. intros l _ _. apply Rsqr_le_abs_1. apply G.
Qed.
Print Assumptions c83_clipped.

(** Yet the most likely value is not always the better estimate: for fair bits it can be worse than the share of ones. *)
Theorem c83_better_refuted : exists n p f, 0 <= p <= 1 /\ 0 < f < / 2 /\
  mean_of n (arrives p f) (fun y => (v_hat Rops y - p) * (v_hat Rops y - p)) < mean_of n (arrives p f) (fun y => (p1_hat Rops f (v_hat Rops y) - p) * (p1_hat Rops f (v_hat Rops y) - p)).
Proof.
  exists 3%nat, (/ 2), (/ 4). split; [lra|]. split; [lra|]. destruct (c83_ignorant 3 (/ 2) (/ 4) ltac:(lia)) as [_ ->].
  rewrite (mean_ext 3 _ (fun y => (p1_hat Rops (/ 4) (v_hat Rops y) - / 2) * (p1_hat Rops (/ 4) (v_hat Rops y) - / 2)) (fun l => match ones l with 1%nat | 2%nat => / 9 | _ => / 4 end)).
  2: { intros l L B. rewrite p1_hat_R, (v_hat_R l B), L. pose proof (ones_length l) as O. rewrite L in O. destruct (ones l) as [|[|[|[|k]]]]; [| | | |lia]; cbn [INR]; unfold Rmax, Rmin; repeat destruct (Rle_dec _ _); lra. }
  unfold arrives. cbn. lra.
Qed.
Print Assumptions c83_better_refuted.

(** The row of results: the errors of all trials, their largest and their mean square; without trials ValueError. *)
Theorem c83_row : forall p1 f trials, trials <> [] -> exists row, mle_step Rops p1 f trials = Ok row /\
  let v := map (fun xw => v_hat Rops (noisy (fst xw) (snd xw))) trials in
  mr_ignorant Rops row = map (fun v => Rabs (v - p1)) v /\ mr_error Rops row = map (fun v => Rabs (p1_hat Rops f v - p1)) v /\
  is_largest (mr_ignorant_max Rops row) (mr_ignorant Rops row) /\ is_largest (mr_max Rops row) (mr_error Rops row) /\
  mr_ignorant_mse Rops row = Rsum (map (fun v => (v - p1) * (v - p1)) v) / INR (length trials) /\ mr_mse Rops row = Rsum (map (fun v => (p1_hat Rops f v - p1) * (p1_hat Rops f v - p1)) v) / INR (length trials).
Proof.
  intros p1 f trials Hn. unfold mle_step. set (v := map (fun xw => v_hat Rops (noisy (fst xw) (snd xw))) trials). cbv zeta.
  destruct (largest_R (map (fun v => Rabs (v - p1)) v)) as (im & Ei & Mi); [intro K; apply map_eq_nil in K; apply map_eq_nil in K; contradiction|].
  destruct (largest_R (map (fun v => Rabs (p1_hat Rops f v - p1)) v)) as (mm & Em & Mm); [intro K; apply map_eq_nil in K; apply map_eq_nil in K; contradiction|].
  cbn [fabs fsub Rops] in *. change (F Rops) with R in *. rewrite Ei. cbn [bind]. rewrite Em. cbn [bind]. eexists. split; [reflexivity|]. cbn [mr_ignorant mr_error mr_ignorant_max mr_max mr_ignorant_mse mr_mse].
  split; [reflexivity|]. split; [reflexivity|]. split; [exact Mi|]. split; [exact Mm|].
  assert (Lv : length v = length trials) by apply map_length.
  split; rewrite <- Lv; apply mean_squares.
Qed.
Print Assumptions c83_row.
Theorem c83_no_trials : forall p1 f, mle_step Rops p1 f [] = Err ValueError.
Proof. reflexivity. Qed.
Print Assumptions c83_no_trials.

(** Two trials of four bits with p1 = 1/2 and f = 1/10: the shares that arrive are 3/4 and 0, the estimates 13/16 and 0. *)
Definition ex_row (r : res (mle_row Qops)) : option (list Q * list Q * Q * Q * Q * Q) :=
  match r with Ok r => Some (mr_ignorant Qops r, mr_error Qops r, mr_ignorant_max Qops r, mr_ignorant_mse Qops r, mr_max Qops r, mr_mse Qops r) | Err _ => None end.
Definition ex_reduced (r : option (list Q * list Q * Q * Q * Q * Q)) :=
  match r with Some (a, b, c, d, e, g) => Some (map Qred a, map Qred b, map Qred [c; d; e; g]) | None => None end.
Example c83_ex : ex_reduced (ex_row (mle_step Qops (1 # 2)%Q (1 # 10)%Q [([1; 0; 1; 0], [0; 0; 0; 1]); ([1; 0; 0; 0], [1; 0; 0; 0])]%Z)) =
  Some ([1 # 4; 1 # 2]%Q, [5 # 16; 1 # 2]%Q, [1 # 2; 5 # 32; 1 # 2; 89 # 512]%Q).
Proof. vm_compute. reflexivity. Qed.
