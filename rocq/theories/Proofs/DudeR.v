(** The decisions of the denoisers over exact reals. *)
From Coq Require Import List ZArith Reals Lra Psatz Bool Lia Arith.
From Verif.Model Require Import Py Float Dude.
From Verif.Spec Require Import RealOps DudeSpec.
From Verif.Proofs Require Import Base RealP InfoP PerfP DudeP.
Import ListNotations.
Local Close Scope R_scope.

Lemma list_seq {A} (l : list A) d : l = map (fun i => nth i l d) (seq 0 (length l)).
Proof. rewrite (map_seq_nth (fun x => x) l d). symmetry. apply map_id. Qed.

Lemma mcol_R n m j : length m = n -> mcol Rops m j = map (fun x => ent m x j) (seq 0 n).
Proof. intro H. unfold mcol. rewrite (list_seq m []) at 1. rewrite H, map_map. reflexivity. Qed.

Lemma vecmat_R n (f : nat -> R) m : length m = n ->
  vecmat Rops n (map f (seq 0 n)) m = map (fun j => Rsum (map (fun x => f x * ent m x j)%R (seq 0 n))) (seq 0 n).
Proof.
  intro H. unfold vecmat. apply map_ext. intro j. rewrite (mcol_R n) by auto. unfold vmul. change (F Rops) with R. rewrite combine_map_seq, map_map. cbn [fst snd].
  apply fsum_R.
Qed.
Lemma vmul_R n (f g : nat -> R) : vmul Rops (map f (seq 0 n)) (map g (seq 0 n)) = map (fun x => f x * g x)%R (seq 0 n).
Proof. unfold vmul. change (F Rops) with R. rewrite combine_map_seq, map_map. reflexivity. Qed.

(** ** argmin *)
Lemma argmin_from_spec (f : nat -> R) t : forall i best, best < i -> (forall j, j < i -> (f best <= f j)%R /\ (j < best -> (f best < f j)%R)) ->
  first_least (i + t) f (argmin_from Rops (map f (seq i t)) i best (f best)).
Proof.
  induction t as [|t IH]; intros i best Hb H; cbn [seq map argmin_from].
  - rewrite Nat.add_0_r. split; auto.
  - replace (i + S t) with (S i + t) by lia. cbn [flt Rops]. destruct (Rltb (f i) (f best)) eqn:E.
    + apply (proj1 (Rltb_spec _ _)) in E. apply IH; [lia|]. intros j Hj. destruct (Nat.eq_dec j i) as [->|N]; [split; [lra|lia]|].
      destruct (H j ltac:(lia)) as [X _]. split; intros; lra.
    + apply (proj1 (Rltb_false _ _)) in E. apply IH; [lia|]. intros j Hj. destruct (Nat.eq_dec j i) as [->|N]; [split; [lra|lia]|]. apply H. lia.
Qed.
Lemma argmin_spec n (f : nat -> R) : 1 <= n -> first_least n f (argmin Rops (map f (seq 0 n))).
Proof.
  intro H. destruct n as [|n]; [lia|]. cbn [seq map argmin]. apply (argmin_from_spec f n 1 0); [lia|]. intros j Hj. replace j with 0 by lia. split; [lra|lia].
Qed.

Lemma counts_fz n (counts : list Z) : length counts = n -> map (fz Rops) counts = map (fun y => IZR (nth y counts 0%Z)) (seq 0 n).
Proof. intro H. rewrite (list_seq counts 0%Z) at 1. rewrite H, map_map. reflexivity. Qed.

Lemma decide_hard d counts obs n : d_hard Rops d = true -> d_size Rops d = n -> 1 <= n -> length counts = n ->
  length (d_channel Rops d) = n -> length (d_inv Rops d) = n -> length (d_loss Rops d) = n ->
  let f := loss_of n (d_channel Rops d) (d_inv Rops d) (d_loss Rops d) counts obs in
  exists u, decide Rops d counts obs = Ok (Hard (Z.of_nat u), f u) /\ first_least n f u.
Proof.
  intros Hh En Hn Lc L1 L2 L3 f. unfold decide. rewrite Hh, En, (counts_fz n) by auto.
  rewrite vecmat_R, (mcol_R n), vmul_R, vecmat_R by auto. cbn zeta. eexists. split; [|apply (argmin_spec n f); auto].
  f_equal. f_equal. pose proof (argmin_spec n f Hn) as [Hu _].
  change (map (fun j => Rsum (map (fun x => (Rsum (map (fun x0 => IZR (nth x0 counts 0%Z) * ent (d_inv Rops d) x0 x) (seq 0 n)) * ent (d_channel Rops d) x obs) * ent (d_loss Rops d) x j)%R (seq 0 n))) (seq 0 n)) with (map f (seq 0 n)).
  change (F Rops) with R. rewrite nth_indep with (d' := f 0) by (rewrite map_length, seq_length; exact Hu).
  rewrite map_nth, seq_nth by exact Hu. reflexivity.
Qed.

(** ** The binary symmetric channel *)
Lemma bsc_inverse delta mi : (0 <= delta < / 2)%R -> inverse_of 2 (bsc delta) mi ->
  let q := (/ (1 - 2 * delta))%R in
  ent mi 0 0 = ((1 - delta) * q)%R /\ ent mi 0 1 = (- delta * q)%R /\ ent mi 1 0 = (- delta * q)%R /\ ent mi 1 1 = ((1 - delta) * q)%R.
Proof.
  intros Hd H q. assert (Hq : ((1 - 2 * delta) * q = 1)%R) by (unfold q; apply Rinv_r; lra).
  pose proof (H 0 0 ltac:(lia) ltac:(lia)) as H00. pose proof (H 0 1 ltac:(lia) ltac:(lia)) as H01. pose proof (H 1 0 ltac:(lia) ltac:(lia)) as H10. pose proof (H 1 1 ltac:(lia) ltac:(lia)) as H11.
  cbn [seq map Rsum fold_right Nat.eqb] in *. 
  set (a := ent mi 0 0) in *. set (b := ent mi 0 1) in *. set (c := ent mi 1 0) in *. set (e := ent mi 1 1) in *.
  cbn [bsc ent nth] in H00, H01, H10, H11. unfold bsc, ent in H00, H01, H10, H11. cbn [nth] in H00, H01, H10, H11. clearbody a b c e. clear H.
  assert (D : (1 - 2 * delta <> 0)%R) by lra.
  repeat split; apply (Rmult_eq_reg_l (1 - 2 * delta)); auto.
  - transitivity ((1 - delta) * ((1 - 2 * delta) * q))%R; [rewrite Hq|ring].
    replace ((1 - 2 * delta) * a)%R with ((1 - delta) * ((1 - delta) * a + (delta * c + 0)) - delta * (delta * a + ((1 - delta) * c + 0)))%R by ring. rewrite H00, H10. ring.
  - transitivity (- delta * ((1 - 2 * delta) * q))%R; [rewrite Hq|ring].
    replace ((1 - 2 * delta) * b)%R with ((1 - delta) * ((1 - delta) * b + (delta * e + 0)) - delta * (delta * b + ((1 - delta) * e + 0)))%R by ring. rewrite H01, H11. ring.
  - transitivity (- delta * ((1 - 2 * delta) * q))%R; [rewrite Hq|ring].
    replace ((1 - 2 * delta) * c)%R with ((1 - delta) * (delta * a + ((1 - delta) * c + 0)) - delta * ((1 - delta) * a + (delta * c + 0)))%R by ring. rewrite H00, H10. ring.
  - transitivity ((1 - delta) * ((1 - 2 * delta) * q))%R; [rewrite Hq|ring].
    replace ((1 - 2 * delta) * e)%R with ((1 - delta) * (delta * b + ((1 - delta) * e + 0)) - delta * ((1 - delta) * b + (delta * e + 0)))%R by ring. rewrite H01, H11. ring.
Qed.

Lemma bsc_losses delta mi c0 c1 obs : (0 <= delta < / 2)%R -> inverse_of 2 (bsc delta) mi -> obs < 2 ->
  let q := (/ (1 - 2 * delta))%R in
  let f := loss_of 2 (bsc delta) mi hamming_loss [c0; c1] obs in
  let t := (2 * delta * (1 - delta) * (IZR c0 + IZR c1))%R in
  (f 1%nat - f 0%nat)%R = (q * (if Nat.eqb obs 0 then IZR c0 - t else t - IZR c1))%R.
Proof.
  intros Hd Hi Ho q f t. destruct (bsc_inverse delta mi Hd Hi) as (E00 & E01 & E10 & E11). fold q in E00, E01, E10, E11.
  unfold f, loss_of, input_counts. cbn [seq map Rsum fold_right]. rewrite E00, E01, E10, E11. unfold t.
  destruct obs as [|[|o]]; [| |lia]; unfold ent, bsc, hamming_loss; cbn [nth Nat.eqb]; ring.
Qed.

Lemma bsc_rule delta mi c0 c1 obs u : (0 <= delta < / 2)%R -> inverse_of 2 (bsc delta) mi -> obs < 2 ->
  first_least 2 (loss_of 2 (bsc delta) mi hamming_loss [c0; c1] obs) u ->
  let t := (2 * delta * (1 - delta) * (IZR c0 + IZR c1))%R in
  (obs = 0 -> (u <> obs <-> IZR c0 < t)%R) /\ (obs = 1 -> (u <> obs <-> IZR c1 <= t)%R).
Proof.
  intros Hd Hi Ho [Hu Hf] t. assert (Q : (0 < / (1 - 2 * delta))%R) by (apply Rinv_0_lt_compat; lra).
  pose proof (bsc_losses delta mi c0 c1 obs Hd Hi Ho) as E. cbn zeta in E. fold t in E.
  set (f := loss_of 2 (bsc delta) mi hamming_loss [c0; c1] obs) in *. set (q := (/ (1 - 2 * delta))%R) in *. clearbody q t.
  destruct (Hf 0 ltac:(lia)) as [A0 B0]. destruct (Hf 1 ltac:(lia)) as [A1 B1].
  split; intros ->; cbn [Nat.eqb] in E.
  - destruct u as [|[|u]]; [| |lia].
    + split; [congruence|]. intro L. exfalso. assert (q * (t - IZR c0) > 0)%R by (apply Rmult_lt_0_compat; lra). lra.
    + split; [intros _|discriminate]. specialize (B0 ltac:(lia)). destruct (Rlt_le_dec (IZR c0) t) as [|L]; [auto|].
      exfalso. assert (0 <= q * (IZR c0 - t))%R by (apply Rmult_le_pos; lra). lra.
  - destruct u as [|[|u]]; [| |lia].
    + split; [intros _|discriminate]. destruct (Rle_lt_dec (IZR c1) t) as [|L]; [auto|]. exfalso. assert (0 < q * (IZR c1 - t))%R by (apply Rmult_lt_0_compat; lra). lra.
    + split; [congruence|]. intro L. exfalso. specialize (B0 ltac:(lia)). assert (0 <= q * (t - IZR c1))%R by (apply Rmult_le_pos; lra). lra.
Qed.

(** ** Soft decisions *)
Lemma inverse_rows m mi : noisy_binary_channel m -> inverse_of 2 m mi -> (ent mi 0 0 + ent mi 0 1 = 1 /\ ent mi 1 0 + ent mi 1 1 = 1)%R.
Proof.
  intros (a & b & c & e & -> & Ha & Hb & Hc & He & S1 & S2) H.
  pose proof (H 0 0 ltac:(lia) ltac:(lia)) as H00. pose proof (H 0 1 ltac:(lia) ltac:(lia)) as H01. pose proof (H 1 0 ltac:(lia) ltac:(lia)) as H10. pose proof (H 1 1 ltac:(lia) ltac:(lia)) as H11.
  cbn [seq map Rsum fold_right Nat.eqb] in *.
  set (p := ent mi 0 0) in *. set (q := ent mi 0 1) in *. set (r := ent mi 1 0) in *. set (s := ent mi 1 1) in *.
  unfold ent in H00, H01, H10, H11. cbn [nth] in H00, H01, H10, H11. clearbody p q r s. clear H.
  assert (D : ((a * e - b * c) * (p * s - q * r) = 1)%R).
  { transitivity ((a * p + (b * r + 0)) * (c * q + (e * s + 0)) - (a * q + (b * s + 0)) * (c * p + (e * r + 0)))%R; [ring|]. rewrite H00, H01, H10, H11. ring. }
  assert (D0 : (a * e - b * c <> 0)%R) by (intro Z; rewrite Z in D; lra).
  assert (X1 : (a * (p + q - 1) + b * (r + s - 1) = 0)%R).
  { transitivity ((a * p + (b * r + 0)) + (a * q + (b * s + 0)) - (a + b))%R; [ring|]. rewrite H00, H01, S1. ring. }
  assert (X2 : (c * (p + q - 1) + e * (r + s - 1) = 0)%R).
  { transitivity ((c * p + (e * r + 0)) + (c * q + (e * s + 0)) - (c + e))%R; [ring|]. rewrite H10, H11, S2. ring. }
  split; apply Rminus_diag_uniq; apply (Rmult_eq_reg_l (a * e - b * c)); auto.
  - transitivity (e * (a * (p + q - 1) + b * (r + s - 1)) - b * (c * (p + q - 1) + e * (r + s - 1)))%R; [ring|]. rewrite X1, X2. ring.
  - transitivity (a * (c * (p + q - 1) + e * (r + s - 1)) - c * (a * (p + q - 1) + b * (r + s - 1)))%R; [ring|]. rewrite X1, X2. ring.
Qed.

Lemma smoothed_pos x y : (1 <= x + y)%R -> (0 < fst (smoothed x y) /\ 0 < snd (smoothed x y))%R.
Proof. intro H. unfold smoothed. destruct (Rlt_dec x 1); [cbn; lra|]. destruct (Rlt_dec y 1); cbn; lra. Qed.

Lemma soft_positive m mi c0 c1 obs : noisy_binary_channel m -> inverse_of 2 m mi -> (1 <= c0 + c1)%Z -> obs < 2 ->
  let w := soft_weights m mi [c0; c1] obs in (0 < fst w /\ 0 < snd w)%R.
Proof.
  intros Hm Hi Hc Ho. destruct (inverse_rows m mi Hm Hi) as [R0 R1]. unfold soft_weights. cbn zeta. cbn [fst snd].
  assert (S1 : (1 <= input_counts 2 mi [c0; c1] 0 + input_counts 2 mi [c0; c1] 1)%R).
  { unfold input_counts. cbn [seq map Rsum fold_right nth].
    replace (IZR c0 * ent mi 0 0 + (IZR c1 * ent mi 1 0 + 0) + (IZR c0 * ent mi 0 1 + (IZR c1 * ent mi 1 1 + 0)))%R
      with (IZR c0 * (ent mi 0 0 + ent mi 0 1) + IZR c1 * (ent mi 1 0 + ent mi 1 1))%R by ring. rewrite R0, R1, !Rmult_1_r, <- plus_IZR. apply (IZR_le 1). exact Hc. }
  destruct (smoothed_pos _ _ S1) as [P0 P1].
  destruct Hm as (a & b & c & e & -> & Ha & Hb & Hc' & He & _).
  assert (E : (0 < ent [[a; b]; [c; e]] 0 obs)%R /\ (0 < ent [[a; b]; [c; e]] 1 obs)%R) by (destruct obs as [|[|o]]; [| |lia]; unfold ent; cbn [nth]; auto).
  split; apply Rmult_lt_0_compat; tauto.
Qed.

Lemma decide_soft d counts obs : d_hard Rops d = false -> d_size Rops d = 2 -> length counts = 2 -> length (d_channel Rops d) = 2 -> length (d_inv Rops d) = 2 -> length (d_loss Rops d) = 2 ->
  let p := soft_estimate (d_channel Rops d) (d_inv Rops d) counts obs in decide Rops d counts obs = Ok (@Soft Rops p, soft_loss (d_loss Rops d) p).
Proof.
  intros Hh En Lc L1 L2 L3 p. unfold decide. rewrite Hh.
  assert (Es : smooth_posterior Rops d counts obs = Ok p).
  { unfold smooth_posterior. rewrite En, (counts_fz 2), vecmat_R, (mcol_R 2) by auto.
  set (x := input_counts 2 (d_inv Rops d) counts 0). set (y := input_counts 2 (d_inv Rops d) counts 1).
  change (map (fun j => Rsum (map (fun x0 => (IZR (nth x0 counts 0%Z) * ent (d_inv Rops d) x0 j)%R) (seq 0 2))) (seq 0 2)) with [x; y].
  assert (E : (let tmp := (if flt Rops x (fz Rops 1) then [fz Rops 1; fsub Rops (fsum Rops [fz Rops 1; y]) (fz Rops 1)]
        else if flt Rops y (fz Rops 1) then [fsub Rops (fsum Rops [x; fz Rops 1]) (fz Rops 1); fz Rops 1] else [x; y]) in
      let tmp := vmul Rops tmp (map (fun x0 => ent (d_channel Rops d) x0 obs) (seq 0 2)) in map (fun v => fdiv Rops v (fsum Rops tmp)) tmp) = p).
  { unfold p, soft_estimate, soft_weights, smoothed. fold x y. cbn [flt fz Rops]. unfold Rltb.
    assert (G : forall u v, (let tmp := vmul Rops [u; v] (map (fun x0 => ent (d_channel Rops d) x0 obs) (seq 0 2)) in map (fun v => fdiv Rops v (fsum Rops tmp)) tmp)
       = [(u * ent (d_channel Rops d) 0 obs) / (u * ent (d_channel Rops d) 0 obs + v * ent (d_channel Rops d) 1 obs); (v * ent (d_channel Rops d) 1 obs) / (u * ent (d_channel Rops d) 0 obs + v * ent (d_channel Rops d) 1 obs)]%R).
    { intros u v. unfold vmul. cbn [seq map combine fst snd]. unfold fsum. cbn [fold_left fadd fmul fdiv fz Rops]. rewrite Rplus_0_l. reflexivity. }
    destruct (Rlt_dec x 1); [|destruct (Rlt_dec y 1)]; cbn [fst snd]; rewrite G; unfold fsum; cbn [fold_left fadd fsub fz Rops].
    - replace (0 + 1 + y - 1)%R with y by ring. reflexivity.
    - replace (0 + x + 1 - 1)%R with x by ring. reflexivity.
    - reflexivity. }
    exact (f_equal (@Ok (list R)) E). }
  rewrite Es. cbn [bind]. rewrite En. f_equal. f_equal. unfold soft_loss.
  assert (Ep : p = map (fun i => nth i p 0%R) (seq 0 2)) by reflexivity.
  rewrite Ep at 1 2. change (F Rops) with R. rewrite vecmat_R, vmul_R by auto. apply fsum_R.
Qed.

Lemma soft_distribution m mi counts obs : (0 < fst (soft_weights m mi counts obs))%R -> (0 < snd (soft_weights m mi counts obs))%R ->
  exists p0 p1, soft_estimate m mi counts obs = [p0; p1] /\ (0 < p0)%R /\ (0 < p1)%R /\ (p0 + p1 = 1)%R.
Proof.
  intros H0 H1. unfold soft_estimate. set (w := soft_weights m mi counts obs) in *. do 2 eexists. split; [reflexivity|].
  assert (P : (0 < / (fst w + snd w))%R) by (apply Rinv_0_lt_compat; lra). unfold Rdiv. repeat split; try (apply Rmult_lt_0_compat; auto). field. lra.
Qed.
