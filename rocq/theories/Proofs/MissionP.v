(** Lemmas on the mission. *)
From Coq Require Import List Arith ZArith Reals Lra Lia Bool.
From Verif.Model Require Import Py Float Clustering Sweep Mission.
From Verif.Spec Require Import RealOps MissionSpec.
Import ListNotations.
Open Scope R_scope.

Lemma lin_R (a b : R) (num : Z) : (1 < num)%Z ->
  linspace Rops a b num = Ok (map (fun i => a + (b - a) / IZR (num - 1) * INR i) (seq 0 (Z.to_nat num))).
Proof.
  intros H. unfold linspace. destruct (Z.ltb_spec num 0) as [C|_]; [lia|]. f_equal. apply map_ext_in. intros i Hi. apply in_seq in Hi.
  assert (N : IZR (num - 1) <> 0) by (apply not_0_IZR; lia).
  destruct (Z.ltb_spec 1 num) as [_|C]; [|lia]. destruct (Z.ltb_spec 0 (num - 1)) as [_|C]; [|lia].
  destruct (Z.eqb_spec (Z.of_nat i) (num - 1)) as [E|E]; cbn [andb].
  - rewrite INR_IZR_INZ, E. change (@eq R b (a + (b - a) / IZR (num - 1) * IZR (num - 1))). field. exact N.
  - cbv zeta. change (feq Rops) with Reqb. unfold Reqb. change (fz Rops) with IZR. change (fadd Rops) with Rplus. change (fmul Rops) with Rmult. change (fdiv Rops) with Rdiv. change (fsub Rops) with Rminus.
    rewrite INR_IZR_INZ. destruct (Req_EM_T _ _); change (F Rops) with R; field; exact N.
Qed.

Lemma ones_map (v : R) n : ones Rops v n = map (fun _ => v) (seq 0 n).
Proof. unfold ones. generalize 0%nat. induction n as [|n IH]; intros s; cbn [repeat seq map]; [reflexivity|]. f_equal. apply IH. Qed.

Lemma seq_shift_gen {A} (g : nat -> A) a b : forall s, map g (seq s b) = map (fun i => g (i - a)%nat) (seq (a + s) b).
Proof.
  induction b as [|b IH]; intros s; cbn [seq map]; [reflexivity|]. replace (a + s - a)%nat with s by lia. f_equal.
  rewrite IH. replace (a + Datatypes.S s)%nat with (Datatypes.S (a + s)) by lia. reflexivity.
Qed.
Lemma seq_shift_map {A} (g : nat -> A) a b : map g (seq 0 b) = map (fun i => g (i - a)%nat) (seq a b).
Proof. rewrite (seq_shift_gen g a b 0), Nat.add_0_r. reflexivity. Qed.
Lemma pieces {A} (f g : nat -> A) a b : map f (seq 0 a) ++ map g (seq 0 b) = map (fun i => if (i <? a)%nat then f i else g (i - a)%nat) (seq 0 (a + b)).
Proof.
  rewrite seq_app, map_app, (seq_shift_map g a b). cbn [Nat.add]. f_equal; apply map_ext_in; intros i Hi; apply in_seq in Hi.
  - destruct (Nat.ltb_spec i a); [reflexivity|lia].
  - destruct (Nat.ltb_spec i a); [lia|reflexivity].
Qed.
Lemma nth_list {A} (l : list A) d : l = map (fun i => nth i l d) (seq 0 (length l)).
Proof. induction l as [|x l IH]; cbn [length seq map]; [reflexivity|]. f_equal. rewrite <- seq_shift, map_map. exact IH. Qed.
Lemma normal_map (normal : nat -> nat -> list R) (d : R) i n : length (normal i n) = n -> normal i n = map (fun j => nth j (normal i n) d) (seq 0 n).
Proof. intros H. rewrite (nth_list (normal i n) d) at 1. rewrite H. reflexivity. Qed.
Lemma elementwise_map (op : R -> R -> R) (f g : nat -> R) n :
  elementwise Rops op (map f (seq 0 n)) (map g (seq 0 n)) = Ok (map (fun i => op (f i) (g i)) (seq 0 n)).
Proof.
  unfold elementwise. rewrite !map_length, Nat.eqb_refl. f_equal. unfold zip_with. generalize 0%nat.
  induction n as [|n IH]; intros s; cbn [seq map combine fst snd]; [reflexivity|]. f_equal. apply IH.
Qed.
Lemma elementwise_ext (op : R -> R -> R) (a b : list R) (f g : nat -> R) n : a = map f (seq 0 n) -> b = map g (seq 0 n) ->
  elementwise Rops op a b = Ok (map (fun i => op (f i) (g i)) (seq 0 n)).
Proof. intros -> ->. apply elementwise_map. Qed.
Lemma sin_30 : sin (30 * PI / 180) = 1 / 2.
Proof. replace (30 * PI / 180) with (PI / 6) by field. apply sin_PI6. Qed.

Ltac ranks := repeat match goal with |- context [(?a <? ?b)%nat] => destruct (Nat.ltb_spec a b); try lia end.

Ltac fin_piece := try reflexivity; try (rewrite <- ?Nat.sub_add_distr; cbn [Nat.add Z.sub Z.add Z.opp Z.pos_sub Pos.pred_double Z.pred_double Z.double]; first [reflexivity|lra|field]).

Section Run.
Variable normal : nat -> nat -> list R.
Hypothesis draws : forall i n, length (normal i n) = n.
Notation z i n j := (nth j (normal i n) 0).

Lemma scaled_map k (s : R) n : scaled Rops normal k s n = map (fun j => s * z k n j) (seq 0 n).
Proof using draws. unfold scaled. rewrite (normal_map normal 0 k n (draws k n)) at 1. rewrite map_map. reflexivity. Qed.

Lemma first_leg : first_leg_final_range Rops = 1045.
Proof. change (50 + 995 = 1045). lra. Qed.
Lemma second_leg : second_leg_final_range Rops = far.
Proof. unfold second_leg_final_range, far. rewrite first_leg. change (sqrt (1045 * 1045 + IZR (495 * 495)) = sqrt (1045 * 1045 + 495 * 495)). rewrite mult_IZR. reflexivity. Qed.
Lemma third_leg : third_leg_final_range Rops = far - 495.
Proof. unfold third_leg_final_range. rewrite second_leg. reflexivity. Qed.

Lemma range_run : pinger_range Rops normal = Ok (map (fun i => range_at i + (if (i <? 50)%nat then 0 else 2 * z 0%nat 450%nat (i - 50)%nat)) (seq 0 500)).
Proof using draws.
  unfold pinger_range, range_profile. rewrite !lin_R by lia. cbn [bind].
  apply elementwise_ext.
  - rewrite !ones_map. change (Z.to_nat 200) with 200%nat. change (Z.to_nat 100) with 100%nat. rewrite !pieces.
    rewrite third_leg, second_leg, first_leg. change (initial_range Rops) with 50.
    apply map_ext_in. intros i Hi. unfold range_at. ranks; fin_piece.
  - unfold range_noise. rewrite ones_map, scaled_map, pieces. apply map_ext_in. intros i Hi. ranks; reflexivity.
Qed.

Lemma azimuth_run : azimuth Rops normal = Ok (map (fun i => azimuth_at i + 3 * z 1%nat 500%nat i) (seq 0 500)).
Proof using draws.
  unfold azimuth. apply elementwise_ext; [|apply scaled_map]. rewrite !ones_map, !pieces. apply map_ext_in. intros i Hi. apply in_seq in Hi.
  unfold azimuth_at. ranks; reflexivity.
Qed.
Lemma mode_run : hc_mode Rops = map mode_at (seq 0 500).
Proof. unfold hc_mode. rewrite !ones_map, !pieces. apply map_ext_in. intros i Hi. unfold mode_at. ranks; reflexivity. Qed.
Lemma status_run : hc_system_status Rops = map status_at (seq 0 500).
Proof. unfold hc_system_status. rewrite !ones_map, !pieces. apply map_ext_in. intros i Hi. unfold status_at. ranks; reflexivity. Qed.
Lemma err_run : hc_err Rops = map err_at (seq 0 500).
Proof. unfold hc_err. rewrite !ones_map, !pieces. apply map_ext_in. intros i Hi. unfold err_at. ranks; reflexivity. Qed.
Lemma chamber_pressure_run : chamber_pressure Rops normal = Ok (map (fun i => 19 / 2 + 1 / 20 * z 2%nat 500%nat i) (seq 0 500)).
Proof using draws. unfold chamber_pressure. apply elementwise_ext; [apply ones_map|apply scaled_map]. Qed.
Lemma chamber_temperature_run : chamber_temperature Rops normal = Ok (map (fun i => chamber_at i + 3 / 20 * z 3%nat 500%nat i) (seq 0 500)).
Proof using draws.
  unfold chamber_temperature. rewrite !lin_R by lia. cbn [bind]. apply elementwise_ext; [|apply scaled_map].
  rewrite ones_map. change (Z.to_nat 50) with 50%nat. change (Z.to_nat 300) with 300%nat. change (Z.to_nat 35) with 35%nat. rewrite !pieces.
  change (fz Rops) with IZR. apply map_ext_in. intros i Hi. unfold chamber_at. ranks; fin_piece.
Qed.
Lemma sigma_run : depth_noise_sig Rops = map depth_sigma (seq 0 500).
Proof. unfold depth_noise_sig. rewrite !ones_map, !pieces. apply map_ext_in. intros i Hi. apply in_seq in Hi. unfold depth_sigma. ranks; reflexivity. Qed.
Lemma depth_noise_run : depth_noise Rops normal = Ok (map (fun i => depth_sigma i * (depth_sigma i * z 4%nat 500%nat i)) (seq 0 500)).
Proof using draws.
  unfold depth_noise, scaled_by. rewrite (elementwise_ext _ _ _ depth_sigma (fun i => z 4%nat 500%nat i) 500 sigma_run (normal_map normal 0 4 500 (draws _ _))).
  cbn [bind]. apply elementwise_ext; [apply sigma_run|reflexivity].
Qed.
Lemma depth_run : depth_profile Rops (sin (30 * PI / 180)) = Ok (map depth_at (seq 0 500)).
Proof.
  unfold depth_profile. rewrite sin_30, !lin_R by lia. cbn [bind]. rewrite !ones_map.
  change (Z.to_nat 95) with 95%nat. change (Z.to_nat 19) with 19%nat. change (Z.to_nat 50) with 50%nat. rewrite !pieces. f_equal.
  change (fz Rops) with IZR. change (fmul Rops) with Rmult. apply map_ext_in. intros i Hi. unfold depth_at. ranks; fin_piece.
Qed.
Lemma water_run : water_temp Rops normal (map depth_at (seq 0 500))
  = Ok (map (fun i => 5 + 25 * exp (- depth_at i / 200) + water_sigma i * z 5%nat 500%nat i) (seq 0 500)).
Proof using draws.
  unfold water_temp, water_temp_noise. rewrite (elementwise_ext _ _ _ water_sigma (fun i => z 5%nat 500%nat i) 500).
  - cbn [bind]. apply elementwise_ext; [|reflexivity]. rewrite map_map. reflexivity.
  - rewrite !ones_map, !pieces. apply map_ext_in. intros i Hi. unfold water_sigma. ranks; reflexivity.
  - apply normal_map, draws.
Qed.

Lemma run : mission_profile Rops (sin (30 * PI / 180)) normal = Ok (
  let depth i := depth_at i + depth_sigma i * (depth_sigma i * z 4%nat 500%nat i) in
  Mission Rops (map (fun i => range_at i + (if (i <? 50)%nat then 0 else 2 * z 0%nat 450%nat (i - 50)%nat)) (seq 0 500))
    (map (fun i => azimuth_at i + 3 * z 1%nat 500%nat i) (seq 0 500)) (map mode_at (seq 0 500)) (map status_at (seq 0 500)) (map err_at (seq 0 500))
    (map (fun i => 19 / 2 + 1 / 20 * z 2%nat 500%nat i) (seq 0 500)) (map (fun i => chamber_at i + 3 / 20 * z 3%nat 500%nat i) (seq 0 500))
    (map (fun i => 5 + 25 * exp (- depth_at i / 200) + water_sigma i * z 5%nat 500%nat i) (seq 0 500))
    (map depth (seq 0 500)) (map (fun i => 101325 / 1000 + 1025 * (981 / 100) * depth i / 1000) (seq 0 500))).
Proof using draws.
  unfold mission_profile. rewrite range_run. cbn [bind]. rewrite azimuth_run. cbn [bind]. rewrite chamber_pressure_run. cbn [bind].
  rewrite chamber_temperature_run. cbn [bind]. rewrite depth_noise_run. cbn [bind]. rewrite depth_run. cbn [bind]. rewrite water_run. cbn [bind].
  rewrite (elementwise_map Rplus depth_at). cbn [bind]. rewrite mode_run, status_run, err_run. unfold pressure. rewrite map_map. reflexivity.
Qed.
End Run.

Lemma nth_map_seq (f : nat -> R) n i d : (i < n)%nat -> nth i (map f (seq 0 n)) d = f i.
Proof. intros H. rewrite (nth_indep _ d (f 0%nat)) by (rewrite map_length, seq_length; exact H). rewrite map_nth, seq_nth by exact H. reflexivity. Qed.

Lemma far_bounds : 1045 < far /\ far < 1540.
Proof.
  unfold far. assert (Q : sqrt (1045 * 1045 + 495 * 495) * sqrt (1045 * 1045 + 495 * 495) = 1045 * 1045 + 495 * 495) by (apply sqrt_sqrt; lra).
  pose proof (sqrt_pos (1045 * 1045 + 495 * 495)) as P. split; nra.
Qed.
