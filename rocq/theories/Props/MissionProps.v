(** C105: the simulated mission is what its numbers say, for all draws of the generator. *)
From Coq Require Import List Arith ZArith Reals Lra Lia Bool.
From Verif.Model Require Import Py Float Mission.
From Verif.Spec Require Import RealOps MissionSpec.
From Verif.Proofs Require Import MissionP.
Import ListNotations.
Open Scope R_scope.

(** The script never fails, every series has an entry for each of the 500 messages, and each entry is the course of the mission plus the noise. *)
Theorem c105_series (normal : nat -> nat -> list R) : (forall i n, length (normal i n) = n) ->
  exists m, mission_profile Rops (sin (30 * PI / 180)) normal = Ok m /\
  Forall (fun l : list R => length l = 500%nat)
    [mi_range m; mi_azimuth m; mi_mode m; mi_status m; mi_err m; mi_chamber_pressure m; mi_chamber_temperature m; mi_water_temp m; mi_depth m; mi_pressure m] /\
  forall i, (i < 500)%nat ->
    let draw k := nth i (normal k 500%nat) 0 in
    nth i (mi_range m) 0 = range_at i + (if (i <? 50)%nat then 0 else 2 * nth (i - 50) (normal 0%nat 450%nat) 0) /\
    nth i (mi_azimuth m) 0 = azimuth_at i + 3 * draw 1%nat /\
    nth i (mi_mode m) 0 = mode_at i /\ nth i (mi_status m) 0 = status_at i /\ nth i (mi_err m) 0 = err_at i /\
    nth i (mi_chamber_pressure m) 0 = 19 / 2 + draw 2%nat / 20 /\
    nth i (mi_chamber_temperature m) 0 = chamber_at i + 3 / 20 * draw 3%nat /\
    nth i (mi_water_temp m) 0 = 5 + 25 * exp (- depth_at i / 200) + water_sigma i * draw 5%nat /\
    nth i (mi_depth m) 0 = depth_at i + depth_sigma i ^ 2 * draw 4%nat /\
    nth i (mi_pressure m) 0 = 101325 / 1000 + 1005525 / 100000 * nth i (mi_depth m) 0.
Proof.
  intros D. eexists. split; [exact (run normal D)|]. cbv zeta.
  cbn [mi_range mi_azimuth mi_mode mi_status mi_err mi_chamber_pressure mi_chamber_temperature mi_water_temp mi_depth mi_pressure].
  change (F Rops) with R. split; [repeat (apply Forall_cons; [rewrite map_length; apply seq_length|]); apply Forall_nil|].
  intros i Hi. rewrite !nth_map_seq by exact Hi. repeat split; try reflexivity; lra.
Qed.
Print Assumptions c105_series.

(** Without noise the range changes by at most 5 metres (one second per metre, five seconds per message) from message to message, except when the
    dive starts: there it jumps from 0 to 50. *)
Theorem c105_range i : (i < 499)%nat ->
  (Rabs (range_at (S i) - range_at i) <= 5 <-> i <> 49%nat) /\ 0 <= range_at i /\ (i = 49%nat -> range_at i = 0 /\ range_at (S i) = 50).
Proof.
  intros H. pose proof far_bounds as [F1 F2].
  split; [|split].
  - split.
    + intros L ->. assert (E1 : range_at 49 = 0) by reflexivity. assert (E2 : range_at 50 = 50) by (unfold range_at; cbn; lra).
      rewrite E1, E2, Rabs_right in L; lra.
    + intros N. apply Rabs_le. unfold range_at. ranks;
      repeat match goal with |- context [INR (S i - ?k)] => replace (S i - k)%nat with (S (i - k)) by lia; rewrite (S_INR (i - k)) end; try lra.
      all: first [assert (i = 249%nat) by lia | assert (i = 349%nat) by lia | assert (i = 449%nat) by lia]; subst i; cbn [Nat.sub]; rewrite ?INR_IZR_INZ; cbn [Z.of_nat Pos.of_succ_nat Pos.succ]; lra.
  - unfold range_at. ranks; pose proof (pos_INR (i - 50)); pose proof (pos_INR (i - 250)); try lra; try nra.
    assert (INR (i - 350) <= 99) by (replace 99 with (INR 99) by (rewrite INR_IZR_INZ; reflexivity); apply le_INR; lia). lra.
  - intros ->. unfold range_at. cbn. lra.
Qed.
Print Assumptions c105_range.

(** The descent: without noise the depth increases at messages 50 to 162 and at no other one, that is for 113 messages.  The status says so for 100
    messages only: at messages 150 to 162 it says cruise while the vehicle still descends. *)
Theorem c105_dive i : (i < 499)%nat ->
  (depth_at i < depth_at (S i) <-> (50 <= i < 163)%nat) /\ (status_at i = 1 <-> (50 <= i < 150)%nat) /\ 0 <= depth_at i <= 52 /\
  ((150 <= i < 163)%nat -> depth_at i < depth_at (S i) /\ status_at i = 2).
Proof.
  intros H.
  assert (A : depth_at i < depth_at (S i) <-> (50 <= i < 163)%nat).
  { unfold depth_at. ranks; repeat match goal with |- context [INR (S i - ?k)] => replace (S i - k)%nat with (S (i - k)) by lia; rewrite (S_INR (i - k)) end;
    try (split; [intros L; try lia; exfalso; lra|intros; try lia; lra]).
    all: first [assert (i = 49%nat) by lia | assert (i = 144%nat) by lia | assert (i = 163%nat) by lia | assert (i = 449%nat) by lia]; subst i; cbn [Nat.sub]; rewrite ?INR_IZR_INZ; cbn [Z.of_nat Pos.of_succ_nat Pos.succ]; split; [intros L; try lia; exfalso; cbn in L; lra|intros; try lia; cbn; lra]. }
  assert (B : status_at i = 1 <-> (50 <= i < 150)%nat) by (unfold status_at; ranks; split; intros; try lia; lra).
  split; [exact A|]. split; [exact B|]. split.
  - assert (U : forall k n, (i - k <= n)%nat -> INR (i - k) <= INR n) by (intros; apply le_INR; assumption).
    unfold depth_at. ranks; pose proof (pos_INR (i - 50)); pose proof (pos_INR (i - 145)); pose proof (pos_INR (i - 450)); try lra.
    + pose proof (U 50%nat 94%nat ltac:(lia)) as L. rewrite (INR_IZR_INZ 94) in L. cbn [Z.of_nat Pos.of_succ_nat Pos.succ] in L. cbn in L. lra.
    + pose proof (U 145%nat 18%nat ltac:(lia)) as L. rewrite (INR_IZR_INZ 18) in L. cbn in L. lra.
    + pose proof (U 450%nat 49%nat ltac:(lia)) as L. rewrite (INR_IZR_INZ 49) in L. cbn in L. lra.
  - intros L. split; [apply A; lia|]. unfold status_at. ranks; reflexivity.
Qed.
Print Assumptions c105_dive.

(** The noise of the depth is scaled twice: where a scale of a quarter of a metre is given, a draw of 1 moves the depth by a sixteenth.  The pressure
    follows the depth with this noise, the temperature of the water the depth without it. *)
Theorem c105_noise (n1 n2 : nat -> nat -> list R) m1 m2 i : (forall k n, length (n1 k n) = n) -> (forall k n, length (n2 k n) = n) -> (i < 500)%nat ->
  mission_profile Rops (sin (30 * PI / 180)) n1 = Ok m1 -> mission_profile Rops (sin (30 * PI / 180)) n2 = Ok m2 ->
  nth i (mi_depth m1) 0 - nth i (mi_depth m2) 0 = depth_sigma i ^ 2 * (nth i (n1 4%nat 500%nat) 0 - nth i (n2 4%nat 500%nat) 0) /\
  nth i (mi_pressure m1) 0 - nth i (mi_pressure m2) 0 = 1005525 / 100000 * (nth i (mi_depth m1) 0 - nth i (mi_depth m2) 0) /\
  (n1 5%nat 500%nat = n2 5%nat 500%nat -> nth i (mi_water_temp m1) 0 = nth i (mi_water_temp m2) 0) /\
  (nth i (mi_pressure m1) 0 < 101325 / 1000 <-> nth i (mi_depth m1) 0 < 0).
Proof.
  intros D1 D2 Hi R1 R2. destruct (c105_series n1 D1) as (a & Ra & _ & Va). destruct (c105_series n2 D2) as (b & Rb & _ & Vb).
  assert (a = m1) by congruence. assert (b = m2) by congruence. subst a b.
  destruct (Va i Hi) as (_ & _ & _ & _ & _ & _ & _ & W1 & P1 & Q1). destruct (Vb i Hi) as (_ & _ & _ & _ & _ & _ & _ & W2 & P2 & Q2). cbv zeta in *.
  repeat split.
  - rewrite P1, P2. ring.
  - rewrite Q1, Q2. ring.
  - intros E. rewrite W1, W2, E. reflexivity.
  - rewrite Q1. intros. lra.
  - rewrite Q1. intros. lra.
Qed.
Print Assumptions c105_noise.

(** A mission without noise, and one whose depth is drawn one unit too low: at the surface it is above the water, by a sixteenth. *)
Definition still (_ n : nat) : list R := repeat 0 n.
Definition low (k n : nat) : list R := repeat (if Nat.eqb k 4 then -1 else 0) n.
Example c105_ex : exists m, mission_profile Rops (sin (30 * PI / 180)) still = Ok m /\
  nth 100 (mi_range m) 0 = 300 /\ nth 100 (mi_depth m) 0 = 25 /\ nth 160 (mi_depth m) 0 = 205 / 4 /\ nth 160 (mi_status m) 0 = 2.
Proof.
  destruct (c105_series still (fun _ n => repeat_length 0 n)) as (m & E & _ & V). exists m. split; [exact E|].
  assert (Z : forall k n j, nth j (still k n) 0 = 0) by (intros; unfold still; apply nth_repeat).
  destruct (V 100%nat ltac:(lia)) as (A & _ & _ & _ & _ & _ & _ & _ & B & _). destruct (V 160%nat ltac:(lia)) as (_ & _ & _ & C & _ & _ & _ & _ & G & _). cbv zeta in *.
  rewrite Z in A, B, G. rewrite A, B, C, G. unfold range_at, depth_at, status_at. cbn [Nat.ltb Nat.leb Nat.sub]. rewrite !INR_IZR_INZ. cbn [Z.of_nat Pos.of_succ_nat Pos.succ]. repeat split; cbn; lra.
Qed.
Example c105_ex_low : exists m, mission_profile Rops (sin (30 * PI / 180)) low = Ok m /\ nth 0 (mi_depth m) 0 = - (1 / 16) /\ nth 0 (mi_pressure m) 0 < 101325 / 1000.
Proof.
  destruct (c105_series low (fun _ n => repeat_length _ n)) as (m & E & _ & V). exists m. split; [exact E|].
  destruct (V 0%nat ltac:(lia)) as (_ & _ & _ & _ & _ & _ & _ & _ & B & P). cbv zeta in *.
  assert (Z : nth 0 (low 4 500) 0 = -1) by reflexivity. rewrite Z in B. rewrite P, B. unfold depth_at, depth_sigma. cbn [Nat.ltb Nat.leb]. split; lra.
Qed.
