(** C112: the timestamps of runs. *)
From Coq Require Import String List NArith Bool Arith Lia.
From Verif Require Import Model.Py Model.Saving Model.SaveTable Model.Timestamp Spec.SavingSpec Spec.TimestampSpec Proofs.TimestampP Props.Saving.
Import ListNotations.
Local Open Scope N_scope.

(** A timestamp is that of an instant of the past, read at once: of the last reading, less what was lost to minutes, hours and days that
    began between the readings. *)
Theorem c112_meaning : forall start r t, in_order r -> (timestamp start r = timestamp start (at_once t) <-> sec t + lag r = sec (at_second r)).
Proof. intros start r t O. rewrite meant_iff, meant_once. pose proof (meant_lag r O). lia. Qed.
Print Assumptions c112_meaning.

(** Two timestamps are the same exactly if they stand for the same second: readings at once differ if they are not within one second. *)
Theorem c112_same : forall start a b, in_order a -> in_order b ->
  (timestamp start a = timestamp start b <-> sec (at_second a) + lag b = sec (at_second b) + lag a).
Proof. intros start a b A B. rewrite meant_iff. pose proof (meant_lag a A). pose proof (meant_lag b B). lia. Qed.
Print Assumptions c112_same.

Theorem c112_at_once : forall start s t, timestamp start (at_once s) = timestamp start (at_once t) <-> sec s = sec t.
Proof. intros. now rewrite meant_iff, !meant_once. Qed.
Print Assumptions c112_at_once.

(** The date is the one whose number is that of the first day and the days gone by since; it is a date of the calendar, and no other date has that number. *)
Theorem c112_calendar : forall start t, a_date start -> a_date (today start t) /\ ordinal (today start t) = ordinal start + sec t / 86400 /\
  forall x, a_date x -> ordinal x = ordinal start + sec t / 86400 -> x = today start t.
Proof.
  intros start t A. unfold today. change (t / 1000000) with (sec t). pose proof (iter_date start (sec t / 86400) A) as D. pose proof (iter_ordinal start (sec t / 86400) A) as O.
  repeat split; [exact D|exact O|]. intros x X E. apply ordinal_inj; [assumption..|congruence].
Qed.
Print Assumptions c112_calendar.

(** What is written: year, month and day with zeros before them, then the hour, the minute and the second without. *)
Theorem c112_text : forall start r y m d, a_date start -> today start (at_date r) = (y, m, d) -> y < 10000 ->
  exists ys ms ds hs ns ss h n s, timestamp start r = (ys ++ "-" ++ ms ++ "-" ++ ds ++ "_" ++ hs ++ "_" ++ ns ++ "_" ++ ss)%string /\
    numeral ys y /\ numeral ms m /\ numeral ds d /\ numeral hs h /\ numeral ns n /\ numeral ss s /\
    map String.length [ys; ms; ds] = [4; 2; 2]%nat /\ map String.length [hs; ns; ss] = map (fun x => if x <? 10 then 1%nat else 2%nat) [h; n; s] /\
    h < 24 /\ n < 60 /\ s < 60 /\
    sec (at_hour r) mod 86400 / 3600 = h /\ sec (at_minute r) mod 3600 / 60 = n /\ sec (at_second r) mod 60 = s.
Proof.
  intros start r y m d A T Y. destruct (c112_calendar start (at_date r) A) as (D & _ & _). rewrite T in D. apply a_date_iff in D as (D1 & D2 & D3).
  assert (ML : month_length y m <= 31) by (unfold month_length; destruct (m =? 2), (is_leap y), ((m =? 4) || (m =? 6) || (m =? 9) || (m =? 11))%bool; lia).
  assert (H1 : hour (at_hour r) < 24) by (apply N.mod_lt; lia). assert (H2 : minute (at_minute r) < 60) by (apply N.mod_lt; lia). assert (H3 : second (at_second r) < 60) by (apply N.mod_lt; lia).
  exists (padded 4 y), (padded 2 m), (padded 2 d), (dec (hour (at_hour r))), (dec (minute (at_minute r))), (dec (second (at_second r))), (hour (at_hour r)), (minute (at_minute r)), (second (at_second r)).
  repeat (split; [first [apply padded_numeral | apply dec_numeral | exact H1 | exact H2 | exact H3 | idtac]|]).
  - unfold timestamp. rewrite T. unfold show_date. rewrite !append_assoc. cbn [append]. reflexivity.
  - cbn [map]. rewrite padded_four, !padded_two by lia. reflexivity.
  - cbn [map]. rewrite !dec_short by lia. reflexivity.
  - unfold hour. change (at_hour r / 1000000) with (sec (at_hour r)). change 86400 with (3600 * 24). rewrite N.mod_mul_r, (N.mul_comm 3600 (_ mod 24)), N.div_add by lia.
    rewrite N.div_small by (apply N.mod_lt; lia). reflexivity.
  - unfold minute. change (at_minute r / 1000000) with (sec (at_minute r)). change 3600 with (60 * 60). rewrite N.mod_mul_r, (N.mul_comm 60 (_ mod 60)), N.div_add by lia.
    rewrite N.div_small by (apply N.mod_lt; lia). reflexivity.
  - reflexivity.
Qed.
Print Assumptions c112_text.

(** If the four readings take less than a minute, the timestamp is right or late by one minute, one hour or one day. *)
Theorem c112_late : forall r, in_order r -> at_second r < at_date r + 60000000 ->
  lag r = if sec (at_minute r) / 60 <? sec (at_second r) / 60 then 60
          else if sec (at_hour r) / 3600 <? sec (at_minute r) / 3600 then 3600
          else if sec (at_date r) / 86400 <? sec (at_hour r) / 86400 then 86400 else 0.
Proof.
  intros [d h m s]. unfold in_order, lag, begins. cbn [at_date at_hour at_minute at_second]. intros (O1 & O2 & O3) Q.
  assert (S1 : sec d <= sec h) by (apply N.div_le_mono; lia). assert (S2 : sec h <= sec m) by (apply N.div_le_mono; lia). assert (S3 : sec m <= sec s) by (apply N.div_le_mono; lia).
  assert (S4 : sec s <= sec d + 60). { transitivity (sec (d + 60 * 1000000)); [apply N.div_le_mono; lia|]. unfold sec. rewrite N.div_add by lia. lia. }
  assert (S5 : sec s / 60 <= sec d / 60 + 1). { transitivity ((sec d + 1 * 60) / 60); [apply N.div_le_mono; lia|]. rewrite N.div_add by lia. lia. }
  generalize dependent (sec d). generalize dependent (sec h). generalize dependent (sec m). generalize (sec s). clear. intros s m S3 h S2 d S1 S4 S5.
  replace 3600 with (60 * 60) by reflexivity. replace 86400 with (60 * 1440) by reflexivity. rewrite <- !N.div_div by lia.
  pose proof (N.div_le_mono d h 60 ltac:(lia) S1) as M1. pose proof (N.div_le_mono h m 60 ltac:(lia) S2) as M2. pose proof (N.div_le_mono m s 60 ltac:(lia) S3) as M3.
  generalize dependent (s / 60). generalize dependent (m / 60). generalize dependent (h / 60). generalize dependent (d / 60). clear. intros d h M1 m M2 s S5 M3.
  assert (H : m / 60 <= h / 60 + 1) by (transitivity ((h + 1 * 60) / 60); [apply N.div_le_mono; lia|rewrite N.div_add by lia; lia]).
  assert (D : h / 1440 <= d / 1440 + 1) by (transitivity ((d + 1 * 1440) / 1440); [apply N.div_le_mono; lia|rewrite N.div_add by lia; lia]).
  pose proof (N.div_le_mono h m 60 ltac:(lia) M2). pose proof (N.div_le_mono d h 1440 ltac:(lia) M1).
  destruct (N.ltb_spec m s).
  - replace h with m by lia. replace d with m by lia. rewrite !N.sub_diag. lia.
  - replace s with m by lia. rewrite N.sub_diag. destruct (N.ltb_spec (h / 60) (m / 60)).
    + assert (h <> m) by (intros ->; lia). replace d with h by lia. rewrite N.sub_diag. lia.
    + destruct (N.ltb_spec (d / 1440) (h / 1440)); lia.
Qed.
Print Assumptions c112_late.

(** So of any number of runs, overlapping or one after another, those whose timestamps stand for one second share a directory, and at most one
    of them reaches its end. *)
Theorem c112_runs : forall start w rs (read : nat -> reading) sched, ready w rs -> (forall i, in_order (read i)) ->
  (forall i r, nth_error rs i = Some r -> r_stamp r = timestamp start (read i)) ->
  forall i j p q, nth_error (snd (sys_run (w, launch rs) sched)) i = Some p -> nth_error (snd (sys_run (w, launch rs) sched)) j = Some q ->
    completed p -> completed q -> i <> j -> sec (at_second (read i)) - lag (read i) <> sec (at_second (read j)) - lag (read j).
Proof.
  intros start w rs read sched R O T i j p q P Q CP CQ NE E. apply NE.
  destruct (c111_same_second w rs sched R) as [H _]. cbv zeta in H.
  assert (L : forall k x, nth_error (snd (sys_run (w, launch rs) sched)) k = Some x -> exists r, nth_error rs k = Some r).
  { intros k x X. destruct (nth_error rs k) as [r|] eqn:F; [eauto|]. exfalso. apply nth_error_None in F.
    assert (G : List.length (snd (sys_run (w, launch rs) sched)) = List.length rs).
    { clear. unfold sys_run. assert (K : forall s, List.length (snd (fold_left sys_step sched s)) = List.length (snd s)).
      { induction sched as [|y l IH]; intros s; [reflexivity|]. cbn [fold_left]. rewrite IH. unfold sys_step. destruct (nth_error (snd s) (fst y)); [|reflexivity].
        destruct (step_proc (fst y) (snd y) (fst s) p) as [w' p']. cbn [snd]. apply SavingResults.set_nth_length. }
      rewrite K. apply map_length. }
    assert (k < List.length rs)%nat by (rewrite <- G; apply nth_error_Some; congruence). lia. }
  destruct (L i p P) as [r Er], (L j q Q) as [r' Er']. apply (H i j r r' p q Er Er'); try assumption.
  rewrite (T _ _ Er), (T _ _ Er'). apply meant_iff. pose proof (meant_lag _ (O i)). pose proof (meant_lag _ (O j)). lia.
Qed.
Print Assumptions c112_runs.

(** Defect: runs that begin an hour apart, and read the clock in two microseconds, can have the same timestamp. *)
Theorem c112_apart_refuted : exists start a b, a_date start /\ in_order a /\ in_order b /\ at_second a <= at_date a + 2 /\ at_second b <= at_date b + 2 /\
  at_second a + 3599 * 1000000 <= at_date b /\ timestamp start a = timestamp start b.
Proof.
  exists (2023, 2, 28), (at_once (3600 * 1000000)), {| at_date := 7200 * 1000000 - 1; at_hour := 7200 * 1000000 - 1; at_minute := 7200 * 1000000; at_second := 7200 * 1000000 + 1 |}.
  vm_compute. repeat split; discriminate.
Qed.
Print Assumptions c112_apart_refuted.

(** * Cases. *)
Definition ex_day : date := (2024, 2, 28).
Definition ex_time (d h m s : N) : N := (((d * 24 + h) * 60 + m) * 60 + s) * 1000000.
Example c112_ex : a_date ex_day /\ timestamp ex_day (at_once (ex_time 0 9 5 7)) = "2024-02-28_9_5_7"%string /\ timestamp ex_day (at_once (ex_time 2 23 59 59)) = "2024-03-01_23_59_59"%string /\
  timestamp ex_day (at_once (ex_time 307 0 0 0)) = "2024-12-31_0_0_0"%string /\ timestamp ex_day (at_once (ex_time 308 0 0 0)) = "2025-01-01_0_0_0"%string.
Proof. vm_compute. repeat split; discriminate. Qed.
(** Readings around the end of a day. *)
Example c112_ex_late : let a := ex_time 0 23 59 59 in let b := ex_time 1 0 0 0 in
  let r1 := {| at_date := a; at_hour := b; at_minute := b; at_second := b |} in
  let r2 := {| at_date := a; at_hour := a; at_minute := b; at_second := b |} in
  let r3 := {| at_date := a; at_hour := a; at_minute := a; at_second := b |} in
  in_order r1 /\ in_order r2 /\ in_order r3 /\ map lag [r1; r2; r3; at_once a; at_once b] = [86400; 3600; 60; 0; 0] /\
  map (timestamp ex_day) [r1; r2; r3] = ["2024-02-28_0_0_0"; "2024-02-28_23_0_0"; "2024-02-28_23_59_0"]%string.
Proof. vm_compute. repeat split; discriminate. Qed.
(** A run of the classifier analysis reaches its end; another one, an hour later, has the same timestamp and fails when it makes its directory. *)
Example c112_ex_runs : let b := ex_time 0 10 0 0 in
  let late := {| at_date := b - 1; at_hour := b - 1; at_minute := b; at_second := b |} in
  let rs := map (fun r => {| r_script := sv_classifier_analysis; r_stamp := timestamp ex_day r; r_args := ex_args |}) [at_once (ex_time 0 9 0 0); late] in
  map p_state (snd (sys_run (ex_disk, launch rs) (repeat (0%nat, ex_fine) 40 ++ repeat (1%nat, ex_fine) 40))) = [Running []; Raised FileExists].
Proof. vm_compute. reflexivity. Qed.
(** Centuries. *)
Example c112_ex_leap : a_date (2000, 2, 29) /\ ~ a_date (2100, 2, 29) /\ a_date (2024, 2, 29) /\ ~ a_date (2023, 2, 29) /\ ordinal (1, 1, 1) = 1 /\ ordinal (2018, 7, 15) = 736890 /\
  today (1999, 12, 31) (ex_time 60 0 0 0) = (2000, 2, 29) /\ today (2099, 12, 31) (ex_time 60 0 0 0) = (2100, 3, 1).
Proof. vm_compute. repeat split; try discriminate. intros (_ & _ & _ & H); apply H; reflexivity. intros (_ & _ & _ & H); apply H; reflexivity. Qed.
