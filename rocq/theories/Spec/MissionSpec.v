(** The course of the mission of data_generation/mission_profile.py without noise, message by message (0 to 499), over the reals. *)
From Coq Require Import Reals Arith.
Open Scope R_scope.

(** The distance after the second leg, which is a right angle to the first. *)
Definition far : R := sqrt (1045 * 1045 + 495 * 495).
(** The distance to the pinger: 0 on the surface, a first leg away from it, a second across, a third back. *)
Definition range_at (i : nat) : R :=
  if (i <? 50)%nat then 0
  else if (i <? 250)%nat then 50 + 5 * INR (i - 50)
  else if (i <? 350)%nat then 1045 + (far - 1045) / 99 * INR (i - 250)
  else if (i <? 450)%nat then far - 5 * INR (i - 350)
  else far - 495.
(** The depth: surface, descent in two steps, cruise, ascent. *)
Definition depth_at (i : nat) : R :=
  if (i <? 50)%nat then 0
  else if (i <? 145)%nat then INR (i - 50) / 2
  else if (i <? 164)%nat then 95 / 2 + INR (i - 145) / 4
  else if (i <? 450)%nat then 52
  else 52 - 52 / 49 * INR (i - 450).
Definition azimuth_at (i : nat) : R := if (i <? 250)%nat then 0 else if (i <? 350)%nat then 90 else 120.
Definition mode_at (i : nat) : R := if (i <? 50)%nat then 0 else if (i <? 450)%nat then 2 else 4.
Definition status_at (i : nat) : R := if (i <? 50)%nat then 0 else if (i <? 150)%nat then 1 else if (i <? 450)%nat then 2 else 4.
Definition err_at (i : nat) : R := if (i <? 450)%nat then 0 else 8.
Definition chamber_at (i : nat) : R :=
  if (i <? 50)%nat then 39 + 2 / 49 * INR i
  else if (i <? 350)%nat then 41 - 4 / 299 * INR (i - 50)
  else if (i <? 465)%nat then 37
  else 37 + 2 / 34 * INR (i - 465).
(** The scale of the noise of the depth and of the water's temperature. *)
Definition depth_sigma (i : nat) : R := if (i <? 60)%nat then 1 / 4 else if (i <? 470)%nat then 3 / 20 else 1 / 4.
Definition water_sigma (i : nat) : R := if (i <? 60)%nat then 2 / 5 else if (i <? 480)%nat then 3 / 20 else 3 / 10.
