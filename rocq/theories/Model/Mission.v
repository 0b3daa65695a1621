(** Model of data_generation/mission_profile.py: the series of one simulated mission.  The draws of the generator and the sine are parameters; the
    decimal constants are exact.  The script opens mission_log.mavlink and makes a MAVLink object but sends nothing. *)
From Coq Require Import List Arith ZArith Bool.
From Verif.Model Require Import Py Float Clustering Sweep.
Import ListNotations.

Section Mission.
Variable FO : fops.
Notation F := (F FO).
(** np.sin(diving_angle), diving_angle = 30*np.pi/180; data_generation/mission_profile.py:18, 59-62. *)
Variable sine : F.
(** The i-th call of rng.normal, of the given size, before the scaling. *)
Variable normal : nat -> nat -> list F.

(** A decimal constant n / d. See data_generation/mission_profile.py:51-58. *)
Definition dec (n d : Z) : F := fdiv FO (fz FO n) (fz FO d).
(** v * np.ones(n), np.zeros(n): v * 1 is v. See data_generation/mission_profile.py:30-34. *)
Definition ones (v : F) (n : nat) : list F := repeat v n.
(** Operations of arrays, element by element; a ValueError unless the shapes agree (no array here has one element). See data_generation/mission_profile.py:30-34. *)
Definition elementwise (f : F -> F -> F) (a b : list F) : res (list F) :=
  if Nat.eqb (length a) (length b) then Ok (zip_with f a b) else Err ValueError.
(** rng.normal(scale=s, size=n) for a number and for an array of scales. See data_generation/mission_profile.py:30-34. *)
Definition scaled (i : nat) (s : F) (n : nat) : list F := map (fmul FO s) (normal i n).
(** sigma * noise; data_generation/mission_profile.py:57-58. *)
Definition scaled_by (i : nat) (s : list F) (n : nat) : res (list F) := elementwise (fmul FO) s (normal i n).

(** The final ranges of the legs; data_generation/mission_profile.py:19-29. *)
Definition initial_range : F := fz FO 50.
(** first_leg_final_range; data_generation/mission_profile.py:27. *)
Definition first_leg_final_range : F := fadd FO initial_range (fz FO (1 * 5 * 199)).
(** second_leg_final_range; data_generation/mission_profile.py:28. *)
Definition second_leg_final_range : F :=
  fsqrt FO (fadd FO (fmul FO first_leg_final_range first_leg_final_range) (fz FO ((1 * 5 * 99) * (1 * 5 * 99)))).
(** third_leg_final_range; data_generation/mission_profile.py:29. *)
Definition third_leg_final_range : F := fsub FO second_leg_final_range (fz FO (1 * 5 * 99)).

(** pinger_range; data_generation/mission_profile.py:30-34. *)
Definition range_noise : list F := ones (fz FO 0) 50 ++ scaled 0 (fz FO 2) (500 - 50).
(** The range without noise; data_generation/mission_profile.py:31-34. *)
Definition range_profile : res (list F) :=
  do! a <- linspace FO initial_range first_leg_final_range 200 in
  do! b <- linspace FO first_leg_final_range second_leg_final_range 100 in
  do! c <- linspace FO second_leg_final_range third_leg_final_range 100 in
  Ok (ones (fz FO 0) 50 ++ a ++ b ++ c ++ ones third_leg_final_range 50).
(** pinger_range; data_generation/mission_profile.py:31-34. *)
Definition pinger_range : res (list F) := do! p <- range_profile in elementwise (fadd FO) p range_noise.

(** azimuth; data_generation/mission_profile.py:38-41. *)
Definition azimuth : res (list F) :=
  elementwise (fadd FO) (ones (fz FO 0) 50 ++ ones (fz FO 0) 200 ++ ones (fz FO 90) 100 ++ ones (fz FO 120) 100 ++ ones (fz FO 120) 50)
              (scaled 1 (fz FO 3) 500).

(** hc_mode, hc_system_status, hc_err; data_generation/mission_profile.py:45-47. *)
Definition hc_mode : list F := ones (fz FO 0) 50 ++ ones (fz FO 2) 100 ++ ones (fz FO 2) 300 ++ ones (fz FO 4) 50.
(** hc_system_status; data_generation/mission_profile.py:46. *)
Definition hc_system_status : list F := ones (fz FO 0) 50 ++ ones (fz FO 1) 100 ++ ones (fz FO 2) 300 ++ ones (fz FO 4) 50.
(** hc_err; data_generation/mission_profile.py:47. *)
Definition hc_err : list F := ones (fz FO 0) 450 ++ ones (fz FO 8) 50.

(** chamber_pressure, camber_temperature; data_generation/mission_profile.py:51-53. *)
Definition chamber_pressure : res (list F) := elementwise (fadd FO) (ones (dec 19 2) 500) (scaled 2 (dec 1 20) 500).
(** camber_temperature; data_generation/mission_profile.py:52-53. *)
Definition chamber_temperature : res (list F) :=
  do! a <- linspace FO (fz FO 39) (fz FO 41) 50 in
  do! b <- linspace FO (fz FO 41) (fz FO 37) 300 in
  do! c <- linspace FO (fz FO 37) (fz FO 39) 35 in
  elementwise (fadd FO) (a ++ b ++ ones (fz FO 37) 115 ++ c) (scaled 3 (dec 3 20) 500).

(** depth before the noise, and its noise; data_generation/mission_profile.py:57-62. *)
Definition depth_noise_sig : list F := ones (dec 1 4) 60 ++ ones (dec 3 20) 410 ++ ones (dec 1 4) 30.
(** depth_noise; data_generation/mission_profile.py:58. *)
Definition depth_noise : res (list F) := do! z <- scaled_by 4 depth_noise_sig 500 in elementwise (fmul FO) depth_noise_sig z.
(** depth without noise; data_generation/mission_profile.py:59-62. *)
Definition depth_profile : res (list F) :=
  do! a <- linspace FO (fz FO 0) (fmul FO (fz FO 94) sine) 95 in
  do! b <- linspace FO (fmul FO (fz FO 95) sine) (fmul FO (fz FO 104) sine) 19 in
  do! c <- linspace FO (fmul FO (fz FO 104) sine) (fz FO 0) 50 in
  Ok (ones (fz FO 0) 50 ++ a ++ b ++ ones (fmul FO (fz FO 104) sine) 286 ++ c).

(** water_temp, then depth with its noise, then pressure; data_generation/mission_profile.py:64-68. *)
Definition water_temp_noise : res (list F) :=
  elementwise (fmul FO) (ones (dec 2 5) 60 ++ ones (dec 3 20) 420 ++ ones (dec 3 10) 20) (normal 5 500).
(** water_temp; data_generation/mission_profile.py:64-66. *)
Definition water_temp (profile : list F) : res (list F) :=
  do! noise <- water_temp_noise in
  elementwise (fadd FO) (map (fun d => fadd FO (fz FO 5) (fmul FO (fz FO 25) (fexp FO (fdiv FO (fneg FO d) (fz FO 200))))) profile) noise.
(** pressure; data_generation/mission_profile.py:67-68. *)
Definition pressure (depth : list F) : list F :=
  map (fun d => fadd FO (dec 101325 1000) (fdiv FO (fmul FO (fmul FO (fz FO 1025) (dec 981 100)) d) (fz FO 1000))) depth.

(** The whole script: the series it leaves behind. See data_generation/mission_profile.py:5-68. *)
Record mission := Mission { mi_range : list F; mi_azimuth : list F; mi_mode : list F; mi_status : list F; mi_err : list F;
  mi_chamber_pressure : list F; mi_chamber_temperature : list F; mi_water_temp : list F; mi_depth : list F; mi_pressure : list F }.
(** The whole function; data_generation/mission_profile.py:5-68. *)
Definition mission_profile : res mission :=
  do! range <- pinger_range in
  do! az <- azimuth in
  do! cp <- chamber_pressure in
  do! ct <- chamber_temperature in
  do! dn <- depth_noise in
  do! profile <- depth_profile in
  do! wt <- water_temp profile in
  do! depth <- elementwise (fadd FO) profile dn in
  Ok (Mission range az hc_mode hc_system_status hc_err cp ct wt depth (pressure depth)).
End Mission.
Arguments mi_range {FO}.
Arguments mi_azimuth {FO}.
Arguments mi_mode {FO}.
Arguments mi_status {FO}.
Arguments mi_err {FO}.
Arguments mi_chamber_pressure {FO}.
Arguments mi_chamber_temperature {FO}.
Arguments mi_water_temp {FO}.
Arguments mi_depth {FO}.
Arguments mi_pressure {FO}.
