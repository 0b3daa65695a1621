(** The flip probabilities of a simulation and the numbers of errors they stand for; runs/HC_eilat_July_2018/simulated_data_combined_decoder.py
    66 and 168, and the same lines of the other simulations. *)
From Coq Require Import List ZArith Bool.
From Verif.Model Require Import Py Float.
Import ListNotations.

Section Sweep.
Variable FO : fops.
Notation F := (F FO).
(** int(x): towards zero; an error for nan and inf. *)
Variable fint : F -> res Z.

(** np.linspace(start, stop, num) (not in /repo), of two floats. See runs/HC_eilat_July_2018/simulated_data_combined_decoder.py:66. *)
Definition linspace (start stop : F) (num : Z) : res (list F) :=
  if (num <? 0)%Z then Err ValueError
  else
    let delta := fsub FO stop start in
    let div := (num - 1)%Z in
    let scaled (y : F) :=
      if (0 <? div)%Z
      then let step := fdiv FO delta (fz FO div) in if feq FO step (fz FO 0) then fmul FO (fdiv FO y (fz FO div)) delta else fmul FO y step
      else fmul FO y delta in
    Ok (map (fun i => if (1 <? num)%Z && Z.eqb (Z.of_nat i) div then stop else fadd FO (scaled (fz FO (Z.of_nat i))) start) (seq 0 (Z.to_nat num))).

(** no_errors = int(encoder.n * p). See runs/HC_eilat_July_2018/simulated_data_combined_decoder.py:168. *)
Definition no_errors (n : Z) (p : F) : res Z := fint (fmul FO (fz FO n) p).
(** The numbers of errors of all the probabilities. See runs/HC_eilat_July_2018/simulated_data_combined_decoder.py:66, 168. *)
Definition sweep (n : Z) (minflip maxflip : F) (nflips : Z) : res (list Z) := do! ps <- linspace minflip maxflip nflips in map_res (no_errors n) ps.
End Sweep.
