(** Specification of the simulations with several decoders. *)
From Coq Require Import List Arith ZArith Bool.
From Verif.Model Require Import Py Float Simulation SimVariants.
From Verif.Spec Require Import SimulationSpec.
Import ListNotations.

(** A table holds the answers of a decoder, each with the number of its wrong bits. *)
Definition tabled (sent : list (list Z)) (la : list answer) (t : list (answer * Z)) : Prop :=
  map fst t = la /\ map snd t = map Z.of_nat (wrong sent la).

(** The share of faultless answers and the share of wrong bits. *)
Definition measured (FO : fops) (n : nat) (sent : list (list Z)) (la : list answer) (t : table FO) : Prop :=
  tabled sent la (t_rows FO t) /\
  t_rate FO t = fdiv FO (fz FO (Z.of_nat (zeros (wrong sent la)))) (fz FO (Z.of_nat (length sent))) /\
  t_ber FO t = fdiv FO (fz FO (Z.of_nat (total (wrong sent la)))) (fz FO (Z.of_nat (length sent * n))).

(** Gaussian noise: the values are 1 - 2 bit + noise and the received word is 1 where they are negative. *)
Definition gaussian (FO : fops) (n : nat) (w : list Z) (noise values : list (F FO)) (r : list Z) : Prop :=
  length values = n /\ word n r /\
  forall p, p < n -> nth p values (fz FO 0) = fadd FO (fz FO (1 - 2 * nth p w 0%Z)) (nth p noise (fz FO 0)) /\
                     (nth p r 0%Z = 1%Z <-> flt FO (nth p values (fz FO 0)) (fz FO 0) = true).
