(** The capacity curves and the entropy of flipped bits (runs/HC_eilat_July_2018/analysis/bsc_capacity.py, entropy_with_flips.py). *)
From Coq Require Import List ZArith.
From Verif.Model Require Import Py Float.
Import ListNotations.

Section Capacity.
Variable FO : fops.

(** runs/HC_eilat_July_2018/analysis/bsc_capacity.py:4  c = lambda p: 1 + (p*np.log2(p) + (1-p)*np.log2(1-p)).  Over the reals only meaningful
    for 0 < p < 1 (numpy gives nan elsewhere). *)
Definition capacity (p : F FO) : F FO :=
  fadd FO (fz FO 1) (fadd FO (fmul FO p (flog2 FO p)) (fmul FO (fsub FO (fz FO 1) p) (flog2 FO (fsub FO (fz FO 1) p)))).

(** runs/HC_eilat_July_2018/analysis/bsc_capacity.py:9  (1-r)*c(p) + r*c(p/2). *)
Definition nr_capacity (r p : F FO) : F FO :=
  fadd FO (fmul FO (fsub FO (fz FO 1) r) (capacity p)) (fmul FO r (capacity (fdiv FO p (fz FO 2)))).

(** runs/HC_eilat_July_2018/analysis/bsc_capacity.py:5  np.linspace(start, stop, num) for num > 1: start + i * step, the last one is stop itself. *)
Definition linspace (start stop : F FO) (num : nat) : list (F FO) :=
  map (fun i => fadd FO start (fmul FO (fz FO (Z.of_nat i)) (fdiv FO (fsub FO stop start) (fz FO (Z.of_nat (num - 1)))))) (seq 0 (num - 1)) ++ [stop].

(** runs/HC_eilat_July_2018/analysis/bsc_capacity.py:5-10  the abscissae and the three plotted curves.  The decimal constants are exact here. *)
Definition flips_axis : list (F FO) := linspace (fdiv FO (fz FO 3) (fz FO 100)) (fdiv FO (fz FO 1) (fz FO 10)) 50.
(** capacity = np.array([c(p) for p in f]); runs/HC_eilat_July_2018/analysis/bsc_capacity.py:6. *)
Definition capacity_curve : list (F FO) := map capacity flips_axis.
(** nr_capacity; runs/HC_eilat_July_2018/analysis/bsc_capacity.py:9. *)
Definition nr_curve : list (F FO) := map (nr_capacity (fdiv FO (fz FO 24) (fz FO 100))) flips_axis.
(** np.array([2/3] * 50); runs/HC_eilat_July_2018/analysis/bsc_capacity.py:10. *)
Definition rate_curve : list (F FO) := repeat (fdiv FO (fz FO 2) (fz FO 3)) 50.

(** runs/HC_eilat_July_2018/analysis/entropy_with_flips.py:3-5  p1 = 1 - p0, ent_real = -p0*log2(p0) - p1*log2(p1). *)
Definition ent_real (p0 : F FO) : F FO :=
  let p1 := fsub FO (fz FO 1) p0 in
  fsub FO (fmul FO (fneg FO p0) (flog2 FO p0)) (fmul FO p1 (flog2 FO p1)).

(** runs/HC_eilat_July_2018/analysis/entropy_with_flips.py:7-9  p0_measured = p0 + p_flip, and the entropy of that. *)
Definition ent_measured (p0 p_flip : F FO) : F FO :=
  let p0_measured := fadd FO p0 p_flip in
  let p1_measured := fsub FO (fz FO 1) p0_measured in
  fsub FO (fmul FO (fneg FO p0_measured) (flog2 FO p0_measured)) (fmul FO p1_measured (flog2 FO p1_measured)).
End Capacity.
