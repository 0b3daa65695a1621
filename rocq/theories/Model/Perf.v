(** Model of utils/performance_analysis.py. *)
From Coq Require Import List ZArith Bool.
From Verif.Model Require Import Py Float InfoTheory.
Import ListNotations.

Section Perf.
Variable FO : fops.
Notation F := (F FO).

(** The element types of bit arrays: signed integers, or numpy.uint8 whose subtraction wraps. See utils/performance_analysis.py:35-42. *)
Inductive dtype := Signed | UInt8.

(** np.abs(a - b) of two elements. See utils/performance_analysis.py:35-42. *)
Definition abs_diff (t : dtype) (a b : Z) : Z := match t with Signed => Z.abs (a - b) | UInt8 => ((a - b) mod 256)%Z end.

(** ber; utils/performance_analysis.py:35-42.  Simplified: both arrays have the same type and, else ValueError, the same length
    (numpy also repeats an array of length one). *)
Definition ber (t : dtype) (ground_truth predicted : list Z) : res F :=
  if Nat.eqb (length ground_truth) (length predicted)
  then Ok (fdiv FO (fz FO (fold_right Z.add 0%Z (map (fun xy => abs_diff t (fst xy) (snd xy)) (combine ground_truth predicted))))
                   (fz FO (Z.of_nat (length ground_truth))))
  else Err ValueError.

(** Numbers or nan; 0 / 0 is nan (a positive number over 0 does not occur below); utils/performance_analysis.py:10-31. *)
Definition div0 (a b : nat) : option F :=
  if Nat.eqb b 0 then None else Some (fdiv FO (fz FO (Z.of_nat a)) (fz FO (Z.of_nat b))).

(** Row and column sums and the diagonal of a confusion matrix. See utils/performance_analysis.py:5-32. *)
Definition entry_at (cm : list (list nat)) (i j : nat) : nat := nth j (nth i cm []) 0.
(** The sum of a row; utils/performance_analysis.py:5-32. *)
Definition row_sum (cm : list (list nat)) (i : nat) : nat := list_sum (nth i cm []).
(** The sum of a column; utils/performance_analysis.py:5-32. *)
Definition col_sum (cm : list (list nat)) (j : nat) : nat := list_sum (map (fun r => nth j r 0) cm).
(** The number of classes; utils/performance_analysis.py:5-32. *)
Definition classes (cm : list (list nat)) : list nat := seq 0 (length cm).

(** x == 0 for a possibly nan entry: what numpy's all() calls false. See utils/performance_analysis.py:5-32. *)
Definition is_zero (x : option F) : bool := match x with None => false | Some v => feq FO v (fz FO 0) end.

(** stats; utils/performance_analysis.py:5-32, on a given square confusion matrix (sklearn's confusion_matrix is external).
    "no_true_positives[label] is True" compares a numpy.bool_ with True by identity, hence is always False.
    Results: recall, precision, f1, accuracy. *)
Definition stats (cm : list (list nat)) : list (option F) * list (option F) * list (option F) * option F :=
  let recall := map (fun i => div0 (entry_at cm i i) (row_sum cm i)) (classes cm) in
  let precision :=
    if forallb (fun j => negb (Nat.eqb (col_sum cm j) 0)) (classes cm)
    then map (fun j => div0 (entry_at cm j j) (col_sum cm j)) (classes cm)
    else map (fun j => if Nat.eqb (col_sum cm j) 0 then Some (fz FO 0) else div0 (entry_at cm j j) (col_sum cm j)) (classes cm) in
  let plus a b := match a, b with Some x, Some y => Some (fadd FO x y) | _, _ => None end in
  let denominator := map (fun pr => plus (fst pr) (snd pr)) (combine precision recall) in
  let f p r d := match p, r, d with
                 | Some p, Some r, Some d => Some (fdiv FO (fmul FO (fz FO 2) (fmul FO p r)) d)
                 | _, _, _ => None
                 end in
  let f1 :=
    if forallb (fun d => negb (is_zero d)) denominator
    then map (fun x => f (fst (fst x)) (snd (fst x)) (snd x)) (combine (combine precision recall) denominator)
    else map (fun x => match snd x with
                       | Some d => if flt FO (fz FO 0) d then f (fst (fst x)) (snd (fst x)) (snd x) else Some (fz FO 0)
                       | None => Some (fz FO 0)
                       end) (combine (combine precision recall) denominator) in
  (recall, precision, f1, div0 (list_sum (map (fun i => entry_at cm i i) (classes cm))) (list_sum (map list_sum cm))).
End Perf.

(** np.intersect1d and np.setdiff1d of integers: sorted, without repetitions. See decoders/mavlink_decoder.py:12-19. *)
Definition intersect1d (a b : list Z) : list Z := filter (fun v => existsb (Z.eqb v) b) (unique a).
(** np.setdiff1d; decoders/mavlink_decoder.py:12-19. *)
Definition setdiff1d (a b : list Z) : list Z := filter (fun v => negb (existsb (Z.eqb v) b)) (unique a).

(** confusion; decoders/mavlink_decoder.py:12-19: true positive, false positive, true negative, false negative, positive,
    negative. *)
Definition confusion (predicted_positive actual_positive : list Z) (negative : Z) : list Z :=
  let true_positive := length (intersect1d predicted_positive actual_positive) in
  let false_positive := length (setdiff1d predicted_positive actual_positive) in
  let false_negative := length (setdiff1d actual_positive predicted_positive) in
  let true_negative := (negative - Z.of_nat false_positive)%Z in
  [Z.of_nat true_positive; Z.of_nat false_positive; true_negative; Z.of_nat false_negative; Z.of_nat (length actual_positive);
   negative].
