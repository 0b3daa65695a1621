(** The estimate of the probability of a noisy bit; analysis/MLE_noisy_Bernoulli.py. *)
From Coq Require Import List ZArith Bool.
From Verif.Model Require Import Py Float Clustering.
Import ListNotations.

Section NoisyMle.
Variable FO : fops.
Notation F := (F FO).

(** [np.mod(x + w, 2)]; MLE_noisy_Bernoulli.py:21. *)
Definition noisy (x w : list Z) : list Z := zip_with (fun a b => ((a + b) mod 2)%Z) x w.
(** [np.mean(x)] of an array of integers; MLE_noisy_Bernoulli.py:22. *)
Definition v_hat (x : list Z) : F := fdiv FO (fz FO (fold_right Z.add 0%Z x)) (fz FO (Z.of_nat (length x))).
(** [(v_hat-f)/(1-2*f)] and its limitation to [0, 1]; MLE_noisy_Bernoulli.py:27. *)
Definition raw_hat (f v : F) : F := fdiv FO (fsub FO v f) (fsub FO (fz FO 1) (fmul FO (fz FO 2) f)).
(** The estimate; analysis/MLE_noisy_Bernoulli.py:27. *)
Definition p1_hat (f v : F) : F := fclip FO (raw_hat f v) (fz FO 0) (fz FO 1).

(** Python's max of an array; ValueError for an empty one. See MLE_noisy_Bernoulli.py:15-35. *)
Definition largest (l : list F) : res F := match l with [] => Err ValueError | x :: t => Ok (fold_left (fun a b => if flt FO a b then b else a) t x) end.
(** [np.power(l, 2).mean()]. See MLE_noisy_Bernoulli.py:15-35. *)
Definition mean_square (l : list F) : F := fmean FO (map (fun x => fmul FO x x) l).

(** One row of the results; analysis/MLE_noisy_Bernoulli.py:15-35. *)
Record mle_row := MleRow { mr_error : list F; mr_ignorant : list F; mr_ignorant_max : F; mr_ignorant_mse : F; mr_max : F; mr_mse : F }.
(** The row of results for p1 and f, given the drawn samples and noises; MLE_noisy_Bernoulli.py:15-35.  The scipy generators are replaced by the
    list of what they draw. *)
Definition mle_step (p1 f : F) (trials : list (list Z * list Z)) : res mle_row :=
  let v := map (fun xw => v_hat (noisy (fst xw) (snd xw))) trials in
  let ignorant := map (fun v => fabs FO (fsub FO v p1)) v in
  let ml := map (fun v => fabs FO (fsub FO (p1_hat f v) p1)) v in
  do! im <- largest ignorant in
  do! mm <- largest ml in
  Ok (MleRow ml ignorant im (mean_square ignorant) mm (mean_square ml)).
End NoisyMle.
