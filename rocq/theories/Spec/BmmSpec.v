(** Notions used to state the properties of the Bernoulli mixture: textbook mixtures of products. *)
From Coq Require Import List ZArith Reals Bool.
From Verif.Model Require Import Py Float.
From Verif.Spec Require Import RealOps Info.
Import ListNotations.
Local Open Scope R_scope.

Definition Rprod (l : list R) : R := fold_right Rmult 1 l.
Definition at2 (m : list (list R)) (i j : nat) : R := nth j (nth i m []) 0.

(** Probabilities kept away from 0: 1e-15 in a column of values that are at most that, else at least 1e-200. *)
Definition kept_away (column : list R) (m : R) : R :=
  if forallb (fun v => if Rle_dec v (/ 10 ^ 15) then true else false) column then / 10 ^ 15 else Rmax m (/ 10 ^ 200).
Definition column_of (mu : list (list R)) (j : nat) : list R := map (fun row => nth j row 0) mu.
Definition prob_one (mu : list (list R)) (k j : nat) : R := kept_away (column_of mu j) (at2 mu k j).
Definition prob_zero (mu : list (list R)) (k j : nat) : R := kept_away (map (fun v => 1 - v) (column_of mu j)) (1 - at2 mu k j).

(** The probability of a binary vector under component k, and under the mixture; the posterior of component k. *)
Definition component (mu : list (list R)) (k : nat) (x : list Z) : R :=
  Rprod (map (fun j => if Z.eqb (nth j x 0%Z) 1 then prob_one mu k j else prob_zero mu k j) (seq 0 (length x))).
Definition mixture (pi : list R) (mu : list (list R)) (x : list Z) : R :=
  Rsum (map (fun k => nth k pi 0 * component mu k x) (seq 0 (length pi))).
Definition posterior (pi : list R) (mu : list (list R)) (x : list Z) (k : nat) : R := nth k pi 0 * component mu k x / mixture pi mu x.
Definition mean_log_likelihood (pi : list R) (mu : list (list R)) (xs : list (list Z)) : R :=
  Rsum (map (fun x => ln (mixture pi mu x)) xs) / INR (length xs).

(** Weights and means of a mixture of n components with d features. *)
Definition positive_weights (n : nat) (pi : list R) : Prop := length pi = n /\ Forall (fun p => 0 < p) pi /\ Rsum pi = 1.
Definition matrix (n d : nat) (m : list (list R)) : Prop := length m = n /\ Forall (fun r => length r = d) m.
Definition unit_entries (m : list (list R)) : Prop := Forall (Forall (fun v => 0 <= v <= 1)) m.
Definition binary_data (d : nat) (xs : list (list Z)) : Prop := Forall (fun x => length x = d /\ Forall is_bit x) xs.

(** The parameters after one step of expectation maximisation. *)
Definition total_weight (pi : list R) (mu : list (list R)) (xs : list (list Z)) (k : nat) : R := Rsum (map (fun x => posterior pi mu x k) xs).
Definition em_weights (pi : list R) (mu : list (list R)) (xs : list (list Z)) : list R :=
  map (fun k => total_weight pi mu xs k / INR (length xs)) (seq 0 (length pi)).
Definition em_means (d : nat) (pi : list R) (mu : list (list R)) (xs : list (list Z)) : list (list R) :=
  map (fun k => map (fun j => Rsum (map (fun x => posterior pi mu x k * IZR (nth j x 0%Z)) xs) / total_weight pi mu xs k) (seq 0 d)) (seq 0 (length pi)).
Definition em (d : nat) (xs : list (list Z)) (p : list R * list (list R)) : list R * list (list R) :=
  (em_weights (fst p) (snd p) xs, em_means d (fst p) (snd p) xs).

(** No mean is so close to 0 or 1 that it is kept away from it. *)
Definition well_inside (mu : list (list R)) : Prop := Forall (Forall (fun v => / 10 ^ 15 < v < 1 - / 10 ^ 15)) mu.

(** The first index below n at which f is largest. *)
Definition first_greatest (n : nat) (f : nat -> R) (u : nat) : Prop := (u < n)%nat /\ forall j, (j < n)%nat -> f j <= f u /\ ((j < u)%nat -> f j < f u).
