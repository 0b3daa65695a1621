(** Notions used to state the properties of the entropy aided denoiser. *)
From Coq Require Import List ZArith Reals Bool.
From Verif.Model Require Import Py Float Emle.
From Verif.Spec Require Import RealOps Info Cluster.
Import ListNotations.

(** The state after any number of updates. *)
Definition updated (FO : fops) (c : emle_conf FO) (s : emle FO) (obs : list (list Z)) : emle FO := fold_left (fun s o => fst (update_model FO c s o)) obs s.

(** The last w elements of a list. *)
Definition last_of {A} (w : nat) (l : list A) : list A := skipn (length l - w) l.
(** The observations within a window; a window that is not positive keeps everything. *)
Definition in_window {A} (w : Z) (l : list A) : list A := if (0 <? w)%Z then last_of (Z.to_nat w) l else l.
(** The number of observations the model admits to. *)
Definition admitted (w : Z) (n : nat) : nat := if (w =? 0)%Z then n else Nat.min n (Z.to_nat w).

(** The probability p of a one that explains the share m of received ones, limited to [0,1]: m = p (1 - f) + (1 - p) f. *)
Definition explains (f m p : R) : Prop :=
  (m <= f /\ p = 0 \/ 1 - f <= m /\ p = 1 \/ f < m < 1 - f /\ 0 < p < 1 /\ m = p * (1 - f) + (1 - p) * f)%R.

(** The logistic weight of a model of n observations. *)
Definition weight (center : Z) (slope : R) (n : Z) : R := if (n <=? 1)%Z then 0%R else (/ (1 + exp (- (IZR n - IZR center) * slope)))%R.

(** The log ratio of the two probabilities of a bit, kept finite. *)
Definition log_ratio (p : R) : R := ln ((1 - p + / 4503599627370496) / (p + / 4503599627370496)).

(** The sign of a log likelihood ratio as a bit. *)
Definition sign_bit (x : R) : Z := if Rlt_dec x 0 then 1%Z else 0%Z.
