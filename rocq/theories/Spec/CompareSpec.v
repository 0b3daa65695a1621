(** Notions used to state what the comparisons of the denoisers show. *)
From Coq Require Import List ZArith Reals Bool.
From Verif.Model Require Import Py Float Dude Emle Compare.
From Verif.Spec Require Import RealOps Info Cluster EmleSpec DudeSpec.
Import ListNotations.

(** An array of bits with n rows and m columns. *)
Definition bit_array (n m : nat) (a : list (list Z)) : Prop := length a = n /\ Forall (bits_of_length m) a.

(** The estimates of a denoiser that sees one sequence, from the beginning. *)
Definition alone {FO : fops} (d : dude FO) (received estimates : list Z) : Prop :=
  exists rs, snd (denoise_online FO d online_new received) = Ok rs /\ map fst rs = map Hard estimates.

(** The estimates of the entropy aided denoiser: each row given the rows before it. *)
Definition row_by_row (c : emle_conf Rops) (received estimates : list (list Z)) : Prop :=
  length estimates = length received /\
  forall j, j < length received -> exists cost,
    snd (denoise_hard Rops c (updated Rops c (emle_new Rops) (firstn j received)) (nth j received [])) = Ok (Bits (nth j estimates []), cost).

(** The share of the bits in which two arrays differ. *)
Definition share_differing (a b : list (list Z)) : R := (INR (differences (concat a) (concat b)) / INR (length (concat a)))%R.

(** The number of positions at which a test of truth, received and estimated bit holds. *)
Definition positions (truth received estimate : list Z) (test : Z -> Z -> Z -> bool) : nat :=
  length (filter (fun i => test (nth i truth 0%Z) (nth i received 0%Z) (nth i estimate 0%Z)) (seq 0 (length truth))).
