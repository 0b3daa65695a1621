(** Vocabulary of the claims about the denoiser and the models of bits in double precision. *)
From Coq Require Import List NArith ZArith Reals Bool.
From Flocq Require Import Core.
From Verif.Model Require Import Py Float Emle DecoderBase.
From Verif.Spec Require Import RealOps Info Cluster IeeeOps EmleSpec.
Import ListNotations.
Open Scope R_scope.

(** A flip probability below one half, and the parameters of a confidence that are not enormous. *)
Definition flip_rate (f : b64) : Prop := fin f /\ 0 <= val f < / 2.
Definition sane {l : libm} (c : emle_conf (Bops l)) : Prop :=
  flip_rate (e_f _ c) /\ fin (e_slope _ c) /\ Rabs (val (e_slope _ c)) <= bpow radix2 900 /\ (Z.abs (e_center _ c) <= 2 ^ 52)%Z.
(** A log likelihood ratio that is not enormous. *)
Definition modest (x : b64) : Prop := fin x /\ Rabs (val x) <= bpow radix2 1000.
(** What is known of the estimate [p] of the probability of a one, and of its entropy [h], when [k] ones came through a channel that flips a
    bit with probability [f] in [m] transmissions. *)
Definition knows_bit (f : b64) (k m : nat) (p h : b64) : Prop :=
  fin p /\ 0 <= val p <= 1 /\ (val p = 0 <-> rnd (INR k / INR m) <= val f) /\ (k = m -> val p = 1) /\
  ((m <= 2 * k)%nat -> / 2 <= val p) /\ ((2 * k <= m)%nat -> val p <= / 2) /\
  (forall q, explains (val f) (INR k / INR m) q -> Rabs (val p - q) <= bpow radix2 (-50) / (1 - 2 * val f)) /\
  fin h /\ 0 <= val h /\ (val h = 0 <-> val p = 0 \/ val p = 1).
(** A model of [n] bits that has learned the given buffers, with an allowance for the channel. *)
Definition model_of {l : libm} (f : b64) (n : nat) (data : list (list Z)) (m : entropy_model (Bops l)) : Prop :=
  em_data m = data /\ em_cols m = 2%nat /\
  exists ps hs : list b64, length ps = n /\ length hs = n /\ em_rows m = map (fun p => [b64_sub (b64_z 1) p; p]) ps /\ em_entropy m = hs /\
    forall i p h, nth_error ps i = Some p -> nth_error hs i = Some h -> knows_bit f (votes data 1 i) (length data) p h.
