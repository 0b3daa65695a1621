(** Notions used to state what the denoisers do in double precision. *)
From Coq Require Import List ZArith Reals Bool.
From Flocq Require Import Core IEEE754.BinarySingleNaN.
From Verif.Model Require Import Py Float Dude.
From Verif.Spec Require Import RealOps DudeSpec IeeeOps.
Import ListNotations.
Open Scope R_scope.

(** The matrices of a binary symmetric channel and of the Hamming loss, as the programs write them. *)
Definition bsc64 (f : b64) : list (list b64) := [[b64_sub (b64_z 1) f; f]; [f; b64_sub (b64_z 1) f]].
Definition hamming64 : list (list b64) := [[b64_z 0; b64_z 1]; [b64_z 1; b64_z 0]].

(** The exact inverse of the matrix of a binary symmetric channel. *)
Definition bsc_inverse (delta : R) : list (list R) :=
  [[(1 - delta) / (1 - 2 * delta); - delta / (1 - 2 * delta)]; [- delta / (1 - 2 * delta); (1 - delta) / (1 - 2 * delta)]].

(** A two by two matrix of doubles, each entry within [eta] of the one of m. *)
Definition near (eta : R) (x : b64) (r : R) : Prop := fin x /\ Rabs (val x - r) <= eta.
Definition near_matrix (eta : R) (m : list (list b64)) (r : list (list R)) : Prop :=
  Forall2 (Forall2 (near eta)) m r.

(** What numpy's inverse of a channel that mostly keeps its input looks like: a diagonal that is not negative, the rest not positive, no entry huge. *)
Definition inverse_signs (m : list (list b64)) : Prop :=
  exists a b c e, m = [[a; b]; [c; e]] /\ fin a /\ fin b /\ fin c /\ fin e /\
    0 <= val a <= bpow radix2 900 /\ - bpow radix2 900 <= val b <= 0 /\ - bpow radix2 900 <= val c <= 0 /\ 0 <= val e <= bpow radix2 900.
(** A binary channel whose probabilities are doubles in [0,1]. *)
Definition channel64 (m : list (list b64)) : Prop :=
  exists a b c e, m = [[a; b]; [c; e]] /\ Forall (fun x => fin x /\ 0 <= val x <= 1) [a; b; c; e].

(** The number of times the symbol a was seen in the current context, the observation x included. *)
Definition seen (k : nat) (obs : list Z) (x : Z) (a : nat) : nat := holding (obs ++ [x]) a (follows k (obs ++ [x]) (last_k k obs)).

(** A denoiser of bits that makes hard (soft) decisions. *)
Definition binary (l : libm) (d : dude (Bops l)) (k : nat) (hard : bool) : Prop :=
  d_size _ d = 2%nat /\ d_hard _ d = hard /\ (1 <= k)%nat /\ d_k _ d = Z.of_nat k.

(** The exact rule of a denoiser for a channel with flip probability delta and the Hamming loss: change an observation that makes up less than this
    share of the symbols seen in its context. *)
Definition share (delta : R) : R := 2 * delta * (1 - delta).
