(** What the binary symmetric channel does to a bit, and how much it tells about it. *)
From Coq Require Import List ZArith Reals.
From Verif.Spec Require Import Info DecoderSpec.
Import ListNotations.
Local Open Scope R_scope.

(** A bit that is 1 with probability [q] is flipped with probability [f]: the probability of a 1 behind the channel. *)
Definition behind (f q : R) : R := q * (1 - f) + (1 - q) * f.
(** The four outcomes (sent, received): 00, 01, 10, 11. *)
Definition joint (f q : R) : list R := [(1 - q) * (1 - f); (1 - q) * f; q * f; q * (1 - f)].
(** Mutual information of the bit sent and the bit received, in bits: H(sent) + H(received) - H(both). *)
Definition information (f q : R) : R := shannon 2 [1 - q; q] + shannon 2 [1 - behind f q; behind f q] - shannon 2 (joint f q).
(** The capacity of the channel: the most information over all ways to send. *)
Definition is_capacity (f c : R) : Prop := (forall q, 0 <= q <= 1 -> information f q <= c) /\ exists q, 0 <= q <= 1 /\ information f q = c.

Definition strictly_decreasing (l : list R) : Prop := forall i j, (i < j < length l)%nat -> nth j l 0 < nth i l 0.
