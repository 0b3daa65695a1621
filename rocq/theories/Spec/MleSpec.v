(** Notions used to state what the estimate of the probability of a noisy bit achieves. *)
From Coq Require Import List ZArith Reals Bool.
Import ListNotations.
Local Open Scope R_scope.

(** The chance that a one arrives when ones are sent with probability [p] and each bit is inverted with probability [f]. *)
Definition arrives (p f : R) : R := p * (1 - f) + (1 - p) * f.
(** The chance that the received bits are the given ones. *)
Definition likelihood (f p : R) (bits : list Z) : R := fold_right (fun b acc => (if (b =? 1)%Z then arrives p f else 1 - arrives p f) * acc) 1 bits.

(** The mean of a quantity over all words of [n] bits that are ones independently with probability [q]. *)
Fixpoint mean_of (n : nat) (q : R) (g : list Z -> R) : R :=
  match n with
  | O => g []
  | S n => q * mean_of n q (fun l => g (1%Z :: l)) + (1 - q) * mean_of n q (fun l => g (0%Z :: l))
  end.

(** [m] is the largest of some numbers. *)
Definition is_largest (m : R) (l : list R) : Prop := In m l /\ forall x, In x l -> x <= m.
