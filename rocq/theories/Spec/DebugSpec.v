(** Notions used to state what the decoders report when debugging. *)
From Coq Require Import List ZArith Bool.
From Verif.Spec Require Import Info.
Import ListNotations.

(** [l] is a confusion vector: true positives, false positives, true negatives, false negatives, positives, negatives. *)
Definition counts (predicted actual : list Z) (negative : Z) (l : list Z) : Prop := exists tp fp fn,
  l = [Z.of_nat tp; Z.of_nat fp; negative - Z.of_nat fp; Z.of_nat fn; Z.of_nat (length actual); negative]%Z /\
  tp = distinct (filter (fun v => existsb (Z.eqb v) actual) predicted) /\ tp + fp = distinct predicted /\ tp + fn = distinct actual.

(** A position of a word of [n] bits is listed among the errors; negative ones count from the end. *)
Definition wrong (n : nat) (errors : list Z) (p : nat) : bool := existsb (fun e => Z.eqb e (Z.of_nat p) || Z.eqb e (Z.of_nat p - Z.of_nat n))%bool errors.
(** The bit received and the bit sent at a position. *)
Definition got (rx : list Z) (p : nat) : bool := Z.eqb (nth p rx 0%Z) 1.
Definition sent (rx : list Z) (errors : list Z) (p : nat) : bool := xorb (got rx p) (wrong (length rx) errors p).
(** The positions of [l] where a picture differs from given bits. *)
Definition differing (picture : list bool) (bit : nat -> bool) (l : list nat) : list nat := filter (fun p => xorb (nth p picture false) (bit p)) l.
