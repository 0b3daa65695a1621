(** How many byte strings there are with a property. *)
From Coq Require Import List NArith.
From Verif.Model Require Import Py.
From Verif.Spec Require Import Bytes.
Import ListNotations.

(** Exactly [n] byte strings satisfy [P]; at most [n] do. *)
Definition counts (P : bytes -> Prop) (n : N) : Prop := exists l, NoDup l /\ (forall b, In b l <-> P b) /\ N.of_nat (length l) = n.
Definition at_most (P : bytes -> Prop) (n : N) : Prop := forall l, NoDup l -> (forall b, In b l -> P b) -> (N.of_nat (length l) <= n)%N.

(** The byte strings of a length; there are [256 ^ n] of them (c93_all). *)
Definition of_length (n : nat) (b : bytes) : Prop := is_bytes b /\ length b = n.
