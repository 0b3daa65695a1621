(** Notions used to state the properties of the turbo decoder. *)
From Coq Require Import List ZArith Reals Bool.
From Verif.Model Require Import Py Float.
Import ListNotations.

(** Pointwise sum and difference of two vectors. *)
Definition vplus (a b : list R) : list R := map (fun i => nth i a 0 + nth i b 0)%R (seq 0 (length a)).
Definition vminus (a b : list R) : list R := map (fun i => nth i a 0 - nth i b 0)%R (seq 0 (length a)).

Section Spec.
Context {S1 S2 : Type}.
Variable first : S1 -> list R -> S1 * res (list Z * list R * bool).
Variable second : S2 -> list R -> S2 * res (list Z * list R * bool).
(** A decoder whose soft output is as long as its input and which does not raise. *)
Definition sound {T} (n : nat) (d : T -> list R -> T * res (list Z * list R * bool)) : Prop :=
  forall s x, length x = n -> exists s' e l ok, d s x = (s', Ok (e, l, ok)) /\ length l = n.

(** A session of at most the given number of rounds on channel word ch, where the first decoder is told the prior p.  Each decoder is
    fed the channel word plus what the other one added to its own input. *)
Inductive session (ch : list R) : nat -> S1 -> S2 -> list R -> S1 -> S2 -> list Z * list R * bool * nat -> Prop :=
| session_first n s1 s2 p s1' e l :
    first s1 (vplus ch p) = (s1', Ok (e, l, true)) ->
    session ch (S n) s1 s2 p s1' s2 (e, l, true, 1)
| session_second n s1 s2 p s1' s2' e1 l1 e l :
    first s1 (vplus ch p) = (s1', Ok (e1, l1, false)) ->
    second s2 (vplus ch (vminus l1 (vplus ch p))) = (s2', Ok (e, l, true)) ->
    session ch (S n) s1 s2 p s1' s2' (e, l, true, 2)
| session_failed s1 s2 p s1' s2' e1 l1 e l :
    first s1 (vplus ch p) = (s1', Ok (e1, l1, false)) ->
    second s2 (vplus ch (vminus l1 (vplus ch p))) = (s2', Ok (e, l, false)) ->
    session ch 1 s1 s2 p s1' s2' (e, l, false, 2)
| session_next n s1 s2 p s1' s2' s1'' s2'' e1 l1 e l r :
    first s1 (vplus ch p) = (s1', Ok (e1, l1, false)) ->
    second s2 (vplus ch (vminus l1 (vplus ch p))) = (s2', Ok (e, l, false)) ->
    session ch n s1' s2' (vminus l (vplus ch (vminus l1 (vplus ch p)))) s1'' s2'' r ->
    session ch (S n) s1 s2 p s1'' s2'' r.
End Spec.

(** A decoder that also keeps the list of the inputs it was given. *)
Definition recorded_decoder {T A B} (d : T -> A -> T * B) (s : T * list A) (x : A) : (T * list A) * B :=
  let '(s', r) := d (fst s) x in ((s', snd s ++ [x]), r).

(** The word that was sent, if the received word has its errors at the given positions, and its distance to an estimate. *)
Definition sent_word (rx : list Z) (errors : list nat) : list Z :=
  map (fun i => let b := nth i rx 0%Z in if existsb (Nat.eqb i) errors then (1 - b)%Z else b) (seq 0 (length rx)).
Definition wrong_bits (tx e : list Z) : nat := length (filter (fun i => negb (Z.eqb (nth i tx 0%Z) (nth i e 0%Z))) (seq 0 (length tx))).
