(** Specification of the measurements of simulations and experiments. *)
From Coq Require Import List Arith ZArith Bool.
From Verif.Model Require Import Py Float Simulation.
Import ListNotations.

(** Words of [n] bits. *)
Definition bit (x : Z) : Prop := x = 0%Z \/ x = 1%Z.
Definition word (n : nat) (w : list Z) : Prop := length w = n /\ Forall bit w.

(** The positions where two words differ. *)
Definition differences (a b : list Z) : list nat := filter (fun p => negb (nth p a 0 =? nth p b 0)%Z) (seq 0 (length a)).

(** [m] different positions below [n], in any order. *)
Definition draw (n m : nat) (row : list nat) : Prop := NoDup row /\ length row = m /\ forall p, In p row -> p < n.

(** [r] is [w] with exactly the bits at [row] inverted. *)
Definition received (w : list Z) (row : list nat) (r : list Z) : Prop :=
  word (length w) r /\ forall p, p < length w -> (nth p r 0%Z <> nth p w 0%Z <-> In p row).

(** A decoder with memory gives the answers for the inputs, in this order. *)
Inductive feeds {S I A} (dec : S -> I -> res (A * S)) : S -> list I -> list A -> Prop :=
| feeds_nil s : feeds dec s [] []
| feeds_cons s x a s' xs l : dec s x = Ok (a, s') -> feeds dec s' xs l -> feeds dec s (x :: xs) (a :: l).

(** All answers are words of [n] bits in tuples of [m] items. *)
Definition proper_answers (n m : nat) (l : list answer) : Prop := Forall (fun a => word n (a_estimate a) /\ a_items a = m) l.

(** The number of wrong bits of each answer. *)
Definition wrong (sent : list (list Z)) (l : list answer) : list nat := map (fun wa => length (differences (a_estimate (snd wa)) (fst wa))) (combine sent l).
Definition total (l : list nat) : nat := fold_right plus 0 l.
Definition zeros (l : list nat) : nat := length (filter (Nat.eqb 0) l).

(** Experiments: a sent word is a word of [n] bits, or unknown: a row of [n] entries of which the first is 2. *)
Definition sent_row (n : nat) (t : list Z) : Prop := word n t \/ (length t = n /\ nth 0 t 0%Z = 2%Z).
Definition is_known (t : list Z) : bool := negb (nth 0 t 0 =? 2)%Z.
(** The number of wrong bits, or -1 when the sent word is unknown. *)
Definition judged (sent : list (list Z)) (l : list answer) : list Z :=
  map (fun ta => if is_known (fst ta) then Z.of_nat (length (differences (a_estimate (snd ta)) (fst ta))) else (-1)%Z) (combine sent l).
(** The wrong bits of the answers to known words. *)
Definition known_wrong (sent : list (list Z)) (l : list answer) : nat :=
  total (map (fun ta => length (differences (a_estimate (snd ta)) (fst ta))) (filter (fun ta => is_known (fst ta)) (combine sent l))).
Definition known_words (sent : list (list Z)) : nat := length (filter is_known sent).
Definition claims (l : list answer) : nat := length (filter a_success l).
