(** Notions used to state the properties of utils/. *)
From Coq Require Import List ZArith Reals Bool Sorted.
From Verif.Model Require Import Py Markov.
From Verif.Spec Require Import RealOps.
Import ListNotations.

(** How often a value occurs in a sample. *)
Definition occurrences (l : list Z) (v : Z) : nat := count_occ Z.eq_dec l v.

(** The distinct values of a sample in increasing order. *)
Definition alphabet_of (l a : list Z) : Prop := StronglySorted Z.lt a /\ forall v, In v a <-> In v l.

(** The fraction of samples equal to each value of an alphabet. *)
Definition frequencies (l a : list Z) : list R := map (fun v => INR (occurrences l v) / INR (length l))%R a.

(** Probability vectors. *)
Definition distribution (p : list R) : Prop := Forall (fun x => (0 <= x)%R) p /\ Rsum p = 1%R.

(** A non-negative vector scaled to sum 1. *)
Definition normalised (p : list R) : list R := map (fun x => x / Rsum p)%R p.

(** Shannon's entropy in a given base, with 0 log 0 = 0. *)
Definition log_in (b : Z) (x : R) : R := (ln x / ln (IZR b))%R.
Definition shannon (b : Z) (p : list R) : R := Rsum (map (fun x => if Rlt_dec 0 x then - x * log_in b x else 0)%R p).

(** Sequences of length n over the first k natural numbers, and their probability under a memoryless source. *)
Fixpoint words (k n : nat) : list (list nat) :=
  match n with
  | O => [[]]
  | S m => flat_map (fun w => map (fun a => a :: w) (seq 0 k)) (words k m)
  end.
Definition word_prob (p : list R) (w : list nat) : R := fold_right Rmult 1%R (map (fun a => nth a p 0%R) w).

(** The typical sequences of length n: those of positive probability whose empirical entropy rate is within eps of h. *)
Definition typical (p : list R) (h eps : R) (n : nat) (w : list nat) : Prop :=
  (0 < word_prob p w /\ Rabs (- log_in 2 (word_prob p w) / INR n - h) <= eps)%R.

(** The number of positions at which two lists differ. *)
Definition differences (a b : list Z) : nat := length (filter (fun xy => negb (Z.eqb (fst xy) (snd xy))) (combine a b)).

(** Square matrices of counts. *)
Definition square (cm : list (list nat)) : Prop := Forall (fun r => length r = length cm) cm.
Definition cell (cm : list (list nat)) (i j : nat) : nat := nth j (nth i cm []) 0.
Definition row_total (cm : list (list nat)) (i : nat) : nat := list_sum (map (fun j => cell cm i j) (seq 0 (length cm))).
Definition col_total (cm : list (list nat)) (j : nat) : nat := list_sum (map (fun i => cell cm i j) (seq 0 (length cm))).
Definition grand_total (cm : list (list nat)) : nat := list_sum (map (row_total cm) (seq 0 (length cm))).
Definition diagonal_total (cm : list (list nat)) : nat := list_sum (map (fun i => cell cm i i) (seq 0 (length cm))).

(** The number of distinct values of a list. *)
Definition distinct (l : list Z) : nat := length (nodup Z.eq_dec l).

(** Bits as integers, and the number of positions holding [a] in the first and [b] in the second list. *)
Definition is_bit (z : Z) : Prop := z = 0%Z \/ z = 1%Z.
Definition changes (a b : Z) (g p : list Z) : nat := length (filter (fun xy => (fst xy =? a)%Z && (snd xy =? b)%Z) (combine g p)).

(** The textbook Hellinger distance is the square root of half of this. *)
Definition gap (p q : list R) : R :=
  Rsum (map (fun xy => (sqrt (fst xy) - sqrt (snd xy)) * (sqrt (fst xy) - sqrt (snd xy)))%R (combine p q)).

(** Precision and recall of a class; precision counts as 0 for a class never predicted, recall is undefined for an absent one. *)
Definition precision_at (cm : list (list nat)) (j : nat) : R :=
  if Nat.eqb (col_total cm j) 0 then 0%R else (INR (cell cm j j) / INR (col_total cm j))%R.
Definition recall_at (cm : list (list nat)) (i : nat) : option R :=
  if Nat.eqb (row_total cm i) 0 then None else Some (INR (cell cm i i) / INR (row_total cm i))%R.

(** The initial states given to the Markov generator. *)
Definition start_values (init : init_state) : list Z := match init with IInt z => [z] | ISeq l => l end.

(** What the generator looks at for sample i: the last k of the n positions of the result, 0 where not yet written. *)
Definition tail_seen (k n : nat) (s : list Z) (i : nat) : list Z :=
  map (fun j => if Nat.ltb j i then nth j s 0%Z else 0%Z) (seq (n - k) k).
