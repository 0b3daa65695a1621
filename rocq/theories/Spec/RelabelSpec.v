(** What relabelling clusters and cutting buffers into words mean. *)
From Coq Require Import List ZArith Arith.
Import ListNotations.

(** The real label of sample [i]: given, or the samples are assumed to come from the classes 0, 1, ..., n-1, 0, 1, ... in turn. *)
Definition real_label (n : nat) (real : option (list Z)) (i : nat) : Z :=
  match real with None => Z.of_nat (i mod n) | Some r => nth i r (-1)%Z end.

(** Number of samples with real label [t] and predicted label [p]. *)
Definition together (predicted : list Z) (n : nat) (real : option (list Z)) (t p : nat) : nat :=
  length (filter (fun i => (andb (real_label n real i =? Z.of_nat t) (nth i predicted (-1) =? Z.of_nat p))%Z) (seq 0 (length predicted))).

(** The pair (t, p) comes before (t', p') when the table is read row by row. *)
Definition reads_before (t p t' p' : nat) : Prop := t < t' \/ (t = t' /\ p <= p').

(** [(p, t)] is the most frequent pair of a predicted label not yet in [used] and a real label, the first one in case of a tie. *)
Definition most_frequent (count : nat -> nat -> nat) (n : nat) (used : list nat) (p t : nat) : Prop :=
  p < n /\ t < n /\ ~ In p used /\
  forall p' t', p' < n -> t' < n -> ~ In p' used -> count t' p' <= count t p /\ (count t' p' = count t p -> reads_before t p t' p').

(** A table pairing the predicted labels 0..n-1 with real labels: all but the last pair greedily, the last predicted label with the
    smallest real label not used. *)
Definition greedy_table (count : nat -> nat -> nat) (n : nat) (table : list (nat * nat)) : Prop :=
  length table = n /\ NoDup (map fst table) /\
  (forall j, j < n - 1 -> most_frequent count n (firstn j (map fst table)) (fst (nth j table (0, 0))) (snd (nth j table (0, 0)))) /\
  (let last := nth (n - 1) table (0, 0) in
   let used := firstn (n - 1) (map snd table) in
   fst last < n /\ snd last < n /\ ~ In (snd last) used /\ forall t, t < snd last -> In t used).

(** The words carry the data: k bits each, no more of them than needed (one for an empty buffer), and together they start with the
    data. *)
Definition carries (k : nat) (data : list bool) (words : list (list bool)) : Prop :=
  Forall (fun w => length w = k) words /\ firstn (length data) (concat words) = data /\
  length words = match data with [] => 1 | _ => (length data + k - 1) / k end.
