(** Notions used to state the properties of the classifier. *)
From Coq Require Import List ZArith Reals Bool.
From Verif.Model Require Import Py Float Clustering.
From Verif.Spec Require Import RealOps Info.
Import ListNotations.

(** Buffers of n bits; those holding both bit values. *)
Definition bits_of_length (n : nat) (b : list Z) : Prop := length b = n /\ Forall is_bit b.
Definition both_values (b : list Z) : Prop := In 0%Z b /\ In 1%Z b.

(** How many of the given buffers have value v at position i. *)
Definition votes (members : list (list Z)) (v : Z) (i : nat) : nat := length (filter (fun b => Z.eqb (nth i b (-1)%Z) v) members).

(** A cluster that counts exactly the given buffers. *)
Definition counts_exactly (n : nat) (members : list (list Z)) (c : cluster) : Prop :=
  c_rows c = map (fun i => [Z.of_nat (votes members 0 i); Z.of_nat (votes members 1 i)]) (seq 0 n) /\
  c_cols c = 2 /\ c_n c = Z.of_nat (length members) /\ members <> [].

(** Clusters numbered 0, 1, ... whose members are the given lists. *)
Definition numbered (cs : list cluster) : Prop := map (@c_uid) cs = map Z.of_nat (seq 0 (length cs)).
Definition represents (n : nat) (groups : list (list (list Z))) (cs : list cluster) : Prop :=
  Forall2 (counts_exactly n) groups cs /\ numbered cs.

(** Group j is merged into group i. *)
Definition join {A} (groups : list (list A)) (i j : nat) : list (list A) :=
  set_nth (firstn j groups ++ skipn (S j) groups) i (nth i groups [] ++ nth j groups []).

(** Merging permitted pairs until at most k groups are left. *)
Inductive merging {A} (permitted : list (list A) -> nat -> nat -> Prop) (k : Z) : list (list A) -> list (list A) -> Prop :=
| merging_done gs : (Z.of_nat (length gs) <= k)%Z -> merging permitted k gs gs
| merging_step gs i j gs' : (k < Z.of_nat (length gs))%Z -> i < j < length gs -> permitted gs i j ->
    merging permitted k (join gs i j) gs' -> merging permitted k gs gs'.

(** The mean Hellinger distance between the bit distributions of two groups, weighted by their mean size. *)
Definition share (g : list (list Z)) (v : Z) (i : nat) : R := (INR (votes g v i) / INR (length g))%R.
Definition group_hellinger (n : nat) (g g' : list (list Z)) : R :=
  (Rsum (map (fun i => sqrt (gap [share g 0 i; share g 1 i] [share g' 0 i; share g' 1 i] / 2)) (seq 0 n)) / INR n)%R.
Definition size_weight (ws : weight_scheme) (g g' : list (list Z)) : R :=
  let m := ((INR (length g) + INR (length g')) / 2)%R in match ws with WSqrt => sqrt m | WLinear => m | WNone => 1%R end.
Definition group_distance (ws : weight_scheme) (n : nat) (g g' : list (list Z)) : R := (size_weight ws g g' * group_hellinger n g g')%R.

(** The first pair, in lexicographic order, of least distance. *)
Definition before (a b : nat * nat) : Prop := fst a < fst b \/ fst a = fst b /\ snd a < snd b.
Definition first_closest (dist : list (list Z) -> list (list Z) -> R) (gs : list (list (list Z))) (i j : nat) : Prop :=
  forall i' j', i' < j' < length gs ->
    (dist (nth i gs []) (nth j gs []) <= dist (nth i' gs []) (nth j' gs []))%R /\
    (before (i', j') (i, j) -> (dist (nth i gs []) (nth j gs []) < dist (nth i' gs []) (nth j' gs []))%R).

(** The mean, over the bits of a buffer, of the logarithm (limited to [-100, 0]) of the share of a group that agrees. *)
Definition fit (g : list (list Z)) (b : list Z) : R :=
  (Rsum (map (fun i => Rmin (Rmax (ln (share g (nth i b (-1)%Z) i + / 4503599627370496)) (-100)) 0) (seq 0 (length b))) / INR (length b))%R.

(** 1 where at least one of the buffers has a 1. *)
Definition hard_bit (g : list (list Z)) (i : nat) : Z := if existsb (fun b => Z.eqb (nth i b (-1)%Z) 1) g then 1%Z else 0%Z.
(** The bit of the majority. *)
Definition majority_bit (g : list (list Z)) (i : nat) : Z := if Nat.ltb (votes g 0 i) (votes g 1 i) then 1%Z else 0%Z.

(** The number of bits in which a buffer differs from them. *)
Definition mismatch (b : list Z) (g : list (list Z)) : nat := length (filter (fun i => negb (Z.eqb (nth i b (-1)%Z) (hard_bit g i))) (seq 0 (length b))).

(** The first index at which a score is largest / smallest. *)
Definition first_max {A} (score : A -> R) (l : list A) (u : nat) : Prop :=
  exists x, nth_error l u = Some x /\ forall j y, nth_error l j = Some y -> (score y <= score x)%R /\ (j < u -> (score y < score x)%R).
Definition first_min {A} (score : A -> nat) (l : list A) (u : nat) : Prop :=
  exists x, nth_error l u = Some x /\ forall j y, nth_error l j = Some y -> score x <= score y /\ (j < u -> score x < score y).

(** The state after a sequence of calls. *)
Definition after (FO : fops) (kl : list (F FO) -> list (F FO) -> F FO) (s : classifier) (h : list (list Z)) : classifier :=
  fold_left (fun s b => fst (classify FO kl s b)) h s.

(** The state in which a call after training chooses the cluster: the training clusters are merged first, once. *)
Definition ready (FO : fops) (kl : list (F FO) -> list (F FO) -> F FO) (s : classifier) : classifier :=
  if k_init s then s else fst (merge_clusters FO kl s).
