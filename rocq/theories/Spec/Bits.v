(** Specification vocabulary for bits and Hamming distances. Independent of the model's functions. *)
From Coq Require Import List NArith ZArith Bool.
From Verif.Model Require Import Py BitOps.
Import ListNotations.

(** Number of positions below the length of [x] in which [x] and [y] differ. *)
Definition diffs (x y : list bool) : nat :=
  length (filter (fun i => negb (Bool.eqb (nth i x false) (nth i y false))) (seq 0 (length x))).

(** Bit [i] of a byte string, most significant bit of the first byte first. *)
Definition bit_of (b : bytes) (i : nat) : bool := N.testbit (nth (i / 8) b 0%N) (N.of_nat (7 - i mod 8)).

(** The bit string that an argument of hamming_distance denotes, when it denotes one ([n] is uint_len). *)
Inductive denotes (n : nat) : hd_arg -> list bool -> Prop :=
| den_bits x : denotes n (HBits x) x
| den_bytes b x : length x = 8 * length b -> (forall i, i < length x -> nth i x false = bit_of b i) ->
    denotes n (HBytes b) x
| den_int z x : 0 < n -> (0 <= z < 2 ^ Z.of_nat n)%Z -> length x = n ->
    (forall i, i < n -> nth i x false = Z.testbit z (Z.of_nat (n - 1 - i))) -> denotes n (HInt z) x
| den_array a x : length x = length a -> (forall i, i < length a -> nth i x false = negb (nth i a 0 =? 0)%Z) ->
    denotes n (HArray a) x.

(** Number of differing bits of two byte strings of the same length. *)
Definition byte_diffs (a b : bytes) : nat :=
  length (filter (fun i => negb (Bool.eqb (bit_of a i) (bit_of b i))) (seq 0 (8 * length a))).

(** Number of differing bits of two numbers, looking at the low [n] bits. *)
Definition int_diffs (n : nat) (a b : Z) : nat :=
  length (filter (fun i => negb (Bool.eqb (Z.testbit a (Z.of_nat i)) (Z.testbit b (Z.of_nat i)))) (seq 0 n)).
