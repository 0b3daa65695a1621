(** Model of utils/bit_operations.py. *)
From Coq Require Import List NArith ZArith Bool.
From Verif.Model Require Import Py.
Import ListNotations.

(** The argument types distinguished by hamming_distance; utils/bit_operations.py:8-32.
    [HOther] stands for an object of any other type. *)
Inductive hd_arg :=
| HBits (b : list bool)     (* bitstring.Bits *)
| HBytes (b : bytes)        (* bytes *)
| HInt (z : Z)              (* int *)
| HArray (a : list Z)       (* np.ndarray: Bits(auto=array) takes the truth value of every element *)
| HOther.

(** bitstring.Bits(uint=z, length=n): CreationError unless 0 <= z < 2^n (and n > 0); most significant bit first. See utils/bit_operations.py:23-26. *)
Definition uint_bits (z : Z) (n : nat) : res (list bool) :=
  if (Nat.ltb 0 n && (0 <=? z)%Z && (z <? 2 ^ Z.of_nat n)%Z)%bool
  then Ok (map (fun i => Z.testbit z (Z.of_nat i)) (rev (seq 0 n)))
  else Err CreationError.

(** The conversions of one argument to Bits; utils/bit_operations.py:19-22 (bytes), 23-26 (int), 27-30 (ndarray). *)
Definition conv_bytes (a : hd_arg) : hd_arg := match a with HBytes b => HBits (bytes_bits b) | _ => a end.
(** Bits(uint=...); utils/bit_operations.py:23-26. *)
Definition conv_int (n : nat) (a : hd_arg) : res hd_arg :=
  match a with HInt z => do! b <- uint_bits z n in Ok (HBits b) | _ => Ok a end.
(** Bits(auto=...) of an array; utils/bit_operations.py:27-30. *)
Definition conv_array (a : hd_arg) : hd_arg :=
  match a with HArray l => HBits (map (fun z => negb (z =? 0)%Z) l) | _ => a end.

(** [(a ^ b).count(True)]: bitstring raises ValueError when the lengths differ; utils/bit_operations.py:33. *)
Fixpoint xor_count (a b : list bool) : nat :=
  match a, b with
  | x :: a', y :: b' => (if xorb x y then 1 else 0) + xor_count a' b'
  | _, _ => 0
  end.

(** hamming_distance; utils/bit_operations.py:8-33. *)
Definition hamming_distance (a b : hd_arg) (uint_len : nat) : res nat :=
  let a := conv_bytes a in
  let b := conv_bytes b in
  do! a <- conv_int uint_len a in
  do! b <- conv_int uint_len b in
  let a := conv_array a in
  let b := conv_array b in
  match a, b with
  | HBits x, HBits y => if Nat.eqb (length x) (length y) then Ok (xor_count x y) else Err ValueError
  | _, _ => Err TypeError
  end.
