(** CRC-16/MCRF4XX (X.25 without final inversion): bit-serial reference, and bit positions in transmission order. *)
From Coq Require Import List Arith NArith Bool.
From Verif.Model Require Import Py.
Import ListNotations.
Local Open Scope N_scope.

(** One message bit: shift right; subtract the reflected polynomial x^16+x^12+x^5+1 (0x8408) when the outgoing bit and the
    message bit differ. *)
Definition crc_bit (s : N) (b : bool) : N :=
  N.lxor (N.shiftr s 1) (if xorb (N.testbit s 0) b then 33800 else 0).

Definition crc_bits (s : N) (l : list bool) : N := fold_left crc_bit l s.

(** Bits of a byte string in transmission order: least significant bit of each byte first. *)
Definition lsb_bits (l : bytes) : list bool :=
  flat_map (fun b => map (fun i => N.testbit b (N.of_nat i)) (seq 0 8)) l.

(** The reference checksum. *)
Definition crc16 (l : bytes) : N := crc_bits 65535 (lsb_bits l).

(** Bit [i] of a byte string in transmission order. *)
Definition tx_bit (l : bytes) (i : nat) : bool := N.testbit (nth (i / 8)%nat l 0) (N.of_nat (i mod 8)%nat).

(** Bytewise exclusive or of two byte strings. *)
Definition xor_bytes (a b : bytes) : bytes := map (fun p => N.lxor (fst p) (snd p)) (combine a b).

(** Positions (in transmission order) of the bits in which two byte strings differ. *)
Definition flips (f g : bytes) : list nat := filter (fun i => xorb (tx_bit f i) (tx_bit g i)) (seq 0 (8 * length f)).
