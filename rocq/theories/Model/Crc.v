(** Model of pymavlink's x25crc (pymavlink/generator/mavcrc.py, imported at mavlink_utils/HC_dialect.py:13 and used at
    241-244 and 8869).  The package is not vendored in /repo; this is its published algorithm:
      accum = self.crc
      for b in buf:
          tmp = b ^ (accum & 0xff)
          tmp = (tmp ^ (tmp << 4)) & 0xFF
          accum = (accum >> 8) ^ (tmp << 8) ^ (tmp << 3) ^ (tmp >> 4)
    (** The value of a new x25crc; mavlink_utils/HC_dialect.py:13, 241. *)
    with initial value 0xffff. *)
From Coq Require Import List NArith.
From Verif.Model Require Import Py.
Import ListNotations.
Local Open Scope N_scope.

(** One byte of x25crc.accumulate. See mavlink_utils/HC_dialect.py:13, 241, 8869. *)
Definition x25_step (accum b : N) : N :=
  let tmp := N.lxor b (N.land accum 255) in
  let tmp := N.land (N.lxor tmp (N.shiftl tmp 4)) 255 in
  N.lxor (N.lxor (N.lxor (N.shiftr accum 8) (N.shiftl tmp 8)) (N.shiftl tmp 3)) (N.shiftr tmp 4).

(** x25crc.accumulate: continues from a given register value. See mavlink_utils/HC_dialect.py:13, 241, 8869. *)
Definition x25_accumulate (accum : N) (buf : bytes) : N := fold_left x25_step buf accum.

(** x25crc(buf).crc. See mavlink_utils/HC_dialect.py:13, 241, 8869. *)
Definition x25crc (buf : bytes) : N := x25_accumulate 65535 buf.
