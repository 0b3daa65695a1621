(** Specification vocabulary for MAVLink v1 headers and for the dialect tables. *)
From Coq Require Import String Ascii List NArith ZArith Bool.
From Verif.Model Require Import Py Dialect.
From Verif.Spec Require Import Bytes Bits.
Import ListNotations.
Local Open Scope string_scope.

(** A Python int that fits an unsigned byte. *)
Definition in_byte (z : Z) : Prop := (0 <= z <= 255)%Z.

(** Size in bytes and struct letter of the C types of MAVLink fields. *)
Inductive ctype : string -> nat -> ascii -> Prop :=
| ct_u8 : ctype "uint8_t" 1 "B" | ct_i8 : ctype "int8_t" 1 "b"
| ct_u16 : ctype "uint16_t" 2 "H" | ct_i16 : ctype "int16_t" 2 "h"
| ct_u32 : ctype "uint32_t" 4 "I" | ct_i32 : ctype "int32_t" 4 "i"
| ct_u64 : ctype "uint64_t" 8 "Q" | ct_i64 : ctype "int64_t" 8 "q"
| ct_float : ctype "float" 4 "f" | ct_char : ctype "char" 1 "s".

(** [c] is a message of the dialect with id [i]. *)
Definition is_msg (i : N) (c : msg_class) : Prop := In c mavlink_classes /\ mc_id c = i.

(** Sum of the sizes of the declared field types, every array counted as one element. *)
Inductive type_sum : list string -> nat -> Prop :=
| ts_nil : type_sum [] 0
| ts_cons t n ch ts m : ctype t n ch -> type_sum ts m -> type_sum (t :: ts) (n + m).

(** The payload length that a v1 header of message id [i] carries according to the metadata. *)
Definition plen (i : N) (n : nat) : Prop := exists c, is_msg i c /\ type_sum (mc_fieldtypes c) n.

(** A valid header: start marker, payload length of the id, three arbitrary bytes, a known id. *)
Inductive valid_header : bytes -> Prop :=
| vh n q s c i : plen i n -> valid_header [254%N; N.of_nat n; q; s; c; i].

(** A message without array fields. *)
Definition no_arrays (c : msg_class) : Prop := Forall (fun n => n = 0) (mc_array_lengths c).

(** [r] = (distance, id) is the answer of the nearest-header search for buffer [b], restricted to the messages [tab]
    whose length byte is at most [m]: (17 + distance of the start marker, -1) if there is none, else the distance of a
    closest header and the id of the first message (in the order of [tab]) that attains it. *)
Definition nearest_among (tab : list msg_class) (b : bytes) (m : Z) (r : Z * Z) : Prop :=
  (r = ((Z.of_nat (byte_diffs [254%N] [nth 0 b 0%N]) + 17)%Z, (-1)%Z) /\
   forall c h, In c tab -> valid_header h -> nth 5 h 0%N = mc_id c -> (m < Z.of_N (nth 1 h 0%N))%Z) \/
  (exists pre c post h,
     tab = (pre ++ c :: post)%list /\ r = (Z.of_nat (byte_diffs b h), Z.of_N (mc_id c)) /\
     valid_header h /\ is_bytes h /\ nth 5 h 0%N = mc_id c /\ (Z.of_N (nth 1 h 0%N) <= m)%Z /\
     (forall c' h', In c' pre -> valid_header h' -> nth 5 h' 0%N = mc_id c' -> (Z.of_N (nth 1 h' 0%N) <= m)%Z ->
        byte_diffs b h < byte_diffs b h') /\
     (forall c' h', In c' tab -> valid_header h' -> nth 5 h' 0%N = mc_id c' -> (Z.of_N (nth 1 h' 0%N) <= m)%Z ->
        byte_diffs b h <= byte_diffs b h')).
