(** Specification of MAVLink frames. *)
From Coq Require Import String Ascii List NArith ZArith Bool.
From Verif.Model Require Import Py Dialect Struct Mavlink.
From Verif.Spec Require Import Bytes Header CrcSpec.
Import ListNotations.

(** [b] is a well formed frame of message [c]: [hl] header bytes, the first of which is [magic] and the second the payload
    length; a payload of any length; a little-endian checksum over everything between the start marker and the checksum,
    followed by the message's extra byte; then [sl] signature bytes. *)
Definition frame_of (magic : N) (hl sl : nat) (c : msg_class) (b : bytes) : Prop :=
  exists body lo hi sig,
    b = magic :: body ++ [lo; hi] ++ sig /\
    length sig = sl /\ hl <= length body + 1 /\
    nth 1 b 0%N = N.of_nat (length body + 1 - hl) /\
    (lo + 256 * hi)%N = crc16 (body ++ [mc_crc_extra c]).

(** v1: start marker 0xFE, 6 byte header with the id in byte 5.  v2: start marker 0xFD, 10 byte header, three byte id. *)
Definition frame_v1 (c : msg_class) (b : bytes) : Prop := is_msg (nth 5 b 0%N) c /\ frame_of 254 6 0 c b.
Definition frame_v2 (c : msg_class) (b : bytes) : Prop :=
  is_msg (nth 7 b 0 + 256 * nth 8 b 0 + 65536 * nth 9 b 0)%N c /\
  frame_of 253 10 (if N.testbit (nth 2 b 0%N) 0 then 13 else 0) c b.

(** The payload of a v1 frame. *)
Definition payload (b : bytes) : bytes := firstn (length b - 8) (skipn 6 b).

(** The payload of a v2 frame: between the header of 10 bytes and the checksum. *)
Definition payload_v2 (b : bytes) : bytes := firstn (length b - 12 - (if N.testbit (nth 2 b 0%N) 0 then 13 else 0)) (skipn 10 b).

(** The C types of fields: size, and value of a little-endian byte string (floats are kept as bit patterns). *)
Definition c_size (ty : string) : nat :=
  if existsb (String.eqb ty) ["uint16_t"; "int16_t"]%string then 2
  else if existsb (String.eqb ty) ["uint32_t"; "int32_t"; "float"]%string then 4
  else if existsb (String.eqb ty) ["uint64_t"; "int64_t"]%string then 8 else 1.
Definition c_signed (ty : string) : bool := existsb (String.eqb ty) ["int8_t"; "int16_t"; "int32_t"; "int64_t"]%string.
Definition le_number (b : bytes) : N := fold_right (fun x n => x + 256 * n)%N 0%N b.
Definition c_scalar (ty : string) (b : bytes) : pyval :=
  let n := Z.of_N (le_number b) in
  let m := (2 ^ (8 * Z.of_nat (c_size ty)))%Z in
  if String.eqb ty "float" then VF32 (le_number b)
  else VInt (if c_signed ty then (n + m / 2) mod m - m / 2 else n).

(** Scalars of a C type. *)
Definition c_ok (ty : string) (v : pyval) : Prop :=
  let m := (2 ^ (8 * Z.of_nat (c_size ty)))%Z in
  match v with
  | VInt z => ty <> "float"%string /\ if c_signed ty then (- (m / 2) <= z < m / 2)%Z else (0 <= z < m)%Z
  | VF32 p => ty = "float"%string /\ (p < 2 ^ 32)%N
  | VBytes _ => False
  end.

(** Field [i] (in the order of the constructor) of message [c]: type, number of array elements (0 for a scalar), position in
    the order of transmission, width and offset in the payload. *)
Definition f_type (c : msg_class) (i : nat) : string := nth i (mc_fieldtypes c) ""%string.
Definition f_wire (c : msg_class) (i : nat) : nat := nth i (mc_orders c) 0.
Definition f_array (c : msg_class) (i : nat) : nat := nth (f_wire c i) (mc_array_lengths c) 0.
Definition f_width (c : msg_class) (i : nat) : nat := Nat.max 1 (f_array c i) * c_size (f_type c i).
Definition f_count (c : msg_class) : nat := length (mc_fieldnames c).
Definition f_offset (c : msg_class) (i : nat) : nat :=
  list_sum (map (fun k => if Nat.ltb (f_wire c k) (f_wire c i) then f_width c k else 0) (seq 0 (f_count c))).
Definition wire_size (c : msg_class) : nat := list_sum (map (f_width c) (seq 0 (f_count c))).

Fixpoint before_nul (t : list N) : list N :=
  match t with [] => [] | x :: r => if N.eqb x 0 then [] else x :: before_nul r end.

(** The value of field [i] in a payload; missing payload bytes count as zero; [text] decodes byte strings. *)
Definition f_value (text : bytes -> list N) (c : msg_class) (pl : bytes) (i : nat) : fieldval :=
  let raw := map (fun k => nth (f_offset c i + k) pl 0%N) (seq 0 (f_width c i)) in
  let sz := c_size (f_type c i) in
  if String.eqb (f_type c i) "char" then FText (before_nul (text raw))
  else if Nat.eqb (f_array c i) 0 then FOne (c_scalar (f_type c i) raw)
  else FMany (map (fun k => c_scalar (f_type c i) (firstn sz (skipn (k * sz) raw))) (seq 0 (f_array c i))).

(** A value that can be stored in field [i]: a byte string, a scalar of the type, or an array of the declared size. *)
Definition fits (c : msg_class) (i : nat) (v : fieldval) : Prop :=
  if String.eqb (f_type c i) "char" then exists b, v = FOne (VBytes b) /\ is_bytes b
  else if Nat.eqb (f_array c i) 0 then exists x, v = FOne x /\ c_ok (f_type c i) x
  else exists l, v = FMany l /\ length l = f_array c i /\ Forall (c_ok (f_type c i)) l.

(** What comes back from a field: the same value; byte strings are truncated or zero padded to the width of the field,
    decoded to text and cut at the first NUL. *)
Definition returned (text : bytes -> list N) (c : msg_class) (i : nat) (v : fieldval) : fieldval :=
  match v with
  | FOne (VBytes b) => FText (before_nul (text (firstn (f_width c i) b ++ repeat 0%N (f_width c i - length b))))
  | _ => v
  end.

(** A list of field values that fits a message. *)
Definition fits_all (c : msg_class) (fs : list fieldval) : Prop :=
  length fs = f_count c /\ forall i, i < f_count c -> fits c i (nth i fs (FText [])).

(** Frames of message 4 or 6 with 208 payload bytes (far more than these messages have). *)
Definition exceptional_frame (f : bytes) : Prop := (nth 5 f 0 = 4 \/ nth 5 f 0 = 6)%N /\ length f = 8 + 208.

(** The message that decode must return for a frame of [c] packed with the given header values and fields. *)
Definition sent (text : bytes -> list N) (c : msg_class) (fs : list fieldval) (seq sys comp : N) (d : decoded) : Prop :=
  d_class d = c /\ d_msgId d = mc_id c /\ d_seq d = seq /\ d_sys d = sys /\ d_comp d = comp /\
  d_mlen d = N.of_nat (wire_size c) /\
  d_fields d = map (fun i => returned text c i (nth i fs (FText []))) (List.seq 0 (f_count c)).
