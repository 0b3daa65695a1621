(** Model of the MAVLink_message.pack, MAVLink.send and MAVLink.decode methods of mavlink_utils/HC_dialect.py
    (WIRE_PROTOCOL_VERSION = "1.0", no signing key, MAVLINK_IGNORE_CRC unset). *)
From Coq Require Import String Ascii List NArith ZArith Bool.
From Verif.Model Require Import Py Dialect ProtocolMeta Struct Crc.
Import ListNotations.

(** Value of one message field: a scalar (or one bytes object) or a Python sequence of scalars. See mavlink_utils/HC_dialect.py:8948-8956. *)
Inductive fieldval :=
| FOne (v : pyval)
| FMany (l : list pyval)
| FText (t : list N).        (* str produced by decode from a char field: code points *)

(** A message object: its class and the field values in constructor (fieldnames) order; mavlink_utils/HC_dialect.py,
    the generated __init__ methods.  Header fields are kept in the records below. See mavlink_utils/HC_dialect.py:8649-8657. *)
Record message := Msg { m_class : msg_class; m_fields : list fieldval }.

(** MAVLink_header.pack for protocol version 1.0; mavlink_utils/HC_dialect.py:97-103.  struct.error if a value does not fit
    an unsigned byte. *)
Definition header_pack (mlen seq sys comp msgId : Z) : res bytes :=
  struct_pack "<BBBBBB" [VInt 254; VInt mlen; VInt seq; VInt sys; VInt comp; VInt msgId].

(** The arguments that the generated pack methods hand to struct.pack: the fields in wire order, arrays expanded; e.g.
    mavlink_utils/HC_dialect.py:2227-2228.  Simplified: the generated text lists exactly as many array elements as
    array_lengths says; here the whole sequence is expanded, so a sequence of a wrong length is reported as struct.error
    where Python would raise IndexError or silently drop the excess. *)
Definition pack_args (m : message) : res (list pyval) :=
  do! l <- map_res (fun name =>
             do! i <- str_index (mc_fieldnames (m_class m)) name in
             do! v <- index (m_fields m) i in
             match v with
             | FOne v => Ok [v]
             | FMany l => Ok l
             | FText _ => Err StructError        (* a str is not accepted by struct.pack *)
             end) (mc_ordered (m_class m)) in
  Ok (List.concat l).

(** MAVLink_message.pack; mavlink_utils/HC_dialect.py:221-248 (version 1.0: no zero stripping; no signing), called by the
    generated pack methods with the class' crc_extra and struct.pack(format, ...). *)
Definition pack_frame (c : msg_class) (seq sys comp : Z) (payload : bytes) : res bytes :=
  do! h <- header_pack (Z.of_nat (length payload)) seq sys comp (Z.of_N (mc_id c)) in
  let msgbuf := h ++ payload in
  let crc := x25_accumulate (x25crc (skipn 1 msgbuf)) [mc_pack_extra c] in
  do! t <- struct_pack "<H" [VInt (Z.of_N crc)] in
  Ok (msgbuf ++ t).

(** pack of the class of the message; mavlink_utils/HC_dialect.py:8649-8657. *)
Definition message_pack (m : message) (seq sys comp : Z) : res bytes :=
  do! args <- pack_args m in
  do! payload <- struct_pack (mc_pack_fmt (m_class m)) args in
  pack_frame (m_class m) seq sys comp payload.

(** The attributes of a MAVLink object that send uses; mavlink_utils/HC_dialect.py:8599-8627. *)
Record mav := Mav { mav_seq : Z; mav_sys : Z; mav_comp : Z; mav_file : bytes; mav_packets : Z; mav_bytes : Z }.

(** MAVLink.__init__; mavlink_utils/HC_dialect.py:8599-8627 (the attributes used here, writing to an empty file). *)
Definition mav_init (sys comp : Z) : mav := Mav 0 sys comp [] 0 0.

(** MAVLink.send; mavlink_utils/HC_dialect.py:8649-8657. *)
Definition mav_send (s : mav) (m : message) : res mav :=
  do! buf <- message_pack m (mav_seq s) (mav_sys s) (mav_comp s) in
  Ok (Mav ((mav_seq s + 1) mod 256) (mav_sys s) (mav_comp s) (mav_file s ++ buf) (mav_packets s + 1)
          (mav_bytes s + Z.of_nat (length buf))).

(** What decode attaches to the returned message: header fields and received checksum;
    mavlink_utils/HC_dialect.py:8948-8956. *)
Record decoded := Decoded {
  d_msgId : N; d_mlen : N; d_seq : N; d_sys : N; d_comp : N; d_incompat : N; d_compat : N;
  d_crc : N; d_class : msg_class; d_fields : list fieldval }.

Section Decode.
(** bytes.decode as used by to_string (mavlink_utils/HC_dialect.py:61-83): the text obtained from a char field, as code
    points.  to_string never raises; which text it yields for invalid UTF-8 does not matter here. *)
Variable to_string : bytes -> list N.

(** MAVString.__str__: cut at the first NUL; mavlink_utils/HC_dialect.py:8556-8564. *)
Fixpoint cut_nul (t : list N) : list N :=
  match t with
  | [] => []
  | x :: r => if N.eqb x 0 then [] else x :: cut_nul r
  end.

(** Reordering of the unpacked values into constructor order; mavlink_utils/HC_dialect.py:8915-8934.
    In the array branch [L == 1 or isinstance(field, str)]: under Python 3 an 's' item is bytes and has length 1 in
    len_map, so the test is [L == 1]. *)
Definition reorder (c : msg_class) (t : list pyval) : res (list fieldval) :=
  if Nat.eqb (list_sum (mc_lengths c)) (length (mc_lengths c))
  then map_res (fun i => do! o <- index (mc_orders c) i in do! v <- index t o in Ok (FOne v)) (seq 0 (length t))
  else map_res (fun order =>
         do! L <- index (mc_lengths c) order in
         let tip := list_sum (firstn order (mc_lengths c)) in
         do! field <- index t tip in
         if Nat.eqb L 1 then Ok (FOne field) else Ok (FMany (slice t tip (tip + L)))) (mc_orders c).

(** String termination; mavlink_utils/HC_dialect.py:8936-8941.  A 'char' field is always an 's' item in this dialect. *)
Fixpoint terminate (types : list string) (l : list fieldval) : list fieldval :=
  match l, types with
  | v :: r, ty :: tr => (if String.eqb ty "char" then match v with FOne (VBytes b) => FText (cut_nul (to_string b)) | _ => v end
                         else v) :: terminate tr r
  | _, _ => l
  end.

(** The part of decode after the header has been unpacked; mavlink_utils/HC_dialect.py:8840-8957.
    [msgbuf] is the frame, [headerlen] 6 or 10.  The CRC trailer unpack at 8863 cannot fail once the length test passed.
    Signing (8873-8898) is skipped: secret_key is None. *)
Definition decode_body (msgbuf : bytes) (headerlen siglen : nat) (magic mlen incompat compat seq sys comp msgId : N)
  : res decoded :=
  if negb (N.eqb magic 254 || N.eqb magic 253) then Err MAVError
  else if negb (Z.eqb (Z.of_N mlen) (Z.of_nat (length msgbuf) - Z.of_nat (headerlen + 2 + siglen))) then Err MAVError
  else match get_class msgId with
  | None => Err MAVError
  | Some c =>
    let n := length msgbuf in
    let crc := le_val (firstn 2 (skipn (n - (2 + siglen)) msgbuf)) in
    let crcbuf := slice msgbuf 1 (n - (2 + siglen)) ++ [mc_crc_extra c] in
    if negb (N.eqb crc (x25crc crcbuf)) then Err MAVError
    else
      do! csize <- calcsize (mc_unpacker c) in
      let mbuf := slice msgbuf headerlen (n - (2 + siglen)) in
      let mbuf := firstn csize (mbuf ++ repeat 0%N (csize - length mbuf)) in
      do! t <- struct_unpack (mc_unpacker c) mbuf in
      do! tl <- reorder c t in
      Ok (Decoded msgId mlen seq sys comp incompat compat crc c (terminate (mc_fieldtypes c) tl))
  end.

(** MAVLink.decode; mavlink_utils/HC_dialect.py:8821-8957.  IndexError on an empty buffer (msgbuf[0]). *)
Definition decode (msgbuf : bytes) : res decoded :=
  match msgbuf with
  | [] => Err IndexError
  | b0 :: _ =>
    let byte i := nth i msgbuf 0%N in
    if N.eqb b0 stx
    then (* '<cBBBBB' *)
      if Nat.ltb (length msgbuf) 6 then Err MAVError
      else decode_body msgbuf 6 0 b0 (byte 1) 0 0 (byte 2) (byte 3) (byte 4) (byte 5)
    else (* '<cBBBBBBHB' *)
      if Nat.ltb (length msgbuf) 10 then Err MAVError
      else
        let incompat := byte 2 in
        let siglen := if N.eqb (N.land incompat 1) 0 then 0 else 13 in
        decode_body msgbuf 10 siglen b0 (byte 1) incompat (byte 3) (byte 4) (byte 5) (byte 6)
                    (byte 7%nat + 256 * byte 8%nat + 65536 * byte 9%nat)%N
  end.
End Decode.
