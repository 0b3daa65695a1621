(** MAVLink.decode of mavlink_utils/minimal_dialect.py: the same text as in HC_dialect.py, with its own message table.  Packing needs no copy:
    message_pack of Mavlink.v takes the class of the message, and the text of MAVLink_message.pack (minimal_dialect.py:221-248) and MAVLink.send
    (2380-2388) is the same. *)
From Coq Require Import String Ascii List NArith ZArith Bool.
From Verif.Model Require Import Py Dialect ProtocolMeta Struct Crc Mavlink MinimalTable.
Import ListNotations.

(** mavlink_map; mavlink_utils/minimal_dialect.py:2272-2279. *)
Definition minimal_map : list (N * msg_class) := map (fun c => (mc_key c, c)) minimal_classes.
(** The class of an id in mavlink_map; mavlink_utils/minimal_dialect.py:2272-2279. *)
Definition min_class (i : N) : option msg_class := dict_get N.eqb minimal_map i.

Section Decode.
Variable to_string : bytes -> list N.

(** The part of decode after the header has been unpacked; mavlink_utils/minimal_dialect.py:2568-2685.
    [msgbuf] is the frame, [headerlen] 6 or 10.  The CRC trailer unpack at 2591 cannot fail once the length test passed.
    Signing (2601-2626) is skipped: secret_key is None. *)
Definition min_decode_body (msgbuf : bytes) (headerlen siglen : nat) (magic mlen incompat compat seq sys comp msgId : N)
  : res decoded :=
  if negb (N.eqb magic 254 || N.eqb magic 253) then Err MAVError
  else if negb (Z.eqb (Z.of_N mlen) (Z.of_nat (length msgbuf) - Z.of_nat (headerlen + 2 + siglen))) then Err MAVError
  else match min_class msgId with
  | None => Err MAVError
  | Some c =>
    let n := length msgbuf in
    let crc := le_val (firstn 2 (skipn (n - (2 + siglen)) msgbuf)) in
    let crcbuf := slice msgbuf 1 (n - (2 + siglen)) ++ [mc_crc_extra c] in
    if negb (N.eqb crc (x25crc crcbuf)) then Err MAVError
    else
      do! csize <- calcsize (mc_unpacker c) in
      let mbuf := slice msgbuf headerlen (n - (2 + siglen)) in
      let mbuf := firstn csize (mbuf ++ repeat 0%N (csize - length mbuf)) in
      do! t <- struct_unpack (mc_unpacker c) mbuf in
      do! tl <- reorder c t in
      Ok (Decoded msgId mlen seq sys comp incompat compat crc c (terminate to_string (mc_fieldtypes c) tl))
  end.

(** MAVLink.decode; mavlink_utils/minimal_dialect.py:2549-2685.  IndexError on an empty buffer (msgbuf[0]). *)
Definition min_decode (msgbuf : bytes) : res decoded :=
  match msgbuf with
  | [] => Err IndexError
  | b0 :: _ =>
    let byte i := nth i msgbuf 0%N in
    if N.eqb b0 stx
    then (* '<cBBBBB' *)
      if Nat.ltb (length msgbuf) 6 then Err MAVError
      else min_decode_body msgbuf 6 0 b0 (byte 1) 0 0 (byte 2) (byte 3) (byte 4) (byte 5)
    else (* '<cBBBBBBHB' *)
      if Nat.ltb (length msgbuf) 10 then Err MAVError
      else
        let incompat := byte 2 in
        let siglen := if N.eqb (N.land incompat 1) 0 then 0 else 13 in
        min_decode_body msgbuf 10 siglen b0 (byte 1) incompat (byte 3) (byte 4) (byte 5) (byte 6)
                    (byte 7%nat + 256 * byte 8%nat + 65536 * byte 9%nat)%N
  end.
End Decode.
