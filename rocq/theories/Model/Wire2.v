(** Model of MAVLink_header.pack and MAVLink_message.pack when WIRE_PROTOCOL_VERSION is "2.0"; mavlink_utils/HC_dialect.py:16, 97-104, 221-248
    (the same lines of minimal_dialect.py). *)
From Coq Require Import String Ascii List NArith ZArith Bool.
From Verif.Model Require Import Py Dialect Struct Crc Mavlink Signing.
Import ListNotations.
Local Open Scope list_scope.

(** The length of the payload without trailing zeros, of which the first byte is kept; mavlink_utils/HC_dialect.py:230-231. *)
Fixpoint stripped_length (payload : bytes) (plen : nat) : nat :=
  match plen with
  | S (S _ as p) => if N.eqb (nth p payload 1%N) 0 then stripped_length payload p else plen
  | _ => plen
  end.

(** The start marker which the header of version 2.0 is packed with; mavlink_utils/HC_dialect.py:99. *)
Definition written_marker : Z := 254.

(** MAVLink_header.pack, version 2.0, with any start marker; mavlink_utils/HC_dialect.py:98-102. *)
Definition header_pack2 (marker mlen incompat compat seq sys comp msgId : Z) : res bytes :=
  struct_pack "<BBBBBBBHB" [VInt marker; VInt mlen; VInt incompat; VInt compat; VInt seq; VInt sys; VInt comp;
                            VInt (Z.land msgId 65535); VInt (Z.shiftr msgId 16)].

(** The frame up to the checksum; mavlink_utils/HC_dialect.py:222-245. *)
Definition pack_frame2 (marker : Z) (c : msg_class) (outgoing : bool) (seq sys comp : Z) (payload : bytes) : res bytes :=
  let payload := firstn (stripped_length payload (length payload)) payload in
  let incompat := if outgoing then 1%Z else 0%Z in
  do! h <- header_pack2 marker (Z.of_nat (length payload)) incompat 0 seq sys comp (Z.of_N (mc_id c)) in
  let msgbuf := h ++ payload in
  let crc := x25_accumulate (x25crc (skipn 1 msgbuf)) [mc_pack_extra c] in
  do! t <- struct_pack "<H" [VInt (Z.of_N crc)] in
  Ok (msgbuf ++ t).

Section Wire2.
Variable sha256 : bytes -> bytes.

(** MAVLink_message.pack, version 2.0, called by pack of the class of the message; mavlink_utils/HC_dialect.py:221-248, 2227-2228. *)
Definition pack_v2 (marker : Z) (sg : signing) (m : message) (seq sys comp : Z) (force_mavlink1 : bool) : signing * res bytes :=
  if force_mavlink1 then (sg, message_pack m seq sys comp)
  else match (do! args <- pack_args m in
              do! payload <- struct_pack (mc_pack_fmt (m_class m)) args in
              pack_frame2 marker (m_class m) (sg_outgoing sg) seq sys comp payload) with
       | Err e => (sg, Err e)
       | Ok msgbuf => if sg_outgoing sg then sign_packet sha256 sg msgbuf else (sg, Ok msgbuf)
       end.
End Wire2.
