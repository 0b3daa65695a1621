(** Model of message signing: class MAVLinkSigning, MAVLink_message.sign_packet and pack, MAVLink.check_signature and decode with a signing
    state; mavlink_utils/HC_dialect.py:212-248, 8583-8596, 8774-8957 (WIRE_PROTOCOL_VERSION = "1.0"). *)
From Coq Require Import String Ascii List NArith ZArith Bool.
From Verif.Model Require Import Py Dialect ProtocolMeta Struct Crc Mavlink.
Import ListNotations.

(** MAVLinkSigning; mavlink_utils/HC_dialect.py:8583-8596.  Simplified: allow_unsigned_callback is a pure predicate of the message id. *)
Record signing := Signing {
  sg_key : option bytes; sg_timestamp : Z; sg_link : Z; sg_outgoing : bool; sg_allow : option (N -> bool);
  sg_streams : list ((N * N * N) * Z);
  sg_sig : nat; sg_badsig : nat; sg_goodsig : nat; sg_unsigned : nat; sg_reject : nat
}.

(** MAVLinkSigning.__init__; mavlink_utils/HC_dialect.py:8585-8596. *)
Definition signing_new : signing := Signing None 0 0 false None [] 0 0 0 0 0.

(** Equality of the keys of stream_timestamps: tuples of three numbers; mavlink_utils/HC_dialect.py:8787-8788. *)
Definition stream_eqb (a b : N * N * N) : bool :=
  let '(a1, a2, a3) := a in let '(b1, b2, b3) := b in (N.eqb a1 b1 && N.eqb a2 b2 && N.eqb a3 b3)%bool.

(** Comparison of bytes objects, sig1 != sig2; mavlink_utils/HC_dialect.py:8811. *)
Fixpoint same_bytes (a b : bytes) : bool :=
  match a, b with
  | [], [] => true
  | x :: a, y :: b => (N.eqb x y && same_bytes a b)%bool
  | _, _ => false
  end.

(** A received message with the attributes _signed, _link_id and _payload; mavlink_utils/HC_dialect.py:8948-8953. *)
Record received := Received { v_msg : decoded; v_signed : bool; v_link : option N; v_payload : bytes }.

Section Signed.
(** hashlib's sha256 (not modelled: any function from bytes to bytes) and bytes.decode as in Mavlink.v. *)
Variable sha256 : bytes -> bytes.
Variable to_string : bytes -> list N.

(** MAVLink.check_signature; mavlink_utils/HC_dialect.py:8774-8819.  [key] is secret_key; [msgbuf] has at least 13 bytes. *)
Definition check_signature (sg : signing) (key msgbuf : bytes) (sys comp : N) : signing * bool :=
  let n := length msgbuf in
  let timestamp := Z.of_N (le_val (slice msgbuf (n - 12) (n - 6))) in
  let stream := (nth (n - 13) msgbuf 0%N, sys, comp) in
  let with_streams d := Signing (sg_key sg) (sg_timestamp sg) (sg_link sg) (sg_outgoing sg) (sg_allow sg) d (sg_sig sg) (sg_badsig sg)
                                (sg_goodsig sg) (sg_unsigned sg) (sg_reject sg) in
  let verify sg :=
    if same_bytes (firstn 6 (sha256 (key ++ firstn (n - 6) msgbuf))) (skipn (n - 6) msgbuf)
    then (Signing (sg_key sg) (Z.max (sg_timestamp sg) timestamp) (sg_link sg) (sg_outgoing sg) (sg_allow sg) (sg_streams sg) (sg_sig sg)
                  (sg_badsig sg) (sg_goodsig sg) (sg_unsigned sg) (sg_reject sg), true)
    else (sg, false) in
  match dict_get stream_eqb (sg_streams sg) stream with
  | Some old => if Z.leb timestamp old then (sg, false) else verify sg
  | None => if Z.ltb (timestamp + 6000 * 1000) (sg_timestamp sg) then (sg, false)
            else verify (with_streams (dict_set stream_eqb (sg_streams sg) stream timestamp))
  end.

(** The counters; mavlink_utils/HC_dialect.py:8871-8896. *)
Definition count (sg : signing) (sig bad good unsigned reject : nat) : signing :=
  Signing (sg_key sg) (sg_timestamp sg) (sg_link sg) (sg_outgoing sg) (sg_allow sg) (sg_streams sg) (sg_sig sg + sig) (sg_badsig sg + bad)
          (sg_goodsig sg + good) (sg_unsigned sg + unsigned) (sg_reject sg + reject).

(** The verdict of allow_unsigned_callback, False without one; mavlink_utils/HC_dialect.py:8883-8895. *)
Definition ask_callback (sg : signing) (msgId : N) : signing * bool :=
  match sg_allow sg with
  | None => (sg, false)
  | Some f => if f msgId then (count sg 0 0 0 1 0, true) else (count sg 0 0 0 0 1, false)
  end.

(** The signature part of decode: sig_ok and accept_signature (True without a key); mavlink_utils/HC_dialect.py:8870-8898. *)
Definition judge_signature (sg : signing) (msgbuf : bytes) (siglen : nat) (sys comp msgId : N) : signing * bool * bool :=
  let sg := if Nat.eqb siglen 13 then count sg 1 0 0 0 0 else sg in
  match sg_key sg with
  | None => (sg, false, true)
  | Some key =>
      if Nat.eqb siglen 13
      then let '(sg, ok) := check_signature sg key msgbuf sys comp in
           let sg := if ok then count sg 0 0 1 0 0 else count sg 0 1 0 0 0 in
           if ok then (sg, true, true) else let '(sg, accept) := ask_callback sg msgId in (sg, false, accept)
      else let '(sg, accept) := ask_callback sg msgId in (sg, false, accept)
  end.

(** The part of decode after the header has been unpacked; mavlink_utils/HC_dialect.py:8840-8957. *)
Definition decode_signed_body (sg : signing) (msgbuf : bytes) (headerlen siglen : nat) (magic mlen incompat compat seq sys comp msgId : N)
  : signing * res received :=
  if negb (N.eqb magic 254 || N.eqb magic 253) then (sg, Err MAVError)
  else if negb (Z.eqb (Z.of_N mlen) (Z.of_nat (length msgbuf) - Z.of_nat (headerlen + 2 + siglen))) then (sg, Err MAVError)
  else match get_class msgId with
  | None => (sg, Err MAVError)
  | Some c =>
    let n := length msgbuf in
    let crc := le_val (firstn 2 (skipn (n - (2 + siglen)) msgbuf)) in
    let crcbuf := slice msgbuf 1 (n - (2 + siglen)) ++ [mc_crc_extra c] in
    if negb (N.eqb crc (x25crc crcbuf)) then (sg, Err MAVError)
    else
      let '(sg, sig_ok, accept_signature) := judge_signature sg msgbuf siglen sys comp msgId in
      if negb accept_signature then (sg, Err MAVError)
      else
        (sg,
         do! csize <- calcsize (mc_unpacker c) in
         let mbuf := slice msgbuf headerlen (n - (2 + siglen)) in
         let mbuf := firstn csize (mbuf ++ repeat 0%N (csize - length mbuf)) in
         do! t <- struct_unpack (mc_unpacker c) mbuf in
         do! tl <- reorder c t in
         Ok (Received (Decoded msgId mlen seq sys comp incompat compat crc c (terminate to_string (mc_fieldtypes c) tl))
                      sig_ok (if sig_ok then Some (nth (n - 13) msgbuf 0%N) else None) (slice msgbuf 6 (n - (2 + siglen)))))
  end.

(** MAVLink.decode; mavlink_utils/HC_dialect.py:8821-8957. *)
Definition decode_signed (sg : signing) (msgbuf : bytes) : signing * res received :=
  match msgbuf with
  | [] => (sg, Err IndexError)
  | b0 :: _ =>
    let byte i := nth i msgbuf 0%N in
    if N.eqb b0 stx
    then if Nat.ltb (length msgbuf) 6 then (sg, Err MAVError)
         else decode_signed_body sg msgbuf 6 0 b0 (byte 1) 0 0 (byte 2) (byte 3) (byte 4) (byte 5)
    else if Nat.ltb (length msgbuf) 10 then (sg, Err MAVError)
         else
           let incompat := byte 2 in
           let siglen := if N.eqb (N.land incompat 1) 0 then 0 else 13 in
           decode_signed_body sg msgbuf 10 siglen b0 (byte 1) incompat (byte 3) (byte 4) (byte 5) (byte 6)
                              (byte 7%nat + 256 * byte 8%nat + 65536 * byte 9%nat)%N
  end.

(** MAVLink_message.sign_packet; mavlink_utils/HC_dialect.py:212-219.  struct.error for a link id or timestamp out of range, TypeError for
    h.update(None); the message keeps the 7 bytes then, but pack does not return. *)
Definition sign_packet (sg : signing) (msgbuf : bytes) : signing * res bytes :=
  match struct_pack "<BQ" [VInt (sg_link sg); VInt (sg_timestamp sg)] with
  | Err e => (sg, Err e)
  | Ok b =>
      let msgbuf := msgbuf ++ firstn 7 b in
      match sg_key sg with
      | None => (sg, Err TypeError)
      | Some key =>
          (Signing (sg_key sg) (sg_timestamp sg + 1) (sg_link sg) (sg_outgoing sg) (sg_allow sg) (sg_streams sg) (sg_sig sg)
                   (sg_badsig sg) (sg_goodsig sg) (sg_unsigned sg) (sg_reject sg),
           Ok (msgbuf ++ firstn 6 (sha256 (key ++ msgbuf))))
      end
  end.

(** MAVLink_message.pack with a signing state; mavlink_utils/HC_dialect.py:221-248.  In protocol version 1.0 the header has no flags. *)
Definition pack_signed (sg : signing) (m : message) (seq sys comp : Z) (force_mavlink1 : bool) : signing * res bytes :=
  match message_pack m seq sys comp with
  | Err e => (sg, Err e)
  | Ok msgbuf => if (sg_outgoing sg && negb force_mavlink1)%bool then sign_packet sg msgbuf else (sg, Ok msgbuf)
  end.
End Signed.
