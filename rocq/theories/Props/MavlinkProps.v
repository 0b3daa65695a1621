(** C07-C10, C59: checksum, decode, pack and error detection. *)
From Coq Require Import String Ascii List NArith ZArith Bool Lia.
From Verif.Model Require Import Py Dialect ProtocolMeta Struct Crc Mavlink.
From Verif.Spec Require Import Bytes Bits Header CrcSpec Frame.
From Verif.Proofs Require Import Base DialectP StructP CrcP MavlinkP FieldsP PackP ErrP SendP MavlinkMore.
Import ListNotations.

(** C07.  The table-free checksum of the library is the bit-serial CRC-16/MCRF4XX. *)
Theorem c07_crc_is_reference : forall l, is_bytes l -> x25crc l = crc16 l.
Proof. exact x25crc_is_crc16. Qed.
Print Assumptions c07_crc_is_reference.

Theorem c07_crc_incremental : forall a b, x25_accumulate (x25crc a) b = x25crc (a ++ b).
Proof. exact x25_incremental. Qed.
Print Assumptions c07_crc_incremental.

Theorem c07_crc_affine : forall a b c, length a = length b -> length b = length c ->
  x25crc (xor_bytes (xor_bytes a b) c) = N.lxor (N.lxor (x25crc a) (x25crc b)) (x25crc c).
Proof. exact x25_affine. Qed.
Print Assumptions c07_crc_affine.

Theorem c07_crc_range : forall l, is_bytes l -> (x25crc l < 65536)%N.
Proof. exact x25crc_bound. Qed.
Print Assumptions c07_crc_range.

(** The published check value of CRC-16/MCRF4XX on "123456789". *)
Example c07_ex : x25crc [49; 50; 51; 52; 53; 54; 55; 56; 57]%N = 28561%N /\ crc16 [49; 50; 51; 52; 53; 54; 55; 56; 57]%N = 28561%N.
Proof. split; vm_compute; reflexivity. Qed.

(** C08.  A buffer is accepted iff it is a frame; then every attribute of the returned message is determined. *)
Theorem c08_decode_v1 : forall text b, is_bytes b -> nth 0 b 0%N = 254%N -> forall d,
  decode text b = Ok d <->
  exists c, frame_v1 c b /\ d_class d = c /\ d_msgId d = nth 5 b 0%N /\ d_mlen d = nth 1 b 0%N /\ d_seq d = nth 2 b 0%N /\
    d_sys d = nth 3 b 0%N /\ d_comp d = nth 4 b 0%N /\ d_incompat d = 0%N /\ d_compat d = 0%N /\
    d_crc d = le_number (skipn (length b - 2) b) /\
    d_fields d = map (f_value text c (payload b)) (seq 0 (f_count c)).
Proof. exact decode_v1_iff. Qed.
Print Assumptions c08_decode_v1.

Theorem c08_decode_v2 : forall text b, is_bytes b -> b <> [] -> nth 0 b 0%N <> 254%N -> forall d,
  decode text b = Ok d <->
  exists c, frame_v2 c b /\ d_class d = c /\ d_msgId d = (nth 7 b 0 + 256 * nth 8 b 0 + 65536 * nth 9 b 0)%N /\ d_mlen d = nth 1 b 0%N /\
    d_seq d = nth 4 b 0%N /\ d_sys d = nth 5 b 0%N /\ d_comp d = nth 6 b 0%N /\ d_incompat d = nth 2 b 0%N /\ d_compat d = nth 3 b 0%N /\
    d_crc d = le_number (firstn 2 (skipn (10 + length (payload_v2 b)) b)) /\
    d_fields d = map (f_value text c (payload_v2 b)) (seq 0 (f_count c)).
Proof. exact decode_v2_full. Qed.
Print Assumptions c08_decode_v2.

Theorem c08_decode_errors : forall text b e, is_bytes b -> decode text b = Err e ->
  (b = [] /\ e = IndexError) \/ (b <> [] /\ e = MAVError).
Proof. exact decode_errors. Qed.
Print Assumptions c08_decode_errors.

(** A heartbeat; its truncated and its damaged version; a heartbeat whose payload was cut to one byte is still accepted and
    reads as zero padded. *)
Definition hb : bytes := [254; 9; 17; 1; 1; 0; 5; 0; 0; 0; 2; 3; 81; 4; 3; 251; 233]%N.
Example c08_ex :
  (exists d, decode (fun b => b) hb = Ok d /\ d_seq d = 17%N /\ d_fields d = map (fun z => FOne (VInt z)) [2; 3; 81; 5; 4; 3]%Z) /\
  decode (fun b => b) (firstn 16 hb) = Err MAVError /\
  decode (fun b => b) (set_nth hb 8 1%N) = Err MAVError /\
  decode (fun b => b) [] = Err IndexError.
Proof.
  split; [|vm_compute; auto]. eexists. split; [vm_compute; reflexivity|]. split; reflexivity.
Qed.
Example c08_ex_v2 : exists d, decode (fun b => b) ([253; 1; 1; 0; 7; 1; 1; 0; 0; 0; 42] ++ [191; 66] ++ repeat 9 13)%N = Ok d /\
   d_seq d = 7%N /\ d_fields d = map (fun z => FOne (VInt z)) [0; 0; 0; 42; 0; 0]%Z.
Proof. eexists. split; [vm_compute; reflexivity|]. split; reflexivity. Qed.

(** C09.  What is packed is decoded: every message of the dialect, arrays and strings included. *)
Theorem c09_pack_decode : forall text c fs seq sys comp, In c mavlink_classes -> fits_all c fs ->
  in_byte seq -> in_byte sys -> in_byte comp ->
  exists b d, message_pack (Msg c fs) seq sys comp = Ok b /\ is_bytes b /\ length b = 8 + wire_size c /\ frame_v1 c b /\
    decode text b = Ok d /\ sent text c fs (Z.to_N seq) (Z.to_N sys) (Z.to_N comp) d.
Proof. exact pack_decode_sent. Qed.
Print Assumptions c09_pack_decode.

Theorem c09_pack_needs_bytes : forall m seq sys comp b, message_pack m seq sys comp = Ok b ->
  in_byte seq /\ in_byte sys /\ in_byte comp.
Proof. exact pack_bad_header. Qed.
Print Assumptions c09_pack_needs_bytes.

(** Message 0 (scalars) and message 253 (uint8_t severity, char[50] text). *)
Definition hb_fields : list fieldval := map (fun z => FOne (VInt z)) [2; 3; 81; 5; 4; 3]%Z.
Definition class_of (i : N) : msg_class := match get_class i with Some c => c | None => MC 0 0 "" [] [] [] "" [] [] [] 0 "" 0 "" end.
Example c09_ex_fits : In (class_of 0) mavlink_classes /\ fits_all (class_of 0) hb_fields.
Proof.
  split; [left; reflexivity|]. split; [reflexivity|]. intros i Hi. change (f_count (class_of 0)) with 6 in Hi.
  do 6 (destruct i; [eexists; split; [reflexivity|]; split; [discriminate|]; vm_compute; split; [discriminate|reflexivity]|]). lia.
Qed.
Example c09_ex_pack : message_pack (Msg (class_of 0) hb_fields) 17 1 1 = Ok hb.
Proof. vm_compute. reflexivity. Qed.
Example c09_ex_text : exists b d,
  message_pack (Msg (class_of 253) [FOne (VInt 6); FOne (VBytes [79; 75]%N)]) 0 1 1 = Ok b /\ length b = 59 /\
  decode (fun b => b) b = Ok d /\ d_fields d = [FOne (VInt 6); FText [79; 75]%N].
Proof. eexists. eexists. split; [vm_compute; reflexivity|]. split; [reflexivity|]. split; [vm_compute; reflexivity|reflexivity]. Qed.

(** C10.  One flipped bit: rejected, except in a frame of message 4 or 6 with 208 payload bytes when the flipped bit is the
    one that turns 4 into 6. *)
Theorem c10_single_bit : forall text f g c p, is_bytes f -> is_bytes g -> length f = length g ->
  frame_v1 c f -> flips f g = [p] ->
  (decode text g = Err MAVError \/ exists d, decode text g = Ok d) /\
  ((exists d, decode text g = Ok d) <-> exceptional_frame f /\ p = 41).
Proof. exact single_bit. Qed.
Print Assumptions c10_single_bit.

(** The full statement "every single bit error is rejected" is false. *)
Theorem c10_single_bit_refuted : exists text f g p, is_bytes f /\ is_bytes g /\ length f = length g /\ flips f g = [p] /\
  (exists d, decode text f = Ok d) /\ (exists d, decode text g = Ok d).
Proof. exact single_bit_counterexample. Qed.
Print Assumptions c10_single_bit_refuted.

(** Frames as produced by pack (payload of the message's own size) never fall in the exception. *)
Theorem c10_packed_single_bit : forall text f g c p, is_bytes f -> is_bytes g -> length f = length g ->
  frame_v1 c f -> length f = 8 + wire_size c -> flips f g = [p] -> decode text g = Err MAVError.
Proof. exact packed_single_bit. Qed.
Print Assumptions c10_packed_single_bit.

(** Start marker and id intact: odd numbers of flips, two flips, bursts. *)
Theorem c10_odd : forall text f g c, is_bytes f -> is_bytes g -> length f = length g -> frame_v1 c f ->
  nth 0 f 0%N = nth 0 g 0%N -> nth 5 f 0%N = nth 5 g 0%N ->
  Nat.odd (length (flips f g)) = true -> decode text g = Err MAVError.
Proof. exact decode_reject_odd. Qed.
Print Assumptions c10_odd.

Theorem c10_two : forall text f g c, is_bytes f -> is_bytes g -> length f = length g -> frame_v1 c f ->
  nth 0 f 0%N = nth 0 g 0%N -> nth 5 f 0%N = nth 5 g 0%N ->
  length (flips f g) = 2 -> decode text g = Err MAVError.
Proof. exact decode_reject_two. Qed.
Print Assumptions c10_two.

(** A burst of at most 16 bits inside the checksummed bytes or inside the checksum, or of at most 8 bits anywhere. *)
Theorem c10_burst : forall text f g c p, is_bytes f -> is_bytes g -> length f = length g -> frame_v1 c f ->
  nth 0 f 0%N = nth 0 g 0%N -> nth 5 f 0%N = nth 5 g 0%N -> f <> g ->
  (forall i, In i (flips f g) -> p <= i < p + 16) ->
  ((forall i, In i (flips f g) -> i < 8 * (length f - 2)) \/ (forall i, In i (flips f g) -> 8 * (length f - 2) <= i) \/
   (forall i, In i (flips f g) -> p <= i < p + 8)) ->
  decode text g = Err MAVError.
Proof. exact decode_reject_burst. Qed.
Print Assumptions c10_burst.

(** A changed length byte, whatever else is changed. *)
Theorem c10_length_byte : forall text f g c, is_bytes f -> is_bytes g -> length f = length g -> frame_v1 c f ->
  nth 0 f 0%N = nth 0 g 0%N -> nth 1 f 0%N <> nth 1 g 0%N -> decode text g = Err MAVError.
Proof. exact decode_reject_length. Qed.
Print Assumptions c10_length_byte.

Example c10_ex : frame_v1 (class_of 0) hb /\ length hb = 8 + wire_size (class_of 0) /\
  flips hb (set_nth hb 8 1%N) = [64] /\ flips hb (set_nth (set_nth hb 8 1%N) 9 128%N) = [64; 79] /\
  flips hb (set_nth (set_nth hb 8 7%N) 9 131%N) = [64; 65; 66; 72; 73; 79] /\ flips hb (set_nth hb 15 250%N) = [120].
Proof.
  split; [|vm_compute; auto].
  split; [split; [left; reflexivity|reflexivity]|]. exists (skipn 1 (firstn 15 hb)), 251%N, 233%N, [].
  split; [reflexivity|]. split; [reflexivity|]. split; [simpl; lia|]. split; vm_compute; reflexivity.
Qed.

(** C59.  MAVLink.send: frames are written in order, numbered modulo 256, and the counters are exact. *)
Theorem c59_send : forall text sys comp msgs, in_byte sys -> in_byte comp ->
  Forall (fun m => In (m_class m) mavlink_classes /\ fits_all (m_class m) (m_fields m)) msgs ->
  exists frames s, fold_res mav_send msgs (mav_init sys comp) = Ok s /\ length frames = length msgs /\
    mav_file s = concat frames /\ mav_seq s = (Z.of_nat (length msgs) mod 256)%Z /\
    mav_packets s = Z.of_nat (length msgs) /\ mav_bytes s = Z.of_nat (length (mav_file s)) /\
    forall k, k < length msgs -> exists c fs d,
      nth k (map Some msgs) None = Some (Msg c fs) /\
      decode text (nth k frames []) = Ok d /\ sent text c fs (N.of_nat (k mod 256)) (Z.to_N sys) (Z.to_N comp) d.
Proof. exact send_all. Qed.
Print Assumptions c59_send.

Example c59_ex : exists s, fold_res mav_send (repeat (Msg (class_of 0) hb_fields) 18) (mav_init 1 1) = Ok s /\
  skipn (17 * 17) (mav_file s) = hb /\ mav_seq s = 18%Z /\ mav_bytes s = 306%Z.
Proof. eexists. split; [vm_compute; reflexivity|]. repeat split. Qed.
