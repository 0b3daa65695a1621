(** Model of protocol_meta/msg_header.py. *)
From Coq Require Import List NArith ZArith Bool.
From Verif.Model Require Import Py Dialect ProtocolMeta BitOps.
Import ListNotations.

(** is_valid_header; protocol_meta/msg_header.py:20-34.  buffer[0], buffer[1], buffer[5] exist because of the length
    test, so they are read with a default. *)
Definition is_valid_header (b : bytes) : bool :=
  if negb (Nat.eqb (length b) header_len) then false
  else (N.eqb (nth 0 b 0%N) stx
        && match payload_length (nth 5 b 0%N) with       (* in keys() and get(...) == buffer[1] *)
           | Some n => N.eqb (N.of_nat n) (nth 1 b 0%N)
           | None => false
           end)%bool.

(** The loop of hamming_distance_2_valid_header; protocol_meta/msg_header.py:56-62.  State: (min_dist, chosen_msg_id).
    The [break] at 61-62 stops the iteration whenever candidate_dist is 0. *)
Fixpoint closest_loop (tab : list (N * nat)) (b1 b5 : Z) (max_len : option Z) (st : Z * Z) : res (Z * Z) :=
  match tab with
  | [] => Ok st
  | (msg_id, msg_len) :: t =>
      do! d1 <- hamming_distance (HInt (Z.of_nat msg_len)) (HInt b1) 8 in
      do! d2 <- hamming_distance (HInt (Z.of_N msg_id)) (HInt b5) 8 in
      let cand := (Z.of_nat d1 + Z.of_nat d2)%Z in
      let '(min_dist, chosen) := st in
      let ok_len := match max_len with None => true | Some m => (Z.of_nat msg_len <=? m)%Z end in
      let st' := if ((cand <? min_dist)%Z && ok_len)%bool then (cand, Z.of_N msg_id) else (min_dist, chosen) in
      if (cand =? 0)%Z then Ok st' else closest_loop t b1 b5 max_len st'
  end.

(** hamming_distance_2_valid_header; protocol_meta/msg_header.py:37-65. *)
Definition hamming_distance_2_valid_header (b : bytes) (max_len : option Z) : res (Z * Z) :=
  if negb (Nat.eqb (length b) header_len) then Err HeaderLength
  else
    do! dist <- hamming_distance (HInt (Z.of_N stx)) (HInt (Z.of_N (nth 0 b 0%N))) 8 in
    do! r <- closest_loop msgs_payload_length (Z.of_N (nth 1 b 0%N)) (Z.of_N (nth 5 b 0%N)) max_len (17%Z, (-1)%Z) in
    Ok ((Z.of_nat dist + fst r)%Z, snd r).

(** FrameHeader objects: the only attribute is [buffer]; protocol_meta/msg_header.py:68-81. *)
Record frame_header := FH { fh_buffer : bytes }.

(** [msg_id in meta.msgs_payload_length] for a Python int (negative ints are never keys). See protocol_meta/msg_header.py:71-81. *)
Definition payload_length_z (i : Z) : option nat :=
  if (i <? 0)%Z then None else payload_length (Z.to_N i).

(** FrameHeader.__init__; protocol_meta/msg_header.py:71-81. *)
Definition frame_header_init (msg_id sys_id comp_id seq : Z) : res frame_header :=
  if ((sys_id <? 0) || (comp_id <? 0) || (seq <? 0) || (255 <? sys_id) || (255 <? comp_id) || (255 <? seq))%Z
  then Err NonUint8
  else match payload_length_z msg_id with
       | Some len => Ok (FH [stx; N.of_nat len; Z.to_N seq; Z.to_N sys_id; Z.to_N comp_id; Z.to_N msg_id])
       | None => if ((msg_id <? 0) || (255 <? msg_id))%Z then Err NonUint8 else Err NonExistentMsdId
       end.

(** Accessors; protocol_meta/msg_header.py:83-106. *)
Definition fh_length (h : frame_header) : N := nth 1 (fh_buffer h) 0%N.
(** sequence; protocol_meta/msg_header.py:88-91. *)
Definition fh_sequence (h : frame_header) : N := nth 2 (fh_buffer h) 0%N.
(** sys_id; protocol_meta/msg_header.py:93-96. *)
Definition fh_sys_id (h : frame_header) : N := nth 3 (fh_buffer h) 0%N.
(** comp_id; protocol_meta/msg_header.py:98-101. *)
Definition fh_comp_id (h : frame_header) : N := nth 4 (fh_buffer h) 0%N.
(** msg_id; protocol_meta/msg_header.py:103-106. *)
Definition fh_msg_id (h : frame_header) : N := nth 5 (fh_buffer h) 0%N.

(** FrameHeader.hamming_distance; protocol_meta/msg_header.py:113-117. *)
Definition fh_hamming_distance (h : frame_header) (some_buffer : bytes) : res nat :=
  if negb (Nat.eqb (length some_buffer) header_len) then Err HeaderLength
  else hamming_distance (HBytes (fh_buffer h)) (HBytes some_buffer) 8.

(** FrameHeader.from_buffer; protocol_meta/msg_header.py:125-138. *)
Definition from_buffer (b : bytes) (force_msg_id : option Z) : res frame_header :=
  if negb (Nat.eqb (length b) header_len) then Err HeaderLength
  else
    let msg_id := match force_msg_id with Some m => m | None => Z.of_N (nth 5 b 0%N) end in
    frame_header_init msg_id (Z.of_N (nth 3 b 0%N)) (Z.of_N (nth 4 b 0%N)) (Z.of_N (nth 2 b 0%N)).
