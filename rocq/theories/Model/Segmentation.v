(** Model of inference/buffer_segmentation.py. *)
From Coq Require Import String List NArith ZArith Bool.
From Verif.Model Require Import Py Dialect ProtocolMeta MsgHeader Mavlink Struct.
Import ListNotations.

(** MsgParts; inference/buffer_segmentation.py:14-19. *)
Inductive msg_part := HEADER | PAYLOAD | CHECKSUM | UNKNOWN.

(** Enum equality with MsgParts.UNKNOWN. See inference/buffer_segmentation.py:107-124. *)
Definition is_unknown (p : msg_part) : bool := match p with UNKNOWN => true | _ => false end.

(** A buffer structure: start index -> message id, in insertion order. See inference/buffer_segmentation.py:85-125. *)
Definition structure := list (nat * N).

(** The three results of segment_buffer: msg_parts, bit_validity (0/1 floats, here Z), buffer_structure. See inference/buffer_segmentation.py:85-125. *)
Definition seg_result : Type := list msg_part * list Z * structure.

Section Segment.
(** The protocol_parser_handler given to BufferSegmentation: only whether it returns or raises (and what) matters to
    segment_buffer; inference/buffer_segmentation.py:78-83, 114. *)
Context {D : Type}.
Variable parser : bytes -> res D.

(** Body of the loop at byte_idx; inference/buffer_segmentation.py:107-124.
    [msg_parts[byte_idx]] exists for every index the loop visits. *)
Definition segment_at (buffer : bytes) (st : seg_result) (byte_idx : nat) : res seg_result :=
  let '(msg_parts, bit_validity, struct) := st in
  if negb (is_unknown (nth byte_idx msg_parts UNKNOWN)) then Ok st
  else
    let hdr_bytes := slice buffer byte_idx (byte_idx + header_len) in
    if is_valid_header hdr_bytes then
      do! header <- from_buffer hdr_bytes None in
      let len := N.to_nat (fh_length header) in
      let candidate := slice buffer byte_idx (byte_idx + len + protocol_overhead) in
      match parser candidate with
      | Err MAVError => Ok st                                   (* contextlib.suppress(MAVError) *)
      | Err e => Err e
      | Ok _ =>
        let msg_parts := fill msg_parts byte_idx (byte_idx + header_len) HEADER in
        let msg_parts := fill msg_parts (byte_idx + header_len) (byte_idx + header_len + len) PAYLOAD in
        let msg_parts := fill msg_parts (byte_idx + header_len + len) (byte_idx + protocol_overhead + len) CHECKSUM in
        let bit_validity := fill bit_validity (byte_idx * 8) ((byte_idx + length candidate) * 8) 1%Z in
        Ok (msg_parts, bit_validity, dict_set Nat.eqb struct byte_idx (fh_msg_id header))
      end
    else Ok st.

(** BufferSegmentation.segment_buffer; inference/buffer_segmentation.py:85-125.
    range(len(buffer) - 8 + 1) is empty for buffers shorter than 8 bytes. *)
Definition segment_buffer (buffer : bytes) : res seg_result :=
  fold_res (segment_at buffer) (seq 0 (length buffer + 1 - protocol_overhead))
    (repeat UNKNOWN (length buffer), repeat 0%Z (length buffer * 8), []).

(** BufferSegmentation.get_buffer_structure, its structure only; inference/buffer_segmentation.py:183-190. *)
Definition get_buffer_structure (buffer : bytes) : res structure :=
  do! r <- segment_buffer buffer in Ok (snd r).
End Segment.

(** The while loops of bad_buffer_parts / bad_buffer_idx; inference/buffer_segmentation.py:141-153, 169-181.
    State: length (of the current bad run), byte_idx and the intervals found so far.
    [fuel] iterations are made, one per byte of the buffer. *)
Fixpoint bad_loop (msg_parts : list msg_part) (fuel byte_idx len : nat) (acc : list (nat * nat))
  : res (list (nat * nat)) :=
  match fuel with
  | O => Ok (if Nat.ltb 0 len then acc ++ [(byte_idx - len, byte_idx)] else acc)
  | S f =>
      do! p <- index msg_parts byte_idx in
      if is_unknown p then bad_loop msg_parts f (S byte_idx) (S len) acc
      else bad_loop msg_parts f (S byte_idx) 0
             (if Nat.ltb 0 len then acc ++ [(byte_idx - len, byte_idx)] else acc)
  end.

(** BufferSegmentation.bad_buffer_idx; inference/buffer_segmentation.py:156-181. *)
Definition bad_buffer_idx (buffer : bytes) (msg_parts : list msg_part) : res (option (list (nat * nat))) :=
  if negb (existsb is_unknown msg_parts) then Ok None
  else do! l <- bad_loop msg_parts (length buffer) 0 0 [] in Ok (Some l).

(** BufferSegmentation.bad_buffer_parts; inference/buffer_segmentation.py:128-153.  Same loop as bad_buffer_idx, but the
    sub-buffers are stored in a dict keyed by the start index. *)
Definition bad_buffer_parts (buffer : bytes) (msg_parts : list msg_part) : res (list (nat * bytes)) :=
  if negb (existsb is_unknown msg_parts) then Ok []
  else do! l <- bad_loop msg_parts (length buffer) 0 0 [] in
       Ok (fold_left (fun d iv => dict_set Nat.eqb d (fst iv) (slice buffer (fst iv) (snd iv))) l []).

(** BufferStructure objects; inference/buffer_segmentation.py:25-33 (field_models and byte_structure are only stored and
    never read by the class). *)
Record buffer_structure := BStr {
  bs_structure : structure;
  bs_count : nat;                 (* reception_count *)
  bs_received : list bytes        (* received_buffers *)
}.

(** BufferStructure.__init__; inference/buffer_segmentation.py:25-33. *)
Definition bs_init (s : structure) : buffer_structure := BStr s 0 [].

(** Python's dict equality: same keys with equal values, irrespective of the order. See inference/buffer_segmentation.py:35-39. *)
Definition dict_eqb (a b : structure) : bool :=
  (Nat.eqb (length a) (length b)
   && forallb (fun kv => match dict_get Nat.eqb b (fst kv) with Some v => N.eqb v (snd kv) | None => false end) a)%bool.

(** BufferStructure.__eq__ on two BufferStructures (or a BufferStructure and a dict); inference/buffer_segmentation.py:35-39. *)
Definition bs_eqb (a b : buffer_structure) : bool := dict_eqb (bs_structure a) (bs_structure b).

(** BufferStructure.__len__; inference/buffer_segmentation.py:56-58. *)
Definition bs_len (a : buffer_structure) : nat := length (bs_structure a).

(** BufferStructure.adheres_to_structure; inference/buffer_segmentation.py:60-69. *)
Fixpoint adheres_loop (s : structure) (buffer : bytes) : res bool :=
  match s with
  | [] => Ok true
  | (idx, msg_id) :: t =>
      do! hdr <- from_buffer (slice buffer idx (idx + header_len)) None in
      if negb (N.eqb (fh_msg_id hdr) msg_id) then Ok false else adheres_loop t buffer
  end.
(** adheres_to_structure; inference/buffer_segmentation.py:60-69. *)
Definition adheres_to_structure (a : buffer_structure) (buffer : bytes) : res bool := adheres_loop (bs_structure a) buffer.

(** BufferStructure.register_buffer; inference/buffer_segmentation.py:41-51.  Returns the object after the call (unchanged
    when the call raises) and whether it raised. *)
Definition register_buffer (a : buffer_structure) (buffer : bytes) : buffer_structure * res unit :=
  match adheres_to_structure a buffer with
  | Ok true => (BStr (bs_structure a) (bs_count a + 1) (bs_received a ++ [buffer]), Ok tt)
  | Ok false => (a, Err ValueError)
  | Err e => (a, Err e)
  end.

(** Items of the buffer description built by get_msg_fields; inference/buffer_segmentation.py:206, 211, 212. *)
Inductive desc_item :=
| DHeader (b : bytes)
| DField (name type : string)
| DCrc.

(** What get_msg_fields returns: a bare empty dict when no message was found (inference/buffer_segmentation.py:200), otherwise the pair. *)
Inductive fields_result :=
| BareDict
| FieldsAndDescription (fields : list (string * (fieldval * string))) (descr : list desc_item).

Section Fields.
Variable to_string : bytes -> list N.
Context {D : Type}.
Variable parser : bytes -> res D.

(** [parsed_msg.orders.index(idx)]; inference/buffer_segmentation.py:208. *)
Fixpoint nat_index (l : list nat) (x : nat) : res nat :=
  match l with
  | [] => Err ValueError
  | y :: t => if Nat.eqb x y then Ok 0 else do! i <- nat_index t x in Ok (S i)
  end.

(** Body of the loop over one reported message; inference/buffer_segmentation.py:203-212.  parsed_msg.format_attr(field) is
    the decoded field value (to_string/rstrip apply only to bytes attributes, which decode never leaves).
    Simplified: parsed_msg.name is taken to be the class attribute; for the three messages with a field called `name`
    (DEBUG_VECT, NAMED_VALUE_FLOAT, NAMED_VALUE_INT) the instance attribute would shadow it (they are array messages, so
    segment_buffer never reports them, C16). *)
Definition msg_fields_step (buffer : bytes) (acc : list (string * (fieldval * string)) * list desc_item) (kv : nat * N)
  : res (list (string * (fieldval * string)) * list desc_item) :=
  let '(k, v) := kv in
  do! len <- match payload_length v with Some n => Ok n | None => Err KeyError end in
  do! m <- decode to_string (slice buffer k (k + len + protocol_overhead)) in
  do! hdr <- header_pack (Z.of_N (d_mlen m)) (Z.of_N (d_seq m)) (Z.of_N (d_sys m)) (Z.of_N (d_comp m)) (Z.of_N (d_msgId m)) in
  let c := d_class m in
  do! r <- fold_res (fun st (idx_field : nat * string) =>
             let '(idx, field) := idx_field in
             do! type_idx <- nat_index (mc_orders c) idx in
             do! ty <- index (mc_fieldtypes c) type_idx in
             do! fi <- str_index (mc_fieldnames c) field in
             do! val <- index (d_fields m) fi in
             let name := (mc_name c ++ "_" ++ field)%string in
             Ok (dict_set String.eqb (fst st) name (val, ty), snd st ++ [DField name ty]))
           (combine (seq 0 (length (mc_ordered c))) (mc_ordered c)) (fst acc, snd acc ++ [DHeader hdr]) in
  Ok (fst r, snd r ++ [DCrc]).

(** BufferSegmentation.get_msg_fields; inference/buffer_segmentation.py:192-214. *)
Definition get_msg_fields (buffer : bytes) : res fields_result :=
  do! seg <- segment_buffer parser buffer in
  match snd seg with
  | [] => Ok BareDict
  | s => do! r <- fold_res (msg_fields_step buffer) s ([], []) in Ok (FieldsAndDescription (fst r) (snd r))
  end.
End Fields.
