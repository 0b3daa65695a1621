(** Model of protocol_meta/protocol_meta.py. *)
From Coq Require Import String Ascii List NArith ZArith Bool.
From Verif.Model Require Import Py Dialect.
Import ListNotations.
Local Open Scope string_scope.

(** STX = dialect.PROTOCOL_MARKER_V1; protocol_meta/protocol_meta.py:7, mavlink_utils/HC_dialect.py (0xFE). *)
Definition stx : N := 254.

(** field_lengths; protocol_meta/protocol_meta.py:8-9. *)
Definition field_lengths : list (string * nat) :=
  [("uint32_t", 4); ("float", 4); ("uint16_t", 2); ("uint8_t", 1); ("int32_t", 4); ("int16_t", 2); ("int8_t", 1);
   ("uint64_t", 8); ("char", 1); ("int64_t", 8)]%nat.

(** format_strings; protocol_meta/protocol_meta.py:10-12. *)
Definition format_strings : list (string * string) :=
  [("uint64_t", "<Q"); ("uint32_t", "<I"); ("uint16_t", "<H"); ("uint8_t", "<B");
   ("int64_t", "<q"); ("int32_t", "<i"); ("int16_t", "<h"); ("int8_t", "<b");
   ("char", "<c"); ("float", "<f")].

(** inv_format_strings = {v[1]: k}; protocol_meta/protocol_meta.py:13. *)
Definition inv_format_strings : list (ascii * string) :=
  map (fun kv => match String.get 1 (snd kv) with Some c => (c, fst kv) | None => (" "%char, fst kv) end) format_strings.

(** header_length, crc_length, protocol_overhead; protocol_meta/protocol_meta.py:15-17, 25-29. *)
Definition header_len : nat := 6.
(** crc_len; protocol_meta/protocol_meta.py:15-17, 25-29. *)
Definition crc_len : nat := 2.
(** protocol_overhead; protocol_meta/protocol_meta.py:15-17, 25-29. *)
Definition protocol_overhead : nat := header_len + crc_len.

(** dialect.mavlink_map as a dict; protocol_meta/protocol_meta.py:14, mavlink_utils/HC_dialect.py:8392-8548. *)
Definition mavlink_map : list (N * msg_class) := map (fun c => (mc_key c, c)) mavlink_classes.

(** mavlink_map.get(msg_id); used at protocol_meta/protocol_meta.py:41,55. *)
Definition get_class (i : N) : option msg_class := dict_get N.eqb mavlink_map i.

(** MavlinkDialectMeta.__msg_len; protocol_meta/protocol_meta.py:54-59.  KeyError for a type missing from
    field_lengths.  (The issubclass test at 56 always succeeds on the entries of mavlink_map.) *)
Definition msg_len (c : msg_class) : res nat :=
  fold_res (fun acc t => match dict_get String.eqb field_lengths t with
                         | Some n => Ok (acc + n)%nat
                         | None => Err KeyError
                         end) (mc_fieldtypes c) 0%nat.

(** MavlinkDialectMeta.__msg_fields; protocol_meta/protocol_meta.py:35-52.  The dict comprehension at 45-47 keeps the
    type of the last field of a given name; [dict_set] does the same.  IndexError if fewer names or types are given
    than len(fieldnames). *)
Definition msg_fields (c : msg_class) : res (list (string * string)) :=
  do! unordered <- fold_res (fun d i =>
        do! n <- index (mc_fieldnames c) i in
        do! t <- index (mc_fieldtypes c) i in
        Ok (dict_set String.eqb d n t)) (seq 0 (length (mc_fieldnames c))) [] in
  map_res (fun i =>
        do! n <- index (mc_ordered c) i in
        Ok (n, match dict_get String.eqb unordered n with Some t => t | None => "" end))
    (seq 0 (length (mc_fieldnames c))).

(** MavlinkDialectMeta.msgs_payload_length; protocol_meta/protocol_meta.py:30.  The module-level construction at line 63
    would raise if a length could not be computed; that never happens for this dialect (C06), so the value used here for
    that case is irrelevant. *)
Definition msgs_payload_length : list (N * nat) :=
  map (fun c => (mc_key c, match msg_len c with Ok n => n | Err _ => 0%nat end)) mavlink_classes.

(** meta.msgs_payload_length.get(msg_id). See protocol_meta/msg_header.py:20-34. *)
Definition payload_length (i : N) : option nat := dict_get N.eqb msgs_payload_length i.
