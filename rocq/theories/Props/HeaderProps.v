(** C01-C06: bit operations, frame headers, nearest valid header, dialect length metadata. *)
From Coq Require Import String Ascii List NArith ZArith Bool Lia.
From Verif.Model Require Import Py Dialect ProtocolMeta BitOps MsgHeader Struct.
From Verif.Spec Require Import Bytes Bits Header.
From Verif.Proofs Require Import Base BitOpsP DialectP HeaderP HeaderMore.
Import ListNotations.

(** C01.  hamming_distance returns a number exactly when both arguments denote bit strings of the same length, and then it
    is the number of differing positions. *)
Theorem c01_hamming_distance_exact : forall a b n d,
  hamming_distance a b n = Ok d <->
  exists x y, denotes n a x /\ denotes n b y /\ length x = length y /\ d = diffs x y.
Proof. exact hamming_spec. Qed.
Print Assumptions c01_hamming_distance_exact.

Theorem c01_hamming_distance_bytes : forall a b n,
  length a = length b -> hamming_distance (HBytes a) (HBytes b) n = Ok (byte_diffs a b).
Proof. exact hamming_bytes. Qed.
Print Assumptions c01_hamming_distance_bytes.

Theorem c01_hamming_distance_ints : forall a b n,
  0 < n -> (0 <= a < 2 ^ Z.of_nat n)%Z -> (0 <= b < 2 ^ Z.of_nat n)%Z ->
  hamming_distance (HInt a) (HInt b) n = Ok (int_diffs n a b).
Proof. exact hamming_ints. Qed.
Print Assumptions c01_hamming_distance_ints.

(** Which exception is raised otherwise. *)
Theorem c01_hamming_distance_errors : forall a b n e,
  hamming_distance a b n = Err e ->
  (e = CreationError /\ exists z, (a = HInt z \/ b = HInt z) /\ (n = 0 \/ (z < 0)%Z \/ (2 ^ Z.of_nat n <= z)%Z)) \/
  (e = TypeError /\ (a = HOther \/ b = HOther)) \/
  (e = ValueError /\ exists x y, denotes n a x /\ denotes n b y /\ length x <> length y).
Proof. exact hamming_errors. Qed.
Print Assumptions c01_hamming_distance_errors.

(** Metric laws, on the results that the function returns. *)
Theorem c01_hamming_distance_metric : forall n a b c,
  (forall d, hamming_distance a b n = Ok d -> hamming_distance b a n = Ok d) /\
  (forall d x y, hamming_distance a b n = Ok d -> denotes n a x -> denotes n b y -> (d = 0 <-> x = y) /\ d <= length x) /\
  (forall d1 d2, hamming_distance a b n = Ok d1 -> hamming_distance b c n = Ok d2 ->
     exists d3, hamming_distance a c n = Ok d3 /\ d3 <= d1 + d2).
Proof. exact hamming_metric. Qed.
Print Assumptions c01_hamming_distance_metric.

Example c01_ex : hamming_distance (HBytes [254; 9]%N) (HBytes [250; 8]%N) 8 = Ok 2 /\
  hamming_distance (HInt 9) (HInt 256) 8 = Err CreationError /\
  hamming_distance (HBits [true; false]) (HArray [5; 1; 0]%Z) 8 = Err ValueError.
Proof. repeat split. Qed.

(** C02 *)
Theorem c02_frame_header_accepts : forall m s c q h,
  frame_header_init m s c q = Ok h <->
  in_byte s /\ in_byte c /\ in_byte q /\ (0 <= m)%Z /\
  exists n, plen (Z.to_N m) n /\ fh_buffer h = [254%N; N.of_nat n; Z.to_N q; Z.to_N s; Z.to_N c; Z.to_N m].
Proof. exact frame_header_ok. Qed.
Print Assumptions c02_frame_header_accepts.

Theorem c02_frame_header_rejects : forall m s c q e,
  frame_header_init m s c q = Err e <->
  (e = NonUint8 /\ ~ (in_byte s /\ in_byte c /\ in_byte q /\ in_byte m)) \/
  (e = NonExistentMsdId /\ in_byte s /\ in_byte c /\ in_byte q /\ in_byte m /\ ~ exists n, plen (Z.to_N m) n).
Proof. exact frame_header_err. Qed.
Print Assumptions c02_frame_header_rejects.

Theorem c02_frame_header_accessors : forall m s c q h,
  frame_header_init m s c q = Ok h ->
  Z.of_N (fh_msg_id h) = m /\ Z.of_N (fh_sys_id h) = s /\ Z.of_N (fh_comp_id h) = c /\ Z.of_N (fh_sequence h) = q /\
  plen (fh_msg_id h) (N.to_nat (fh_length h)).
Proof. exact frame_header_accessors. Qed.
Print Assumptions c02_frame_header_accessors.

Example c02_ex : frame_header_init 33 1 2 255 = Ok (FH [254; 44; 255; 1; 2; 33]%N) /\ plen 33 44 /\
  frame_header_init 3 1 2 255 = Err NonExistentMsdId /\ frame_header_init 300 1 2 0 = Err NonUint8.
Proof.
  split; [vm_compute; reflexivity|]. split; [apply payload_length_spec; vm_compute; reflexivity|].
  split; vm_compute; reflexivity.
Qed.

(** C03 *)
Theorem c03_is_valid_header_exact : forall b, is_valid_header b = true <-> valid_header b.
Proof. exact is_valid_header_spec. Qed.
Print Assumptions c03_is_valid_header_exact.

Theorem c03_constructed_round_trip : forall m s c q h,
  frame_header_init m s c q = Ok h ->
  valid_header (fh_buffer h) /\ is_bytes (fh_buffer h) /\ from_buffer (fh_buffer h) None = Ok h.
Proof. exact constructed_valid. Qed.
Print Assumptions c03_constructed_round_trip.

Theorem c03_from_buffer_round_trip : forall b,
  is_bytes b -> length b = 6 -> (from_buffer b None = Ok (FH b) <-> valid_header b).
Proof. exact from_buffer_valid. Qed.
Print Assumptions c03_from_buffer_round_trip.

(** force_msg_id only changes the id and the length that follows from it. *)
Theorem c03_from_buffer_exact : forall b f h,
  is_bytes b ->
  (from_buffer b f = Ok h <->
   length b = 6 /\ exists i n, (0 <= match f with Some m => m | None => Z.of_N (nth 5 b 0%N) end)%Z /\
     i = Z.to_N (match f with Some m => m | None => Z.of_N (nth 5 b 0%N) end) /\ plen i n /\
     fh_buffer h = [254%N; N.of_nat n; nth 2 b 0%N; nth 3 b 0%N; nth 4 b 0%N; i]).
Proof. exact from_buffer_ok. Qed.
Print Assumptions c03_from_buffer_exact.

Theorem c03_header_length : forall b, length b <> 6 ->
  is_valid_header b = false /\ (forall f, from_buffer b f = Err HeaderLength) /\
  (forall m, hamming_distance_2_valid_header b m = Err HeaderLength) /\
  (forall h, fh_hamming_distance h b = Err HeaderLength).
Proof. exact header_length_errors. Qed.
Print Assumptions c03_header_length.

Theorem c03_header_hamming_distance : forall m s c q h b,
  frame_header_init m s c q = Ok h -> length b = 6 -> fh_hamming_distance h b = Ok (byte_diffs (fh_buffer h) b).
Proof. exact fh_hamming_ok. Qed.
Print Assumptions c03_header_hamming_distance.

Example c03_ex : is_valid_header [254; 44; 7; 1; 1; 33]%N = true /\
  from_buffer [0; 0; 7; 1; 1; 33]%N (Some 0%Z) = Ok (FH [254; 9; 7; 1; 1; 0]%N).
Proof. vm_compute. repeat split. Qed.

(** C04 *)
Theorem c04_nearest_header : forall b,
  is_bytes b -> length b = 6 ->
  exists pre c post d h,
    mavlink_classes = pre ++ c :: post /\
    hamming_distance_2_valid_header b None = Ok (Z.of_nat d, Z.of_N (mc_id c)) /\
    is_bytes h /\ valid_header h /\ nth 5 h 0%N = mc_id c /\ byte_diffs b h = d /\
    (forall h', valid_header h' -> d <= byte_diffs b h') /\
    (forall c' h', In c' pre -> valid_header h' -> nth 5 h' 0%N = mc_id c' -> d < byte_diffs b h') /\
    (d = 0 <-> valid_header b).
Proof. exact nearest_header. Qed.
Print Assumptions c04_nearest_header.

Example c04_ex : is_bytes [250; 45; 7; 1; 1; 33]%N /\
  hamming_distance_2_valid_header [250; 45; 7; 1; 1; 33]%N None = Ok (2, 33)%Z.
Proof. split; [repeat constructor|vm_compute; reflexivity]. Qed.

(** C05 *)
Theorem c05_nearest_header_max_len : forall b m,
  is_bytes b -> length b = 6 ->
  (forall h, valid_header h -> nth 1 h 0%N = nth 1 b 0%N -> nth 5 h 0%N = nth 5 b 0%N -> (Z.of_N (nth 1 h 0%N) <= m)%Z) ->
  exists r, hamming_distance_2_valid_header b (Some m) = Ok r /\ nearest_among mavlink_classes b m r.
Proof. exact nearest_max_len. Qed.
Print Assumptions c05_nearest_header_max_len.

(** When an over-long message matches the buffer exactly, only the messages before it in the table are considered. *)
Theorem c05_nearest_header_max_len_stop : forall b m pre c post h,
  is_bytes b -> length b = 6 -> mavlink_classes = pre ++ c :: post -> valid_header h -> nth 5 h 0%N = mc_id c ->
  nth 1 h 0%N = nth 1 b 0%N -> nth 5 h 0%N = nth 5 b 0%N -> (m < Z.of_N (nth 1 h 0%N))%Z ->
  exists r, hamming_distance_2_valid_header b (Some m) = Ok r /\ nearest_among pre b m r.
Proof. exact nearest_max_len_stop. Qed.
Print Assumptions c05_nearest_header_max_len_stop.

(** Hence max_len is not honoured in general: id -1 is returned although an admissible header at distance 2 exists. *)
Theorem c05_nearest_header_max_len_refuted : exists b m h,
  is_bytes b /\ length b = 6 /\ valid_header h /\ (Z.of_N (nth 1 h 0%N) <= m)%Z /\ byte_diffs b h < 17 /\
  hamming_distance_2_valid_header b (Some m) = Ok (17, -1)%Z.
Proof. exact nearest_max_len_refuted. Qed.
Print Assumptions c05_nearest_header_max_len_refuted.

Example c05_ex : hamming_distance_2_valid_header [254; 44; 7; 1; 1; 32]%N (Some 21%Z) = Ok (3, 2)%Z.
Proof. vm_compute. reflexivity. Qed.

(** C06 *)
Theorem c06_dialect_lengths : forall c,
  In c mavlink_classes ->
  (mc_id c < 256)%N /\
  exists n k, payload_length (mc_id c) = Some n /\ type_sum (mc_fieldtypes c) n /\ calcsize (mc_format c) = Ok k /\
    k < 256 /\ n <= k /\ (n = k <-> no_arrays c).
Proof. exact dialect_lengths. Qed.
Print Assumptions c06_dialect_lengths.

Theorem c06_dialect_ids_distinct : forall c c',
  In c mavlink_classes -> In c' mavlink_classes -> mc_id c = mc_id c' -> c = c'.
Proof. exact dialect_ids_distinct. Qed.
Print Assumptions c06_dialect_ids_distinct.

(** The metadata knows no id that is not in the dialect. *)
Theorem c06_payload_length_exact : forall i n, payload_length i = Some n <-> plen i n.
Proof. exact payload_length_spec. Qed.
Print Assumptions c06_payload_length_exact.

(** msgs_fields: one entry per wire position, carrying the name of that position and the declared type of that name; the
    struct item at that position has the letter of the type and the array length as repeat count. *)
Theorem c06_msgs_fields_wire_order : forall c,
  In c mavlink_classes ->
  exists fs items, msg_fields c = Ok fs /\ parse_fmt (mc_format c) = Ok items /\
    length fs = length (mc_fieldnames c) /\ length items = length fs /\
    forall j, j < length fs -> exists i sz ch,
      i < length (mc_fieldnames c) /\ nth i (mc_orders c) 0 = j /\
      nth j fs (""%string, ""%string) = (nth i (mc_fieldnames c) ""%string, nth i (mc_fieldtypes c) ""%string) /\
      nth j (mc_ordered c) ""%string = nth i (mc_fieldnames c) ""%string /\
      ctype (nth i (mc_fieldtypes c) ""%string) sz ch /\
      nth j items (0, " "%char) = (Nat.max 1 (nth j (mc_array_lengths c) 0), ch).
Proof. exact msgs_fields_wire_order. Qed.
Print Assumptions c06_msgs_fields_wire_order.

(** Array messages exist, and for them the length table is wrong. *)
Theorem c06_dialect_lengths_refuted : exists c n k,
  In c mavlink_classes /\ payload_length (mc_id c) = Some n /\ calcsize (mc_format c) = Ok k /\ n < k.
Proof. exact dialect_lengths_refuted. Qed.
Print Assumptions c06_dialect_lengths_refuted.

Example c06_ex : exists c, get_class 33 = Some c /\ payload_length 33 = Some 44 /\ calcsize (mc_format c) = Ok 44.
Proof. eexists. vm_compute. repeat split. Qed.
