(** C11-C19, C60: segmentation of buffers and buffer structures. *)
From Coq Require Import String Ascii List NArith ZArith Bool Lia Sorting.Sorted.
From Verif.Model Require Import Py Dialect ProtocolMeta MsgHeader Struct Mavlink Segmentation.
From Verif.Spec Require Import Bytes Bits Header CrcSpec Frame Segment Describe.
From Verif.Proofs Require Import Base DialectP SegmentP SegStream SegMore DescribeP.
From Verif.Props Require Import MavlinkProps.
Import ListNotations.

(** The buffer of the repository's own tests: messages 212, 218, 33 and 234. *)
Definition good_buffer : bytes := [254; 19; 0; 1; 0; 212; 146; 1; 75; 22; 43; 71; 192; 68; 43; 244; 10; 63; 0; 0; 128; 63; 60; 9; 1; 137; 54; 254; 10; 1; 1; 0; 218; 146; 1; 75; 22; 90; 12; 62; 16; 1; 100; 208; 245; 254; 44; 2; 2; 0; 33; 209; 255; 74; 22; 18; 63; 151; 17; 179; 34; 210; 20; 0; 0; 200; 66; 0; 0; 200; 66; 0; 0; 200; 66; 239; 250; 16; 64; 190; 27; 94; 62; 177; 212; 218; 62; 5; 157; 184; 61; 68; 11; 125; 66; 90; 185; 254; 12; 3; 1; 200; 234; 0; 0; 0; 0; 0; 0; 0; 0; 0; 0; 0; 0; 182; 114]%N.

(** C11, C12, C13 in one: for an arbitrary parser, the result is exactly the segmentation (sound, ordered, non overlapping,
    leftmost-complete), its byte classification and its bit validity, unless the parser raises something else than MAVError at
    a position that no reported frame covers. *)
Theorem c11_segmentation : forall D (parser : bytes -> res D) b p v s, is_bytes b ->
  (segment_buffer parser b = Ok (p, v, s) <->
   segments (fun f => exists d, parser f = Ok d) b s /\ classifies b s p /\ validates b s v /\
   (forall k e, header_at b k -> parser (frame_bytes b k) = Err e -> e <> MAVError -> covered b s k)).
Proof. intros D parser b p v s B. exact (segment_ok_iff parser b B p v s). Qed.
Print Assumptions c11_segmentation.

Theorem c11_exceptions : forall D (parser : bytes -> res D) b e, is_bytes b ->
  (segment_buffer parser b = Err e <->
   exists k s, segments_upto k (fun f => exists d, parser f = Ok d) b s /\ header_at b k /\ ~ covered b s k /\
     parser (frame_bytes b k) = Err e /\ e <> MAVError /\
     (forall k' e', k' < k -> header_at b k' -> parser (frame_bytes b k') = Err e' -> e' <> MAVError -> covered b s k')).
Proof. intros D parser b e B. exact (segment_err_iff parser b B e). Qed.
Print Assumptions c11_exceptions.

(** With the MAVLink parser nothing is ever raised, and every reported frame is a checked frame that lies in the buffer. *)
Theorem c11_mavlink_total : forall text b, is_bytes b -> exists p v s, segment_buffer (decode text) b = Ok (p, v, s).
Proof. exact segment_decode_total. Qed.
Print Assumptions c11_mavlink_total.

Theorem c11_mavlink : forall text b p v s, is_bytes b ->
  segment_buffer (decode text) b = Ok (p, v, s) <->
  segments (fun f => exists c, frame_v1 c f) b s /\ classifies b s p /\ validates b s v.
Proof. exact segment_decode_iff. Qed.
Print Assumptions c11_mavlink.

Theorem c11_mavlink_inside : forall text b k i, is_bytes b ->
  frame_at (fun f => exists d, decode text f = Ok d) b k i ->
  frame_end b k <= length b /\ exists c, is_msg i c /\ frame_v1 c (frame_bytes b k).
Proof. exact decode_frame_inside. Qed.
Print Assumptions c11_mavlink_inside.

(** With a parser that accepts everything the scan still terminates and reports a frame that the buffer truncates. *)
Example c11_ex : exists p v,
  segment_buffer (decode (fun b => b)) good_buffer = Ok (p, v, [(0, 212%N); (27, 218%N); (45, 33%N); (97, 234%N)]).
Proof. eexists. eexists. vm_compute. reflexivity. Qed.
Example c11_ex_any : exists p v,
  segment_buffer (fun _ => Ok tt) ([7; 254; 9; 0; 1; 1; 0; 1; 2])%N = Ok (p, v, [(1, 0%N)]) /\
  segment_buffer (fun _ => @Err unit ValueError) ([7; 254; 9; 0; 1; 1; 0; 1; 2])%N = Err ValueError.
Proof. eexists. eexists. vm_compute. split; reflexivity. Qed.

(** C12.  The segmentation of a buffer is unique. *)
Theorem c12_unique : forall accepts b s s', segments accepts b s -> segments accepts b s' -> s = s'.
Proof. intros accepts b s s'. exact (upto_unique b (length b) s s'). Qed.
Print Assumptions c12_unique.

Theorem c12_complete : forall D (parser : bytes -> res D) b p v s k i, is_bytes b -> segment_buffer parser b = Ok (p, v, s) ->
  frame_at (fun f => exists d, parser f = Ok d) b k i ->
  In (k, i) s \/ exists k' i', In (k', i') s /\ k' < k < frame_end b k'.
Proof. exact @segment_complete. Qed.
Print Assumptions c12_complete.

(** A frame hidden in the payload of another frame is not reported, but it is once the outer frame is damaged: here the
    inner frame is message 0 and the outer one message 33 with the inner frame as part of its payload. *)
Definition outer_body : bytes := ([44; 1; 1; 1; 33] ++ repeat 7%N 10 ++ hb ++ repeat 8%N 17)%N.
Definition outer : bytes := 254%N :: outer_body ++ [19; 22]%N.
Example c12_ex : (exists p v, segment_buffer (decode (fun b => b)) outer = Ok (p, v, [(0, 33%N)])) /\
  (exists p v, segment_buffer (decode (fun b => b)) (set_nth outer 51 0%N) = Ok (p, v, [(16, 0%N)])).
Proof. split; eexists; eexists; vm_compute; reflexivity. Qed.

(** C13.  Classification and bit validity, stated directly on the results. *)
Theorem c13_parts : forall D (parser : bytes -> res D) b p v s, is_bytes b -> segment_buffer parser b = Ok (p, v, s) ->
  classifies b s p /\ validates b s v.
Proof. exact @segment_parts. Qed.
Print Assumptions c13_parts.

Example c13_ex : exists p v s, segment_buffer (decode (fun b => b)) ([1; 2] ++ hb ++ [3])%N = Ok (p, v, s) /\
  p = [UNKNOWN; UNKNOWN] ++ repeat HEADER 6 ++ repeat PAYLOAD 9 ++ [CHECKSUM; CHECKSUM; UNKNOWN] /\
  v = repeat 0%Z 16 ++ repeat 1%Z 136 ++ repeat 0%Z 8.
Proof. eexists. eexists. eexists. split; [vm_compute; reflexivity|]. split; reflexivity. Qed.

(** C14.  Streams of packed messages are recovered completely. *)
Theorem c14_stream : forall text fl,
  Forall (fun f => exists c fs q sys comp, In c mavlink_classes /\ no_arrays c /\ fits_all c fs /\
            message_pack (Msg c fs) q sys comp = Ok f) fl ->
  exists p v s, segment_buffer (decode text) (concat fl) = Ok (p, v, s) /\
    length s = length fl /\
    (forall m, m < length fl -> nth m s (0, 0%N) = (length (concat (firstn m fl)), nth 5 (nth m fl []) 0%N)) /\
    length p = length (concat fl) /\ ~ In UNKNOWN p /\ v = repeat 1%Z (8 * length (concat fl)) /\
    bad_buffer_idx (concat fl) p = Ok None /\ bad_buffer_parts (concat fl) p = Ok [].
Proof. exact stream_recovered. Qed.
Print Assumptions c14_stream.

(** The heartbeat of C09 is such a message. *)
Example c14_ex : exists c fs q sys comp, In c mavlink_classes /\ no_arrays c /\ fits_all c fs /\
  message_pack (Msg c fs) q sys comp = Ok hb.
Proof.
  exists (class_of 0), hb_fields, 17%Z, 1%Z, 1%Z. split; [apply c09_ex_fits|]. split; [repeat constructor|].
  split; [apply c09_ex_fits|exact c09_ex_pack].
Qed.

Theorem c14_send : forall text sys comp msgs, in_byte sys -> in_byte comp ->
  Forall (fun m => In (m_class m) mavlink_classes /\ no_arrays (m_class m) /\ fits_all (m_class m) (m_fields m)) msgs ->
  exists st p v s, fold_res mav_send msgs (mav_init sys comp) = Ok st /\
    segment_buffer (decode text) (mav_file st) = Ok (p, v, s) /\
    map snd s = map (fun m => mc_id (m_class m)) msgs /\ ~ In UNKNOWN p /\ bad_buffer_idx (mav_file st) p = Ok None.
Proof. exact send_recovered. Qed.
Print Assumptions c14_send.

(** C15.  Resynchronisation. *)
Theorem c15_resync : forall text l, is_bytes (stream l) ->
  (forall f, In (Good f) l -> complete_frame (fun f => exists c, frame_v1 c f) f) ->
  (forall j i, in_junk l j -> ~ frame_at (fun f => exists c, frame_v1 c f) (stream l) j i) ->
  exists p v, segment_buffer (decode text) (stream l) = Ok (p, v, good_starts 0 l) /\
    length p = length (stream l) /\ length v = 8 * length (stream l) /\
    forall j, j < length (stream l) ->
      (nth j p UNKNOWN = UNKNOWN <-> in_junk l j) /\
      (forall r, r < 8 -> nth (8 * j + r) v 0%Z = 0%Z <-> in_junk l j) /\
      (forall r, r < 8 -> nth (8 * j + r) v 0%Z = 1%Z <-> ~ in_junk l j).
Proof. exact resync. Qed.
Print Assumptions c15_resync.

(** In particular junk without a start marker. *)
Theorem c15_junk_without_marker : forall text l, is_bytes (stream l) ->
  (forall f, In (Good f) l -> complete_frame (fun f => exists c, frame_v1 c f) f) ->
  (forall g, In (Junk g) l -> ~ In 254%N g) ->
  exists p v, segment_buffer (decode text) (stream l) = Ok (p, v, good_starts 0 l) /\ length p = length (stream l) /\
    forall j, j < length (stream l) -> (nth j p UNKNOWN = UNKNOWN <-> in_junk l j).
Proof. exact resync_no_marker. Qed.
Print Assumptions c15_junk_without_marker.

Example c15_ex : let l := [Good hb; Junk (1 :: skipn 1 hb)%N; Good hb; Junk [9%N]] in
  is_bytes (stream l) /\ (forall f, In (Good f) l -> complete_frame (fun f => exists c, frame_v1 c f) f) /\
  (forall g, In (Junk g) l -> ~ In 254%N g) /\ good_starts 0 l = [(0, 0%N); (34, 0%N)] /\
  exists p v, segment_buffer (decode (fun b => b)) (stream l) = Ok (p, v, good_starts 0 l).
Proof.
  split; [repeat apply Forall_cons; try reflexivity; constructor|]. split; [|split; [|split]].
  - assert (X : complete_frame (fun f => exists c, frame_v1 c f) hb).
    { apply packed_complete. apply c14_ex. }
    intros f [E|[E|[E|[E|[]]]]]; try discriminate; injection E as <-; exact X.
  - intros g [E|[E|[E|[E|[]]]]]; try discriminate; injection E as <-; vm_compute; intuition discriminate.
  - reflexivity.
  - eexists. eexists. vm_compute. reflexivity.
Qed.

(** C16.  A packed message with an array field is never reported where it starts. *)
Theorem c16_arrays_never_found : forall D (parser : bytes -> res D) c fs q sys comp f pre post p v s,
  In c mavlink_classes -> ~ no_arrays c -> fits_all c fs -> message_pack (Msg c fs) q sys comp = Ok f ->
  is_bytes pre -> is_bytes post -> segment_buffer parser (pre ++ f ++ post) = Ok (p, v, s) ->
  forall i, ~ In (length pre, i) s.
Proof. exact @array_never. Qed.
Print Assumptions c16_arrays_never_found.

(** Message 253 (STATUSTEXT) has a char[50] field. *)
Example c16_ex : exists c f p v, In c mavlink_classes /\ mc_id c = 253%N /\ ~ no_arrays c /\
  message_pack (Msg c [FOne (VInt 6); FOne (VBytes [79; 75]%N)]) 0 1 1 = Ok f /\
  (exists d, decode (fun b => b) f = Ok d) /\ segment_buffer (decode (fun b => b)) f = Ok (p, v, []).
Proof.
  destruct (get_class 253) as [c|] eqn:E; [|discriminate]. exists c. eexists. eexists. eexists.
  apply get_class_spec in E as H. destruct H as [H I]. split; auto. split; auto.
  assert (X : get_class 253 = Some c) by auto. vm_compute in X. injection X as X.
  split; [rewrite <- X; intros N; inversion N as [|? ? N1 N2]; inversion N2; discriminate|].
  rewrite <- X. split; [vm_compute; reflexivity|]. split; [eexists; vm_compute; reflexivity|vm_compute; reflexivity].
Qed.

(** C17.  bad_buffer_idx. *)
Theorem c17_bad_buffer_idx : forall buffer parts,
  (~ In UNKNOWN parts -> bad_buffer_idx buffer parts = Ok None) /\
  (In UNKNOWN parts -> length parts < length buffer -> bad_buffer_idx buffer parts = Err IndexError) /\
  (In UNKNOWN parts -> length buffer <= length parts -> exists l, bad_buffer_idx buffer parts = Ok (Some l) /\
     (forall i j, In (i, j) l <-> maximal_run parts (length buffer) i j) /\ StronglySorted (fun x y => snd x < fst y) l).
Proof. exact bad_buffer_idx_spec. Qed.
Print Assumptions c17_bad_buffer_idx.

Theorem c17_every_unknown_byte : forall parts n k, k < n -> nth k parts HEADER = UNKNOWN ->
  exists i j, maximal_run parts n i j /\ i <= k < j.
Proof. exact unknown_run. Qed.
Print Assumptions c17_every_unknown_byte.

Example c17_ex : bad_buffer_idx [1; 2; 3; 4; 5; 6]%N [UNKNOWN; HEADER; UNKNOWN; UNKNOWN; PAYLOAD; UNKNOWN] =
  Ok (Some [(0, 1); (2, 4); (5, 6)]).
Proof. reflexivity. Qed.

(** C18.  bad_buffer_parts. *)
Theorem c18_bad_buffer_parts : forall buffer parts,
  bad_buffer_parts buffer parts =
  match bad_buffer_idx buffer parts with
  | Ok None => Ok []
  | Ok (Some l) => Ok (map (fun iv => (fst iv, firstn (snd iv - fst iv) (skipn (fst iv) buffer))) l)
  | Err e => Err e
  end.
Proof. exact bad_buffer_parts_spec. Qed.
Print Assumptions c18_bad_buffer_parts.

Theorem c18_empty : forall buffer parts, length parts = length buffer ->
  (bad_buffer_parts buffer parts = Ok [] <-> bad_buffer_idx buffer parts = Ok None).
Proof. exact bad_parts_empty. Qed.
Print Assumptions c18_empty.

Example c18_ex : bad_buffer_parts [1; 2; 3; 4; 5; 6]%N [UNKNOWN; HEADER; UNKNOWN; UNKNOWN; PAYLOAD; UNKNOWN] =
  Ok [(0, [1%N]); (2, [3; 4]%N); (5, [6%N])].
Proof. reflexivity. Qed.

(** C19.  Registration of buffers. *)
Theorem c19_register : forall a b a', is_bytes b ->
  (register_buffer a b = (a', Ok tt) <->
   (forall k i, In (k, i) (bs_structure a) -> carries b k i) /\
   a' = BStr (bs_structure a) (bs_count a + 1) (bs_received a ++ [b])).
Proof. exact register_ok. Qed.
Print Assumptions c19_register.

(** The first entry of the structure that is not carried decides which exception is raised; nothing is changed. *)
Theorem c19_register_fails : forall a b a' e, is_bytes b ->
  (register_buffer a b = (a', Err e) <->
   a' = a /\ exists pre k i post, bs_structure a = pre ++ (k, i) :: post /\
     (forall k' i', In (k', i') pre -> carries b k' i') /\ offence b k i e).
Proof. exact register_err. Qed.
Print Assumptions c19_register_fails.

(** After any history of calls, failed ones included. *)
Theorem c19_history : forall s bs, Forall is_bytes bs ->
  let a := fold_left (fun a b => fst (register_buffer a b)) bs (bs_init s) in
  bs_structure a = s /\ bs_count a = length (bs_received a) /\
  exists keep : bytes -> bool, bs_received a = filter keep bs /\
    forall b, In b bs -> (keep b = true <-> forall k i, In (k, i) s -> carries b k i).
Proof. exact register_history. Qed.
Print Assumptions c19_history.

(** Equality of structures ignores the order of registration and the received buffers. *)
Theorem c19_equality : forall a b, NoDup (map fst (bs_structure a)) -> NoDup (map fst (bs_structure b)) ->
  (bs_eqb a b = true <-> forall k i, In (k, i) (bs_structure a) <-> In (k, i) (bs_structure b)).
Proof. exact bs_eqb_spec. Qed.
Print Assumptions c19_equality.

(** A structure with messages 212 and 218: the test buffer adheres; a truncated buffer and a buffer with an unknown id raise
    although the method is meant to answer False. *)
Example c19_ex : let a := bs_init [(0, 212%N); (27, 218%N)] in
  register_buffer a good_buffer = (BStr [(0, 212%N); (27, 218%N)] 1 [good_buffer], Ok tt) /\
  snd (register_buffer a (firstn 30 good_buffer)) = Err HeaderLength /\
  snd (register_buffer a (set_nth good_buffer 32 200%N)) = Err NonExistentMsdId /\
  snd (register_buffer a (set_nth good_buffer 32 0%N)) = Err ValueError /\
  bs_eqb a (bs_init [(27, 218%N); (0, 212%N)]) = true.
Proof. vm_compute. repeat split. Qed.

(** C60.  get_msg_fields: description and field dictionary (the last occurrence of a name wins). *)
Theorem c60_get_msg_fields : forall text b p v s cs, is_bytes b -> segment_buffer (decode text) b = Ok (p, v, s) ->
  Forall2 (fun ki c => is_msg (snd ki) c) s cs ->
  (s = [] -> get_msg_fields text (decode text) b = Ok BareDict) /\
  (s <> [] -> exists fields,
     get_msg_fields text (decode text) b = Ok (FieldsAndDescription fields
       (concat (map (fun x => frame_description (snd x) (frame_bytes b (fst (fst x)))) (combine s cs)))) /\
     forall nm val, dict_get String.eqb fields nm = Some val <->
       exists pre post, concat (map (fun x => frame_values text (snd x) (frame_bytes b (fst (fst x)))) (combine s cs)) =
         pre ++ (nm, val) :: post /\ ~ In nm (map fst post)).
Proof. exact get_fields_spec. Qed.
Print Assumptions c60_get_msg_fields.

(** The classes [cs] of the reported messages always exist. *)
Theorem c60_classes : forall text b p v s, is_bytes b -> segment_buffer (decode text) b = Ok (p, v, s) ->
  exists cs, Forall2 (fun ki c => is_msg (snd ki) c) s cs.
Proof. exact segment_classes. Qed.
Print Assumptions c60_classes.

Example c60_ex :
  get_msg_fields (fun b => b) (decode (fun b => b)) (3 :: hb)%N =
  Ok (FieldsAndDescription
    (map (fun x => (("HEARTBEAT_" ++ fst (fst x))%string, (FOne (VInt (snd (fst x))), snd x)))
      [(("custom_mode", 5%Z), "uint32_t"); (("type", 2%Z), "uint8_t"); (("autopilot", 3%Z), "uint8_t");
       (("base_mode", 81%Z), "uint8_t"); (("system_status", 4%Z), "uint8_t"); (("mavlink_version", 3%Z), "uint8_t")]%string)
    ([DHeader [254; 9; 17; 1; 1; 0]%N] ++
     map (fun x => DField ("HEARTBEAT_" ++ fst x)%string (snd x))
      [("custom_mode", "uint32_t"); ("type", "uint8_t"); ("autopilot", "uint8_t"); ("base_mode", "uint8_t");
       ("system_status", "uint8_t"); ("mavlink_version", "uint8_t")]%string ++ [DCrc])) /\
  get_msg_fields (fun b => b) (decode (fun b => b)) [1; 2]%N = Ok BareDict.
Proof. vm_compute. split; reflexivity. Qed.
