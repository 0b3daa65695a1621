(** C69-C72: the stream parser of class MAVLink. *)
From Coq Require Import String Ascii List NArith ZArith Arith Bool Lia.
From Verif.Model Require Import Py Dialect ProtocolMeta Struct Mavlink Parser.
From Verif.Spec Require Import Bytes Bits Header CrcSpec Frame StreamSpec.
From Verif.Proofs Require Import Base DialectP MavlinkP FieldsP PackP SendP MavlinkMore StreamP StreamMore.
From Verif.Props Require Import MavlinkProps.
Import ListNotations.
Local Open Scope list_scope.
Local Notation length := List.length.

(** C69.  Every stream falls into pieces in exactly one way, and no byte is lost. *)
Theorem c69_cut : forall s, exists pieces rest, cut s pieces rest /\ concat (map piece_bytes pieces) ++ rest = s /\ unfinished rest /\
  forall pieces' rest', cut s pieces' rest' -> pieces' = pieces /\ rest' = rest.
Proof.
  intros s. destruct (cut_total s) as (l & r & C). exists l, r. split; [exact C|]. split; [exact (cut_bytes _ _ _ C)|].
  split; [exact (cut_rest_unfinished _ _ _ C)|]. intros l' r' C'. exact (cut_unique _ _ _ C' _ _ C).
Qed.
Print Assumptions c69_cut.

(** With robust_parsing the blocks in which the bytes arrive do not matter: every piece of the stream is reported, in order, as a message or
    as bad data; the rest stays in the buffer; the counters are exact. *)
Theorem c69_blocks : forall D M (decode : D -> bytes -> D * res M) d blocks pieces rest,
  only_mav_errors decode -> is_bytes (concat blocks) -> cut (concat blocks) pieces rest ->
  exists p, feed_blocks decode (parser_new true d) blocks = (p, Ok (snd (tolerant decode d pieces))) /\
    pending p = rest /\ p_decoder p = fst (tolerant decode d pieces) /\ p_packets p = length pieces /\ p_bytes p = length (concat blocks) /\
    p_errors p = length (filter is_bad (snd (tolerant decode d pieces))).
Proof.
  intros D M decode d blocks pieces rest Hm B C.
  destruct (blocks_tolerant decode Hm blocks (parser_new true d) [] d 0 0 0 pieces rest) as (p & E & _ & L); auto.
  { repeat split; cbn; lia. } { left; reflexivity. }
  exists p. split; [exact E|]. tauto.
Qed.
Print Assumptions c69_blocks.

Theorem c69_bytes : forall D M (decode : D -> bytes -> D * res M) d s pieces rest,
  only_mav_errors decode -> is_bytes s -> cut s pieces rest ->
  exists p, feed_bytes decode (parser_new true d) s = (p, map Ok (snd (tolerant decode d pieces))) /\
    pending p = rest /\ p_decoder p = fst (tolerant decode d pieces) /\ p_packets p = length pieces /\ p_bytes p = length s /\
    p_errors p = length (filter is_bad (snd (tolerant decode d pieces))).
Proof.
  intros D M decode d s pieces rest Hm B C.
  destruct (bytes_tolerant decode Hm s (parser_new true d) [] d 0 0 0 pieces rest) as (p & E & _ & L); auto.
  { repeat split; cbn; lia. } { left; reflexivity. }
  exists p. split; [exact E|]. tauto.
Qed.
Print Assumptions c69_bytes.

Theorem c69_chunking : forall D M (decode : D -> bytes -> D * res M) d blocks blocks',
  only_mav_errors decode -> is_bytes (concat blocks) -> concat blocks = concat blocks' ->
  snd (feed_blocks decode (parser_new true d) blocks) = snd (feed_blocks decode (parser_new true d) blocks') /\
  pending (fst (feed_blocks decode (parser_new true d) blocks)) = pending (fst (feed_blocks decode (parser_new true d) blocks')).
Proof.
  intros D M decode d a b Hm B E. destruct (cut_total (concat a)) as (l & r & C).
  destruct (c69_blocks D M decode d a l r Hm B C) as (p & -> & H & _). rewrite E in B, C.
  destruct (c69_blocks D M decode d b l r Hm B C) as (p' & -> & H' & _). cbn. split; congruence.
Qed.
Print Assumptions c69_chunking.

(** decode without signing key raises nothing but MAVError for a frame. *)
Theorem c69_decode : forall text, only_mav_errors (plain_decode text).
Proof. exact plain_mav. Qed.
Print Assumptions c69_decode.

Definition text0 : bytes -> list N := fun b => b.
(** A heartbeat between noise, a damaged heartbeat, a beginning. *)
Definition stream0 : bytes := [1; 2]%N ++ hb ++ set_nth hb 8 1%N ++ [7; 254; 9; 0]%N.
Example c69_ex_cut : cut stream0 [Noise 1; Noise 2; Frame hb; Frame (set_nth hb 8 1%N); Noise 7] [254; 9; 0]%N /\ is_bytes stream0.
Proof.
  assert (W : forall f, nth 0 f 0%N = 254%N -> nth 1 f 0%N = 9%N -> length f = 17 -> whole f).
  { intros [|m [|l [|fl t]]] H0 H1 H2; try discriminate. cbn [nth] in *. subst. exists 254%N, 9%N, fl, t. split; [reflexivity|].
    split; [left; reflexivity|]. exact H2. }
  split.
  - change stream0 with (1%N :: 2%N :: hb ++ set_nth hb 8 1%N ++ [7; 254; 9; 0]%N).
    apply cut_noise; [intros [H|H]; discriminate|]. apply cut_noise; [intros [H|H]; discriminate|].
    apply cut_frame; [apply W; reflexivity|]. apply cut_frame; [apply W; reflexivity|].
    apply cut_noise; [intros [H|H]; discriminate|]. apply cut_rest. right. exists 254%N, [9; 0]%N. split; [reflexivity|]. split; [left; reflexivity|].
    intros ? ? ? [= <- <- <-]. vm_compute. lia.
  - repeat constructor.
Qed.
Example c69_ex : exists d, decode text0 hb = Ok d /\
  (let '(p, r) := feed_blocks (plain_decode text0) (parser_new true tt) [firstn 5 stream0; firstn 20 (skipn 5 stream0); []; skipn 25 stream0] in
   r = Ok [BadData [1%N]; BadData [2%N]; Message d; BadData (set_nth hb 8 1%N); BadData [7%N]] /\ pending p = [254; 9; 0]%N /\ p_errors p = 4).
Proof. eexists. split; [vm_compute; reflexivity|]. vm_compute. auto. Qed.

(** C70.  Packed messages - every message of the dialect, arrays included - are recovered from a stream, whatever lies between them and in
    whatever blocks it arrives, as long as no damage touches the first bytes of a frame. *)
Theorem c70_blocks : forall text blocks l, transmission text (concat blocks) l ->
  exists p items, feed_blocks (plain_decode text) (parser_new true tt) blocks = (p, Ok items) /\ Forall2 (sent_as text) l (messages items) /\ pending p = [].
Proof.
  intros text blocks l T. destruct (transmission_cut text _ _ T) as (B & pieces & C & A & _).
  destruct (c69_blocks _ _ (plain_decode text) tt blocks pieces [] (plain_mav text) B C) as (p & E & P & _). eauto.
Qed.
Print Assumptions c70_blocks.

Theorem c70_bytes : forall text robust s l, transmission text s l ->
  exists p outs, feed_bytes (plain_decode text) (parser_new robust tt) s = (p, outs) /\ Forall2 (sent_as text) l (messages (returned_items outs)) /\ pending p = [].
Proof.
  intros text [] s l T; destruct (transmission_cut text _ _ T) as (B & pieces & C & A & A').
  - destruct (c69_bytes _ _ (plain_decode text) tt s pieces [] (plain_mav text) B C) as (p & E & P & _).
    exists p, (map Ok (snd (tolerant (plain_decode text) tt pieces))). split; [exact E|]. split; [|exact P].
    rewrite returned_ok. exact A.
  - destruct (bytes_strict (plain_decode text) s (parser_new false tt) [] tt 0 0 0 pieces []) as (p & E & _ & P & _); auto.
    { repeat split; cbn; lia. } { left; reflexivity. }
    exists p, (snd (strict (plain_decode text) tt false pieces)). auto.
Qed.
Print Assumptions c70_bytes.

(** Without robust_parsing parse_buffer recovers streams that hold nothing else. *)
Theorem c70_strict_blocks : forall text blocks l, clean_transmission (concat blocks) l ->
  exists p ms, feed_blocks (plain_decode text) (parser_new false tt) blocks = (p, Ok (map Message ms)) /\ Forall2 (sent_as text) l ms /\ pending p = [] /\
    p_packets p = length l /\ p_bytes p = length (concat blocks) /\ p_errors p = 0.
Proof.
  intros text blocks l T. destruct (clean_cut text _ _ T) as (B & pieces & ms & C & A & S2).
  destruct (blocks_accepted (plain_decode text) blocks (parser_new false tt) [] tt 0 0 0 pieces [] ms) as (p & E & _ & P & _ & _ & K & N' & E'); auto.
  { repeat split; cbn; lia. } { left; reflexivity. }
  exists p, ms. rewrite (Forall2_len _ _ _ S2). auto 7.
Qed.
Print Assumptions c70_strict_blocks.

(** Otherwise messages are lost: what was found before an exception is dropped, ... *)
Theorem c70_dropped_refuted : exists f g d, decode text0 f = Ok d /\ transmission text0 (f ++ g) [Sending (class_of 0) hb_fields 17 1 1] /\
  let '(p, r) := parse_buffer (plain_decode text0) (parser_new false tt) (f ++ g) in r = Err MAVError /\ pending p = [] /\
  forall more p' outs, feed_bytes (plain_decode text0) p more = (p', outs) -> is_bytes more ->
    forall pieces rest, cut more pieces rest -> outs = snd (strict (plain_decode text0) tt false pieces).
Proof.
  exists hb, (set_nth hb 8 1%N).
  assert (Ef : exists d, decode text0 hb = Ok d) by (eexists; vm_compute; reflexivity). destruct Ef as (d & Ef).
  exists d. split; [exact Ef|]. split.
  - rewrite <- (app_nil_r (set_nth hb 8 1%N)). apply (tr_message text0 (Sending (class_of 0) hb_fields 17 1 1)).
    + destruct c09_ex_fits as [H1 H2]. repeat split; cbn; try exact H1; try apply H2; lia.
    + exact c09_ex_pack.
    + apply tr_damaged; [| | |constructor].
      * exists 254%N, 9%N, 17%N, (skipn 3 (set_nth hb 8 1%N)). split; [reflexivity|]. split; [left; reflexivity|reflexivity].
      * repeat constructor.
      * intros d'. vm_compute. discriminate.
  - destruct (parse_buffer (plain_decode text0) (parser_new false tt) (hb ++ set_nth hb 8 1%N)) as [p r] eqn:E.
    vm_compute in E. injection E as <- <-. split; [reflexivity|]. split; [reflexivity|].
    intros more p' outs F B pieces rest C.
    match type of F with feed_bytes _ ?q _ = _ =>
      destruct (bytes_strict (plain_decode text0) more q [] tt 1 34 0 pieces rest) as (p2 & E2 & _); auto end.
    { repeat split; cbn; lia. } { left; reflexivity. }
    rewrite F in E2. injection E2 as _ ->. reflexivity.
Qed.
Print Assumptions c70_dropped_refuted.

(** ... and after noise None is returned although a message is complete. *)
Theorem c70_none_refuted : exists f d, decode text0 f = Ok d /\
  let '(p, r) := parse_buffer (plain_decode text0) (parser_new false tt) ([1; 2]%N ++ f) in r = Err MAVError /\
  let '(p, r) := parse_buffer (plain_decode text0) p [] in r = Ok None /\ pending p = f.
Proof. exists hb. eexists. split; [vm_compute; reflexivity|]. vm_compute. auto. Qed.
Print Assumptions c70_none_refuted.

(** A damaged length byte costs the messages behind it, too. *)
Theorem c70_length_refuted : exists f g d, decode text0 f = Ok d /\ length g = length f /\ (forall i, i <> 1 -> nth i g 0%N = nth i f 0%N) /\
  exists p, feed_blocks (plain_decode text0) (parser_new true tt) [g; f] = (p, Ok [BadData (g ++ firstn 17 f)]) /\ pending p = [].
Proof.
  exists hb, (set_nth hb 1 26%N). eexists. split; [vm_compute; reflexivity|]. split; [reflexivity|]. split.
  - intros i Hi. do 17 (destruct i as [|i]; [try reflexivity; contradiction|]). destruct i; reflexivity.
  - eexists. split; [vm_compute; reflexivity|reflexivity].
Qed.
Print Assumptions c70_length_refuted.

(** The hypotheses: a heartbeat, noise, a damaged heartbeat, a text (message 253, with a char array). *)
Definition status_text : bytes := match message_pack (Msg (class_of 253) [FOne (VInt 6); FOne (VBytes [79; 75]%N)]) 0 1 1 with Ok b => b | Err _ => [] end.
Example c70_ex : transmission text0 (concat [hb ++ [1; 2]%N ++ firstn 3 hb; skipn 3 (set_nth hb 8 1%N); status_text])
  [Sending (class_of 0) hb_fields 17 1 1; Sending (class_of 253) [FOne (VInt 6); FOne (VBytes [79; 75]%N)] 0 1 1].
Proof.
  replace (concat _) with (hb ++ 1%N :: 2%N :: set_nth hb 8 1%N ++ status_text ++ []) by (vm_compute; reflexivity).
  apply (tr_message text0 (Sending (class_of 0) hb_fields 17 1 1)).
  { destruct c09_ex_fits as [H1 H2]. repeat split; cbn; try exact H1; try apply H2; lia. } { exact c09_ex_pack. }
  apply tr_noise; [intros [H|H]; discriminate|reflexivity|]. apply tr_noise; [intros [H|H]; discriminate|reflexivity|].
  apply tr_damaged.
  { exists 254%N, 9%N, 17%N, (skipn 3 (set_nth hb 8 1%N)). split; [reflexivity|]. split; [left; reflexivity|reflexivity]. }
  { repeat constructor. } { intros d'. vm_compute. discriminate. }
  apply (tr_message text0 (Sending (class_of 253) [FOne (VInt 6); FOne (VBytes [79; 75]%N)] 0 1 1)); [|vm_compute; reflexivity|constructor].
  split; [|split; [split; [reflexivity|]|repeat split; cbn; lia]].
  - unfold class_of. destruct (get_class 253) as [c|] eqn:G; [|vm_compute in G; discriminate]. cbn [s_class]. apply get_class_spec in G. apply G.
  - cbn [s_class s_fields]. intros i Hi. change (f_count (class_of 253)) with 2 in Hi. destruct i as [|[|i]]; [| |lia].
    + unfold fits. replace (String.eqb (f_type (class_of 253) 0) "char") with false by (vm_compute; reflexivity).
      replace (Nat.eqb (f_array (class_of 253) 0) 0) with true by (vm_compute; reflexivity).
      exists (VInt 6). split; [reflexivity|]. vm_compute. split; [discriminate|split; congruence].
    + unfold fits. replace (String.eqb (f_type (class_of 253) 1) "char") with true by (vm_compute; reflexivity).
      exists [79; 75]%N. split; [reflexivity|repeat constructor].
Qed.

(** C71.  Without robust_parsing: byte by byte, exactly one exception for a run of noise and for a refused frame, and the exception of the
    decoder is passed on; refused frames are not counted as errors, and only returned messages are counted as packets. *)
Theorem c71_strict : forall D M (decode : D -> bytes -> D * res M) d s pieces rest, is_bytes s -> cut s pieces rest ->
  exists p, feed_bytes decode (parser_new false d) s = (p, snd (strict decode d false pieces)) /\
    pending p = rest /\ p_decoder p = fst (strict decode d false pieces) /\
    p_packets p = length (returned_items (snd (strict decode d false pieces))) /\ p_bytes p = length s /\ p_errors p = noise_runs false pieces.
Proof.
  intros D M decode d s pieces rest B C.
  destruct (bytes_strict decode s (parser_new false d) [] d 0 0 0 pieces rest) as (p & E & _ & P & _ & H1 & H2 & H3 & H4); auto.
  { repeat split; cbn; lia. } { left; reflexivity. }
  exists p. split; [exact E|]. split; [exact P|]. split; [exact H1|]. split; [|split; [exact H3|exact H4]].
  rewrite H2. cbn [p_prefix_error parser_new Nat.add]. clear.
  induction (snd (strict decode d false pieces)) as [|[x|e] t IH]; [reflexivity| |exact IH]. cbn in *. f_equal. exact IH.
Qed.
Print Assumptions c71_strict.

(** Once an exception has been raised for noise, the next frame is delivered: nothing but the pieces decides. *)
Theorem c71_exceptions : forall D M (decode : D -> bytes -> D * res M) d s pieces rest, only_mav_errors decode -> is_bytes s -> cut s pieces rest ->
  messages (returned_items (snd (feed_bytes decode (parser_new false d) s))) =
  messages (returned_items (snd (feed_bytes decode (parser_new true d) s))).
Proof.
  intros D M decode d s pieces rest Hm B C.
  destruct (c71_strict D M decode d s pieces rest B C) as (p & -> & _). destruct (c69_bytes D M decode d s pieces rest Hm B C) as (p' & -> & _).
  cbn [snd]. rewrite returned_ok. clear. generalize false. revert d. induction pieces as [|[b|f] l IH]; intros d fl; [reflexivity| |]; cbn [strict tolerant].
  - specialize (IH d true). destruct (strict decode d true l) as [d1 r1], (tolerant decode d l) as [d2 r2]. cbn [snd] in *. destruct fl; exact IH.
  - destruct (outcome decode d f) as [d0 [m|e]].
    + specialize (IH d0 false). destruct (strict decode d0 false l) as [d1 r1], (tolerant decode d0 l) as [d2 r2]. cbn in *. f_equal. exact IH.
    + specialize (IH d0 false). destruct (strict decode d0 false l) as [d1 r1], (tolerant decode d0 l) as [d2 r2]. exact IH.
Qed.
Print Assumptions c71_exceptions.

Example c71_ex : exists d, decode text0 hb = Ok d /\
  (let '(p, r) := feed_bytes (plain_decode text0) (parser_new false tt) stream0 in
   r = [Err MAVError; Ok (Message d); Err MAVError; Err MAVError] /\ p_errors p = 2 /\ p_packets p = 1 /\ p_bytes p = 40).
Proof. eexists. split; [vm_compute; reflexivity|]. vm_compute. auto. Qed.

(** C72.  bytes_needed.  While a frame is being received, exactly its missing bytes are asked for. *)
Theorem c72_missing : forall D M (decode : D -> bytes -> D * res M) d robust calls c magic len flags t, Forall is_bytes calls ->
  let p := fold_left (fun p c => fst (parse_char decode p c)) calls (parser_new robust d) in
  pending p ++ c = magic :: len :: flags :: t -> unfinished (pending p ++ c) ->
  bytes_needed (fst (parse_char decode p c)) = frame_size magic len flags - length (pending p ++ c).
Proof.
  intros D M decode d robust calls c magic len flags t B p E U. apply (timely_needed decode p c magic len flags t); auto.
  apply calls_sound; [exact B| |constructor]. split; cbn; lia.
Qed.
Print Assumptions c72_missing.

(** Whatever was received, at least one byte is asked for, so that a receiver that reads that many never stops. *)
Theorem c72_positive : forall D M (decode : D -> bytes -> D * res M) d robust calls,
  1 <= bytes_needed (fold_left (fun p c => fst (parse_char decode p c)) calls (parser_new robust d)).
Proof.
  intros D M decode d robust calls. generalize (fold_left (fun p c => fst (parse_char decode p c)) calls (parser_new robust d)). intro p.
  unfold bytes_needed. destruct (Nat.leb_spec (p_expected p) (buf_len p)); lia.
Qed.
Print Assumptions c72_positive.

(** The receiving loop over a stream of version 1 frames and noise never holds back a complete frame: what is pending after any number of
    rounds is noise or the beginning of a frame. *)
Theorem c72_prompt : forall D M (decode : D -> bytes -> D * res M) d robust n s,
  is_bytes s -> (forall pieces rest, cut s pieces rest -> Forall (fun x => ~ is_v2_frame x) pieces /\ nth 0 rest 0%N <> 253%N) ->
  let p := fst (poll decode n (parser_new robust d) s) in
  1 <= bytes_needed p /\ forall pieces rest, cut (pending p) pieces rest -> Forall is_noise pieces.
Proof.
  intros D M decode d robust n s B V p.
  pose proof (poll_timely decode n (parser_new robust d) s (new_timely decode robust d) B V) as T. split.
  - destruct T as (_ & H & _). fold p in H. unfold bytes_needed. rewrite (proj2 (Nat.leb_gt _ _) H). lia.
  - intros pieces rest C. eapply timely_noise; eassumption.
Qed.
Print Assumptions c72_prompt.

(** After a version 2 frame more bytes are asked for than the next frame has, and with noise before it a complete frame is held back. *)
Definition any_decode : unit -> bytes -> unit * res bytes := fun d f => (d, Ok f).
Theorem c72_v2_refuted : exists s f, is_bytes (s ++ f) /\ whole f /\
  (let '(p, r) := poll any_decode 2 (parser_new true tt) (s ++ f) in pending p = [] /\ r = f /\ length f < bytes_needed p) /\
  (let '(p, r) := poll any_decode 3 (parser_new true tt) (s ++ [0]%N ++ f) in r = [] /\ pending p = f).
Proof.
  exists [253; 0; 0; 0; 0; 0; 0; 0; 0; 0; 0; 0]%N, [254; 0; 0; 0; 0; 0; 0; 0]%N.
  split; [repeat constructor|]. split; [exists 254%N, 0%N, 0%N, [0; 0; 0; 0; 0]%N; split; [reflexivity|]; split; [left; reflexivity|reflexivity]|].
  split; vm_compute; auto. split; [reflexivity|]. split; [reflexivity|]. lia.
Qed.
Print Assumptions c72_v2_refuted.

Example c72_ex : let s := [3]%N ++ hb ++ hb in
  map (fun k => bytes_needed (fst (poll (plain_decode text0) k (parser_new true tt) s))) (seq 0 6) = [8; 1; 9; 8; 9; 8] /\
  map (fun k => length (pending (fst (poll (plain_decode text0) k (parser_new true tt) s)))) (seq 0 6) = [0; 7; 8; 0; 8; 0].
Proof. split; vm_compute; reflexivity. Qed.
