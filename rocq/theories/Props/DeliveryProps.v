(** C91: delivery of the messages of a buffer through code words. *)
From Coq Require Import String Ascii List NArith ZArith Arith Bool Lia.
From Verif.Model Require Import Py Dialect ProtocolMeta Struct Mavlink Segmentation MsgCreator Delivery.
From Verif.Spec Require Import Bytes Bits Header Frame Segment TelemetrySpec DeliverySpec.
From Verif.Proofs Require Import Base SegMore TelemetryP DeliveryP.
From Verif.Props Require Import TelemetryProps.
Import ListNotations.

(** Packed messages followed by any bytes: the messages are all reported, the rest is segmented as if it stood alone. *)
Theorem c91_frames_then : forall text fl g p v s,
  Forall (fun f => exists c fs q sys comp, In c mavlink_classes /\ no_arrays c /\ fits_all c fs /\ message_pack (Msg c fs) q sys comp = Ok f) fl ->
  is_bytes g -> segment_buffer (decode text) g = Ok (p, v, s) ->
  exists pf, segment_buffer (decode text) (concat fl ++ g) =
    Ok (pf ++ p, repeat 1%Z (8 * length (concat fl)) ++ v, good_starts 0 (map Good fl) ++ moved (length (concat fl)) s) /\
    length pf = length (concat fl) /\ ~ In UNKNOWN pf.
Proof. exact frames_then. Qed.
Print Assumptions c91_frames_then.

(** At most nine bytes show no message, except nine that look like an AUTH_KEY message. *)
Theorem c91_filling : forall text g, is_bytes g -> length g <= 9 ->
  exists p v s, segment_buffer (decode text) g = Ok (p, v, s) /\ (like_auth_key g -> length g = 9 /\ s = [(0, 7%N)]) /\
    (~ like_auth_key g -> s = [] /\ p = repeat UNKNOWN (length g) /\ v = repeat 0%Z (8 * length g)).
Proof.
  intros text g B L. destruct (SegStream.segment_decode_total text g B) as (p & v & s & E). exists p, v, s. split; [exact E|].
  destruct (few_bytes text g p v s B L E) as [[K ->]|(K & Q)]; (split; intro H; [|try contradiction]).
  - split; [|reflexivity]. destruct H as (q & sy & c & x & lo & hi & m & -> & _). reflexivity.
  - contradiction.
  - exact Q.
Qed.
Print Assumptions c91_filling.

(** The structures that the scripts hand to the decoders. *)
Theorem c91_known : forall text r q t b q' n, in_byte q -> usable_all r t -> telemetry r q t = Ok (b, q') -> In n [1; 2; 3] ->
  known_structures (decode text) n (bytes_bits b) = Ok (map (fun w => match w with (a, e, _) => messages_between a e end) (word_layout n)).
Proof. exact known_word. Qed.
Print Assumptions c91_known.

(** It does not matter that they are taken from the last buffer: every list of buffers of the recording gives the same. *)
Theorem c91_run_structures : forall text r n bufs, In n [1; 2; 3] -> bufs <> [] ->
  Forall (fun x => exists q t b q', in_byte q /\ usable_all r t /\ telemetry r q t = Ok (b, q') /\ x = bytes_bits b) bufs ->
  run_structures (decode text) n bufs = Ok (map (fun w => match w with (a, e, _) => messages_between a e end) (word_layout n)).
Proof.
  intros text r n bufs Hn Ne F. unfold run_structures. destruct (rev bufs) as [|x l] eqn:E.
  - apply (f_equal (@rev _)) in E. rewrite rev_involutive in E. contradiction.
  - rewrite Forall_forall in F. destruct (F x) as (q & t & b & q' & B & U & T & ->); [apply in_rev; rewrite E; left; reflexivity|]. eapply known_word; eassumption.
Qed.
Print Assumptions c91_run_structures.

(** Any other number of clusters stops the run before a word is decoded, whatever the buffer; and so does a recording without buffers. *)
Theorem c91_other : forall text n b, ~ In n [1; 2; 3] ->
  (forall bufs, run_structures (decode text) n (bufs ++ [b]) = Err ValueError) /\ forall m, run_structures (decode text) m [] = Err UnboundLocal.
Proof.
  intros text n b Hn. split; [|reflexivity]. intro bufs. unfold run_structures. rewrite rev_app_distr. cbn [rev app].
  do 4 (destruct n as [|n]; [first [reflexivity | exfalso; apply Hn; cbn [In]; tauto]|]). reflexivity.
Qed.
Print Assumptions c91_other.

(** A code that is too short for its part of the buffer: the sizes in bits are fixed but for one cluster, whatever the buffer holds. *)
Theorem c91_too_short : forall random n k bits, In n [1; 2; 3] ->
  let largest := match n with 1 => length bits | 2 => 576 | _ => 448 end in
  (k < largest -> info_words random n k bits = Err ValueError) /\ (largest <= k -> exists ws, info_words random n k bits = Ok ws /\ length ws = n).
Proof.
  intros random n k bits [<-|[<-|[<-|[]]]]; cbv zeta; unfold info_words, fill_up; change (864 - 416) with 448; change (1224 - 864) with 360; (split; intros H).
  - destruct (Nat.ltb_spec k (length bits)); [reflexivity|lia].
  - destruct (Nat.ltb_spec k (length bits)); [lia|]. eexists. split; reflexivity.
  - destruct (Nat.ltb_spec k 576); [reflexivity|lia].
  - destruct (Nat.ltb_spec k 576); [lia|]. eexists. split; reflexivity.
  - destruct (Nat.ltb_spec k 416); [reflexivity|]. destruct (Nat.ltb_spec k 448); [reflexivity|lia].
  - destruct (Nat.ltb_spec k 416); [lia|]. destruct (Nat.ltb_spec k 448); [lia|]. destruct (Nat.ltb_spec k 360); [lia|]. eexists. split; reflexivity.
Qed.
Print Assumptions c91_too_short.

(** A decoder that recovers the information bits of a word finds the messages of that word at their places, whatever became of the other words, and then what its
    filling shows when it stands alone; every message is decoded to the row of the recording. *)
Theorem c91_received : forall text r q t b q' random n ws i a e L, in_byte q -> usable_all r t -> telemetry r q t = Ok (b, q') ->
  (forall c l, length (random c l) = l) -> info_words random n (code_length n) (bytes_bits b) = Ok ws -> nth_error (word_layout n) i = Some (a, e, L) ->
  exists w pf pg vg sg, nth_error ws i = Some w /\ length w = code_length n /\
    segment_buffer (decode text) (tobytes (random i L)) = Ok (pg, vg, sg) /\
    received (decode text) w = Ok (pf ++ pg, repeat 1%Z (8 * (e - a)) ++ vg, messages_between a e ++ moved (e - a) sg) /\
    length pf = e - a /\ ~ In UNKNOWN pf /\
    forall k id s start stop, nth_error (layout r) k = Some (id, s, start, stop) -> a <= start < e ->
      In (start - a, id) (messages_between a e) /\ stop <= e /\
      exists d, decode text (slice (tobytes w) (start - a) (stop - a)) = Ok d /\ is_sent q t k id s d.
Proof.
  intros text r q t b q' random n ws i a e L Bq U T R E H. destruct (received_word text r q t b q' random n ws i a e L Bq U T R E H) as (w & pf & pg & vg & sg & H1 & H2 & H3 & H4 & H5 & H6 & H7).
  exists w, pf, pg, vg, sg. destruct (c78_buffer text r q t Bq U) as (b' & T' & Bb & Lb & M). rewrite T in T'. injection T' as <- _.
  split; [exact H1|]. split. { rewrite H2, app_length, BitOpsP.length_bytes_bits, R, length_slice, Lb. destruct n as [|[|[|[|n]]]]; try (destruct i; discriminate H); do 3 (destruct i as [|i]; [first [discriminate H | injection H as <- <- <-; reflexivity]|]); destruct i; discriminate H. }
  split; [exact H3|]. split; [exact H4|]. split; [exact H5|]. split; [exact H6|]. intros k id s start stop Hk Hs.
  assert (Q : In (start - a, id) (messages_between a e) /\ stop <= e <= 153).
  { assert (Hk5 : k < 5) by (apply (nth_error_Some (layout r)); rewrite Hk; discriminate). unfold layout in Hk.
    destruct n as [|[|[|[|n]]]]; try (destruct i; discriminate H); do 3 (destruct i as [|i]; [first [discriminate H | injection H as <- <- <-;
      do 5 (destruct k as [|k]; [injection Hk as <- <- <- <-; first [exfalso; lia | split; [cbn; tauto|lia]]|]); lia]|]); destruct i; discriminate H. }
  destruct Q as [Q1 Q2]. split; [exact Q1|]. split; [lia|]. destruct (M k id s start stop Hk) as (j & d & J1 & J2 & J3 & J4 & J5 & J6). exists d. split.
  - rewrite H7. rewrite slice_within by lia. exact J2.
  - split; [exact J3|]. split; [exact J4|]. split; [exact J5|]. exists j. auto.
Qed.
Print Assumptions c91_received.

(** Every message of a buffer is whole in exactly one of its words: a lost word costs its own messages and no others. *)
Theorem c91_one_word : forall r n k id s start stop, In n [1; 2; 3] -> nth_error (layout r) k = Some (id, s, start, stop) ->
  exists i a e L, nth_error (word_layout n) i = Some (a, e, L) /\ a <= start /\ stop <= e /\
    forall i' a' e' L', nth_error (word_layout n) i' = Some (a', e', L') -> i' <> i -> stop <= a' \/ e' <= start.
Proof.
  intros r n k id s start stop Hn Hk. assert (Hk5 : k < 5) by (apply (nth_error_Some (layout r)); rewrite Hk; discriminate). unfold layout in Hk.
  assert (X : exists i, match nth_error (word_layout n) i with Some (a, e, L) => a <= start /\ stop <= e /\
      forall i' a' e' L', nth_error (word_layout n) i' = Some (a', e', L') -> i' <> i -> stop <= a' \/ e' <= start | None => False end).
  { destruct Hn as [<- | [<- | [<- | []]]]; (do 5 (destruct k as [|k]; [injection Hk as <- <- <- <-;
      first [ exists 0; cbn [word_layout nth_error]; split; [lia|split; [lia|]]; intros i' a' e' L' H N; do 3 (destruct i' as [|i']; [first [contradiction | discriminate H | injection H as <- <- <-; lia]|]); destruct i'; discriminate H
            | exists 1; cbn [word_layout nth_error]; split; [lia|split; [lia|]]; intros i' a' e' L' H N; do 3 (destruct i' as [|i']; [first [contradiction | discriminate H | injection H as <- <- <-; lia]|]); destruct i'; discriminate H
            | exists 2; cbn [word_layout nth_error]; split; [lia|split; [lia|]]; intros i' a' e' L' H N; do 3 (destruct i' as [|i']; [first [contradiction | discriminate H | injection H as <- <- <-; lia]|]); destruct i'; discriminate H ]|]); lia). }
  destruct X as (i & X). destruct (nth_error (word_layout n) i) as [[[a e] L]|] eqn:E; [|contradiction]. destruct X as (X1 & X2 & X3). exists i, a, e, L. auto.
Qed.
Print Assumptions c91_one_word.

(** The structure found in a recovered word is the one the scripts hand to the decoder, for every word but the third of three, unless the filling looks like an
    AUTH_KEY message. *)
Theorem c91_no_phantom : forall text r q t b q' random n ws i a e L, in_byte q -> usable_all r t -> telemetry r q t = Ok (b, q') ->
  (forall c l, length (random c l) = l) -> info_words random n (code_length n) (bytes_bits b) = Ok ws -> nth_error (word_layout n) i = Some (a, e, L) ->
  (n, i) <> (3, 2) ->
  exists w p v s, nth_error ws i = Some w /\ received (decode text) w = Ok (p, v, s) /\
    (like_auth_key (tobytes (random i L)) -> In L [70; 72] /\ s = messages_between a e ++ [(e - a, 7%N)]) /\
    (~ like_auth_key (tobytes (random i L)) -> s = messages_between a e /\
       (forall j, nth j p UNKNOWN = UNKNOWN <-> e - a <= j) /\ v = repeat 1%Z (8 * (e - a)) ++ repeat 0%Z (8 * ((L + 7) / 8))).
Proof.
  intros text r q t b q' random n ws i a e L Bq U T R E H N. destruct (received_word text r q t b q' random n ws i a e L Bq U T R E H) as (w & pf & pg & vg & sg & H1 & H2 & H3 & H4 & H5 & H6 & H7).
  assert (HL : length (tobytes (random i L)) = (L + 7) / 8) by (rewrite tobytes_length, R; reflexivity).
  assert (L9 : (L + 7) / 8 <= 9 /\ ((L + 7) / 8 = 9 -> In L [70; 72])).
  { destruct n as [|[|[|[|n]]]]; try (destruct i; discriminate H); do 3 (destruct i as [|i]; [first [discriminate H | exfalso; apply N; reflexivity | injection H as <- <- <-; split; [vm_compute; lia|cbn; auto; intro Q; discriminate Q]]|]); destruct i; discriminate H. }
  eexists w, _, _, _. split; [exact H1|]. split; [exact H4|]. destruct (few_bytes text _ pg vg sg (tobytes_bytes _) ltac:(rewrite HL; apply L9) H3) as [[K ->]|(K & -> & -> & ->)].
  - split; [|contradiction]. intros _. split.
    + apply L9. rewrite <- HL. destruct K as (q0 & sy & c & x & lo & hi & m & -> & _). reflexivity.
    + cbn [moved map fst snd]. rewrite Nat.add_0_r. reflexivity.
  - split; [contradiction|]. intros _. cbn [moved map]. rewrite app_nil_r, HL. split; [reflexivity|]. split; [|reflexivity]. intro j.
    destruct (Nat.lt_ge_cases j (e - a)) as [Hj|Hj].
    + rewrite app_nth1 by lia. split; [|lia]. intro Q. exfalso. apply H6. rewrite <- Q. apply nth_In. lia.
    + rewrite app_nth2 by lia. rewrite nth_repeat. tauto.
Qed.
Print Assumptions c91_no_phantom.

(** The random filling can show messages that were never sent. *)
Definition filled (l : bytes) (c n : nat) : list bool := firstn n (bytes_bits l ++ repeat false n).
Lemma filled_length l c n : length (filled l c n) = n.
Proof. unfold filled. rewrite firstn_length, app_length, repeat_length. lia. Qed.
Theorem c91_phantom_refuted : exists random b w, (forall c l, length (random c l) = l) /\ telemetry rec1 0 1000 = Ok (b, 5%Z) /\
  info_words random 1 1296 (bytes_bits b) = Ok [w] /\
  match received (decode (fun _ => [])) w with Ok (_, _, s) => s = messages_between 0 153 ++ [(153, 7%N)] | Err _ => False end.
Proof.
  exists (filled [254; 1; 0; 0; 0; 7; 5; 223; 25]%N). eexists _, _. split; [apply filled_length|]. split; [vm_compute; reflexivity|]. split; [vm_compute; reflexivity|]. vm_compute. reflexivity.
Qed.
Print Assumptions c91_phantom_refuted.
Theorem c91_third_word_refuted : exists random b ws w, (forall c l, length (random c l) = l) /\ telemetry rec1 0 1000 = Ok (b, 5%Z) /\
  info_words random 3 486 (bytes_bits b) = Ok ws /\ nth_error ws 2 = Some w /\
  match received (decode (fun _ => [])) w with Ok (_, _, s) => s = messages_between 108 153 ++ [(47, 42%N)] | Err _ => False end.
Proof.
  exists (filled [0; 0; 254; 2; 0; 0; 0; 42; 5; 0; 78; 199]%N). eexists _, _, _. split; [apply filled_length|]. split; [vm_compute; reflexivity|]. split; [vm_compute; reflexivity|].
  split; [reflexivity|]. vm_compute. reflexivity.
Qed.
Print Assumptions c91_third_word_refuted.

(** A delivery: two words; the second is lost, the first shows position and pinger. *)
Example c91_ex : exists b ws, telemetry rec1 254 20000 = Ok (b, 3%Z) /\ info_words (fun _ l => repeat true l) 2 648 (bytes_bits b) = Ok ws /\
  length ws = 2 /\ map (@length bool) ws = [648; 648] /\
  match received (decode (fun _ => [])) (nth 0 ws []) with
  | Ok (p, _, s) => s = [(0, 33%N); (52, 234%N)] /\ length (filter is_unknown p) = 9 | Err _ => False end /\
  match received (decode (fun _ => [])) (map negb (nth 1 ws [])) with Ok (_, _, s) => s = [] | Err _ => False end /\
  known_structures (decode (fun _ => [])) 3 (bytes_bits b) = Ok [[(0, 33%N)]; [(0, 234%N); (20, 30%N)]; [(0, 212%N); (27, 218%N)]].
Proof.
  eexists _, _. split; [vm_compute; reflexivity|]. split; [vm_compute; reflexivity|]. split; [reflexivity|]. split; [reflexivity|]. split; [vm_compute; split; reflexivity|].
  split; [vm_compute; reflexivity|]. vm_compute. reflexivity.
Qed.
Example c91_ex_words : word_layout 3 = [(0, 52, 70); (52, 108, 38); (108, 153, 126)] /\ messages_between 52 108 = [(0, 234%N); (20, 30%N)] /\ moved 10 [(0, 7%N)] = [(10, 7%N)].
Proof. repeat split. Qed.
Example c91_ex_empty : run_structures (decode (fun _ => [])) 1 [] = Err UnboundLocal /\ known_structures (decode (fun _ => [])) 4 (repeat true 8) = Err ValueError.
Proof. split; reflexivity. Qed.
