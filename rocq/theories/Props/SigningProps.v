(** C73-C75 and parts of C08: signed frames. *)
From Coq Require Import String Ascii List NArith ZArith Arith Bool Lia.
From Verif.Model Require Import Py Dialect ProtocolMeta Struct Crc Mavlink Parser Signing.
From Verif.Spec Require Import Bytes Bits Header CrcSpec Frame StreamSpec SignSpec.
From Verif.Proofs Require Import Base DialectP StructP MavlinkP FieldsP PackP SendP MavlinkMore StreamP StreamMore SignP SignSend.
From Verif.Props Require Import MavlinkProps StreamProps.
Import ListNotations.
Local Open Scope list_scope.
Local Notation length := List.length.

(** C73.  A frame is accepted iff it is well formed (C08) and there is no secret key, or its signature proves its origin, or the callback
    permits its message id. *)
Theorem c73_accept : forall sha text sg b, is_bytes b ->
  (exists r, snd (decode_signed sha text sg b) = Ok r) <->
  (exists d, decode text b = Ok d /\ (sg_key sg = None \/ proven sha sg b \/ permitted sg (d_msgId d))).
Proof.
  intros sha text sg b B. destruct (signed_cases sha text sg b B) as (_ & [(e & E & -> & _)|(d & E & C)]).
  - split; [intros (r & H); discriminate|]. intros (d & H & _). congruence.
  - cbv zeta in C. destruct C as [(K & -> & _)|[(P & -> & _)|(K & P & -> & _)]].
    + split; [intros _; exists d; auto|eauto].
    + split; [intros _; exists d; auto|eauto].
    + unfold permitted. destruct (sg_allow sg) as [f|] eqn:Ea.
      * destruct (f (d_msgId d)) eqn:Ef; (split; [|]).
        -- intros _. exists d. split; [exact E|]. right; right. eauto.
        -- eauto.
        -- intros (r & H). discriminate.
        -- intros (d' & Ed & [H|[H|(g & Hg & Hp)]]); [contradiction|contradiction|]. congruence.
      * split; [intros (r & H); discriminate|]. intros (d' & Ed & [H|[H|(g & Hg & Hp)]]); [contradiction|contradiction|discriminate].
Qed.
Print Assumptions c73_accept.

(** The message is the one of decode without signing; it is marked as signed exactly when its origin is proven. *)
Theorem c73_result : forall sha text sg b r, is_bytes b -> snd (decode_signed sha text sg b) = Ok r ->
  decode text b = Ok (v_msg r) /\ (v_signed r = true <-> proven sha sg b) /\
  v_link r = (if v_signed r then Some (nth (length b - 13) b 0%N) else None).
Proof.
  intros sha text sg b r B H. destruct (signed_cases sha text sg b B) as (_ & [(e & E & Er & _)|(d & E & C)]); [congruence|].
  cbv zeta in C. destruct C as [(K & Er & _)|[(P & Er & _)|(K & P & Er & _)]].
  - rewrite H in Er. injection Er as ->. cbn. split; [exact E|]. split; [|reflexivity]. split; [discriminate|]. intros (k & Hk & _). congruence.
  - rewrite H in Er. injection Er as ->. cbn. tauto.
  - rewrite H in Er. destruct (match sg_allow sg with Some f => f (d_msgId d) | None => false end); [|discriminate]. injection Er as ->. cbn.
    split; [exact E|]. split; [|reflexivity]. split; [discriminate|]. intros Hp. contradiction.
Qed.
Print Assumptions c73_result.

(** get_payload: the payload of a version 1 frame; of a version 2 frame the last four bytes of the header, too (defect). *)
Theorem c73_payload : forall sha text sg b r, is_bytes b -> snd (decode_signed sha text sg b) = Ok r ->
  v_payload r = if N.eqb (nth 0 b 0%N) 254 then payload b else [nth 6 b 0; nth 7 b 0; nth 8 b 0; nth 9 b 0]%N ++ payload_v2 b.
Proof.
  intros sha text sg b r B H. rewrite decode_signed_spec in H. destruct (decode text b) as [d|e] eqn:E; [|discriminate].
  unfold outcome_of in H. destruct (judge_signature sha sg b (siglen b) (d_sys d) (d_comp d) (d_msgId d)) as [[sg' ok] accept]. cbn [snd] in H. destruct accept; [|discriminate]. injection H as <-. cbn [v_payload].
  unfold siglen. destruct (N.eqb_spec (nth 0 b 0%N) 254) as [E0|E0].
  - unfold slice, payload. f_equal. lia.
  - destruct (proj1 (decode_v2_full text b B ltac:(intros ->; discriminate) E0 d) E) as (c & [_ (body & lo & hi & sig & Eb & Ls & Hl & _)] & _).
    rewrite bit0_siglen. set (sl := if N.testbit (nth 2 b 0%N) 0 then 13 else 0) in *. assert (L : 12 + sl <= length b) by (rewrite Eb; cbn [length]; rewrite !app_length; cbn [length]; lia).
    unfold slice, payload_v2. fold sl. clearbody sl. do 10 (destruct b as [|? b]; [cbn in L; lia|]). change (length (n :: n0 :: n1 :: n2 :: n3 :: n4 :: n5 :: n6 :: n7 :: n8 :: b)) with (10 + length b) in *.
    replace (10 + length b - S (S sl) - 6) with (4 + (length b - 2 - sl)) by lia. replace (10 + length b - 12 - sl) with (length b - 2 - sl) by lia. reflexivity.
Qed.
Print Assumptions c73_payload.

Theorem c73_errors : forall sha text sg b e, is_bytes b -> snd (decode_signed sha text sg b) = Err e ->
  (b = [] /\ e = IndexError) \/ (b <> [] /\ e = MAVError).
Proof.
  intros sha text sg b e B H. destruct (signed_cases sha text sg b B) as (_ & [(e' & E & Er & _)|(d & E & C)]).
  - rewrite H in Er. injection Er as <-. exact (decode_errors text b e B E).
  - right. split; [intros ->; discriminate|]. cbv zeta in C. destruct C as [(K & Er & _)|[(P & Er & _)|(K & P & Er & _)]]; try congruence.
    rewrite H in Er. destruct (match sg_allow sg with Some f => f (d_msgId d) | None => false end); congruence.
Qed.
Print Assumptions c73_errors.

(** So the stream parser can be used with a key (C69). *)
Theorem c73_stream : forall sha text, only_mav_errors (decode_signed sha text).
Proof. intros sha text sg f e B H E. destruct (c73_errors sha text sg f e B E) as [[H' _]|[_ ->]]; [contradiction|reflexivity]. Qed.
Print Assumptions c73_stream.

(** The state: what is recorded and counted.  A refused frame changes nothing; an unproven signature with an acceptable timestamp opens a
    stream all the same (see C74). *)
Theorem c73_state : forall sha text sg b, is_bytes b -> let sg' := fst (decode_signed sha text sg b) in
  same_settings sg sg' /\
  (forall e, decode text b = Err e -> sg' = sg) /\
  (forall d, decode text b = Ok d ->
    (sg_key sg = None -> sg_timestamp sg' = sg_timestamp sg /\ same_records sg sg') /\
    (proven sha sg b -> sg_timestamp sg' = Z.max (sg_timestamp sg) (stamp b) /\ records sg sg' b /\ counted sg sg' 1 0 1 0 0) /\
    (sg_key sg <> None -> ~ proven sha sg b -> sg_timestamp sg' = sg_timestamp sg /\
       (has_signature b -> counted sg sg' 1 1 0 (fst (asked sg (d_msgId d))) (snd (asked sg (d_msgId d)))) /\
       (has_signature b -> fresh sg b -> records sg sg' b) /\
       (has_signature b -> ~ fresh sg b -> same_records sg sg') /\
       (~ has_signature b -> same_records sg sg' /\ counted sg sg' 0 0 0 (fst (asked sg (d_msgId d))) (snd (asked sg (d_msgId d)))))).
Proof.
  intros sha text sg b B sg'. destruct (signed_cases sha text sg b B) as (S0 & C). split; [exact S0|]. split.
  - intros e E. destruct C as [(e' & E' & _ & H)|(d & E' & _)]; [exact H|congruence].
  - intros d E. destruct C as [(e' & E' & _)|(d' & E' & C)]; [congruence|]. rewrite E in E'. injection E' as <-. cbv zeta in C. fold sg' in C.
    destruct C as [(K & _ & T & R & _)|[(P & _ & T & R & Cn)|(K & P & _ & T & C)]].
    + split; [auto|]. split; [intros (k & Hk & _); congruence|]. intros H. contradiction.
    + split; [intros K; destruct P as (k & Hk & _); congruence|]. split; [auto|]. intros _ H. contradiction.
    + split; [intros H; contradiction|]. split; [intros H; contradiction|]. intros _ _. split; [exact T|].
      destruct C as [(Hs & Hf & R & Cn)|[(Hs & Hf & R & Cn)|(Hs & R & Cn)]]; tauto.
Qed.
Print Assumptions c73_state.

(** A parser that was given no key: it knows no stream, has proved or refused nothing, and has counted the frames with a signature that could be decoded. *)
Theorem c73_new : forall sha text bs, Forall is_bytes bs -> let sg := after_frames sha text signing_new bs in
  sg_key sg = None /\ sg_timestamp sg = 0%Z /\ sg_link sg = 0%Z /\ sg_outgoing sg = false /\ sg_allow sg = None /\ (forall s, recorded sg s = None) /\
  sg_sig sg = List.length (filter (fun b => match decode text b with Ok _ => (negb (nth 0 b 0 =? 254) && N.testbit (nth 2 b 0) 0)%N | Err _ => false end) bs) /\
  sg_badsig sg = 0 /\ sg_goodsig sg = 0 /\ sg_unsigned sg = 0 /\ sg_reject sg = 0.
Proof.
  intros sha text bs. cbv zeta.
  assert (G : forall sg, sg_key sg = None -> Forall is_bytes bs -> same_settings sg (after_frames sha text sg bs) /\ sg_timestamp (after_frames sha text sg bs) = sg_timestamp sg /\
    same_records sg (after_frames sha text sg bs) /\
    counted sg (after_frames sha text sg bs) (length (filter (fun b => match decode text b with Ok _ => (negb (nth 0 b 0 =? 254) && N.testbit (nth 2 b 0) 0)%N | Err _ => false end) bs)) 0 0 0 0).
  { induction bs as [|b bs IH]; intros sg K B; [cbn; unfold same_settings, same_records, counted; rewrite !Nat.add_0_r; repeat split|].
    inversion B as [|? ? B1 B2]; subst. cbn [after_frames fold_left]. fold (after_frames sha text (fst (decode_signed sha text sg b)) bs).
    destruct (signed_cases sha text sg b B1) as (S0 & C). cbv zeta in C. set (sg' := fst (decode_signed sha text sg b)) in *.
    assert (K' : sg_key sg' = None) by (destruct S0; congruence).
    assert (T : sg_timestamp sg' = sg_timestamp sg /\ same_records sg sg' /\
      counted sg sg' (if match decode text b with Ok _ => (negb (nth 0 b 0 =? 254) && N.testbit (nth 2 b 0) 0)%N | Err _ => false end then 1 else 0) 0 0 0 0).
    { destruct C as [(e & E & _ & ->)|(d & E & [(_ & _ & T & R & C)|[(P & _)|(P & _)]])].
      - rewrite E. unfold same_records, counted. rewrite !Nat.add_0_r. repeat split.
      - rewrite E. split; [exact T|]. split; [exact R|]. unfold has_signature in C. destruct (N.eqb_spec (nth 0 b 0%N) 254), (N.testbit (nth 2 b 0%N) 0); cbn [negb andb]; destruct C as [[[C1 C2] C]|[C1 C]]; try contradiction; try discriminate; try exact C; exfalso; apply C1; auto.
      - destruct P as (k & Hk & _). congruence.
      - contradiction. }
    destruct T as (T & R & C1). destruct (IH sg' K' B2) as (S1 & T1 & R1 & C2).
    split; [unfold same_settings in *; intuition congruence|]. split; [congruence|]. split; [intros s; rewrite (R1 s); apply R|].
    unfold counted in *. cbn [filter]. destruct (match decode text b with Ok _ => _ | Err _ => _ end); cbn [List.length]; lia. }
  intros B. destruct (G signing_new eq_refl B) as ((S1 & S2 & S3 & S4) & T & R & C1 & C2 & C3 & C4 & C5).
  do 5 (split; [assumption|]). split; [exact R|]. auto.
Qed.
Print Assumptions c73_new.

(** A heartbeat in a signed version 2 frame: 13 bytes of frame, then link id 9, the timestamp, six bytes of hash. *)
Definition v2_frame (time : N) (hash : bytes) : bytes :=
  ([253; 1; 1; 0; 7; 1; 1; 0; 0; 0; 42; 191; 66; 9]%N ++ le_bytes 6 time) ++ hash.
Definition signed_frame (sha : bytes -> bytes) (key : bytes) (time : N) : bytes := v2_frame time (firstn 6 (sha (key ++ v2_frame time []))).
Definition keyed (key : bytes) : signing := Signing (Some key) 0 0 false None [] 0 0 0 0 0.
Definition sum_hash (b : bytes) : bytes := repeat (N.modulo (fold_left N.add b 0%N) 256) 32.
Example c73_ex : let sg := keyed [1; 2; 3]%N in let f := signed_frame sum_hash [1; 2; 3]%N 5 in
  length f = 26 /\ stream_of f = (9, 1, 1)%N /\ stamp f = 5%Z /\ proven sum_hash sg f /\
  (exists r, snd (decode_signed sum_hash text0 sg f) = Ok r /\ v_signed r = true /\ v_link r = Some 9%N) /\
  snd (decode_signed sum_hash text0 sg (set_nth f 14 6%N)) = Err MAVError /\ snd (decode_signed sum_hash text0 sg hb) = Err MAVError.
Proof.
  cbv zeta. split; [reflexivity|]. split; [vm_compute; reflexivity|]. split; [vm_compute; reflexivity|]. split.
  { exists [1; 2; 3]%N. split; [reflexivity|]. split; [split; [discriminate|reflexivity]|]. split; [vm_compute; discriminate|vm_compute; reflexivity]. }
  split; [|split; vm_compute; reflexivity]. eexists. split; [vm_compute; reflexivity|]. split; reflexivity.
Qed.

(** C74.  Replay.  The timestamp of a stream is recorded once, with its first frame, and kept for ever. *)
Theorem c74_kept : forall sha text bs sg s t, Forall is_bytes bs -> recorded sg s = Some t -> recorded (after_frames sha text sg bs) s = Some t.
Proof. intros. apply frames_records; assumption. Qed.
Print Assumptions c74_kept.

(** The frame that opened a stream is never accepted as signed again, whatever follows. *)
Theorem c74_first : forall sha text sg b bs, is_bytes b -> Forall is_bytes bs -> proven sha sg b -> recorded sg (stream_of b) = None ->
  (exists d, decode text b = Ok d) -> ~ proven sha (after_frames sha text sg (b :: bs)) b.
Proof.
  intros sha text sg b bs B Bs P R (d & E) (k & _ & _ & F & _). unfold fresh in F.
  destruct (c73_state sha text sg b B) as (_ & _ & H). destruct (H d E) as (_ & H2 & _). destruct (H2 P) as (_ & Rc & _).
  specialize (Rc (stream_of b)). rewrite R, (proj2 (stream_eqb_eq _ _) eq_refl) in Rc.
  unfold after_frames in F. cbn [fold_left] in F. fold (after_frames sha text (fst (decode_signed sha text sg b)) bs) in F.
  rewrite (frames_records sha text bs _ _ _ Bs Rc) in F. lia.
Qed.
Print Assumptions c74_first.

(** But every later frame of a stream can be replayed: at any time, after any frames, it is accepted as signed again. *)
Theorem c74_replay : forall sha text sg b bs, is_bytes b -> Forall is_bytes bs -> proven sha sg b -> recorded sg (stream_of b) <> None ->
  proven sha (after_frames sha text sg bs) b /\
  forall d, decode text b = Ok d -> exists r, snd (decode_signed sha text (after_frames sha text sg bs) b) = Ok r /\ v_msg r = d /\ v_signed r = true.
Proof.
  intros sha text sg b bs B Bs (k & K & Hs & F & A) R.
  assert (P : proven sha (after_frames sha text sg bs) b).
  { exists k. destruct (frames_settings sha text bs sg Bs) as (Ek & _). rewrite Ek. split; [exact K|]. split; [exact Hs|]. split; [|exact A].
    unfold fresh in *. destruct (recorded sg (stream_of b)) as [t|] eqn:Er; [|contradiction].
    rewrite (frames_records sha text bs _ _ _ Bs Er). exact F. }
  split; [exact P|]. intros d E.
  destruct (proj2 (c73_accept sha text (after_frames sha text sg bs) b B)) as (r & Hr); [exists d; auto|].
  exists r. split; [exact Hr|]. destruct (c73_result _ _ _ _ _ B Hr) as (E' & Hp & _). split; [congruence|]. tauto.
Qed.
Print Assumptions c74_replay.

(** Whatever the hash function: the second frame of a stream is accepted twice. *)
Theorem c74_replay_refuted : forall sha, (forall x, length (sha x) = 32 /\ is_bytes (sha x)) -> exists sg f1 f2,
  is_bytes f1 /\ is_bytes f2 /\
  (exists r, snd (decode_signed sha text0 sg f1) = Ok r /\ v_signed r = true) /\
  (exists r, snd (decode_signed sha text0 (after_frames sha text0 sg [f1]) f2) = Ok r /\ v_signed r = true) /\
  (exists r, snd (decode_signed sha text0 (after_frames sha text0 sg [f1; f2]) f2) = Ok r /\ v_signed r = true).
Proof.
  intros sha Hs. pose (key := [1; 2; 3]%N). exists (keyed key), (signed_frame sha key 5), (signed_frame sha key 6).
  assert (Hh : forall x, exists a b c d e f, firstn 6 (sha x) = [a; b; c; d; e; f] /\ is_bytes [a; b; c; d; e; f]).
  { intros x. destruct (Hs x) as [Hl Hb]. destruct (sha x) as [|a [|b [|c [|d [|e [|f t]]]]]]; cbn in Hl; try lia.
    exists a, b, c, d, e, f. split; [reflexivity|]. change [a; b; c; d; e; f] with (firstn 6 (a :: b :: c :: d :: e :: f :: t)). apply is_bytes_firstn. exact Hb. }
  assert (Hb : forall t, In t [5; 6]%N -> is_bytes (signed_frame sha key t)).
  { intros t Ht. unfold signed_frame. destruct (Hh (key ++ v2_frame t [])) as (a & b & c & d & e & f & -> & Hb).
    unfold v2_frame. apply is_bytes_app. split; [|exact Hb]. destruct Ht as [<-|[<-|[]]]; vm_compute; repeat constructor. }
  assert (Hd : forall t, In t [5; 6]%N -> exists d, decode text0 (signed_frame sha key t) = Ok d).
  { intros t Ht. unfold signed_frame. destruct (Hh (key ++ v2_frame t [])) as (a & b & c & d & e & f & -> & _).
    destruct Ht as [<-|[<-|[]]]; eexists; vm_compute; reflexivity. }
  assert (Ha : forall t, In t [5; 6]%N -> has_signature (signed_frame sha key t) /\ authentic sha key (signed_frame sha key t) /\
                stamp (signed_frame sha key t) = Z.of_N t /\ stream_of (signed_frame sha key t) = (9, 1, 1)%N).
  { intros t Ht. unfold authentic, signed_frame. destruct (Hh (key ++ v2_frame t [])) as (a & b & c & d & e & f & Eh & _). rewrite Eh.
    destruct Ht as [<-|[<-|[]]].
    - split; [split; [discriminate|reflexivity]|]. split; [|split; [vm_compute; reflexivity|vm_compute; reflexivity]].
      change (firstn _ (v2_frame 5 [a; b; c; d; e; f])) with (v2_frame 5 []). rewrite Eh. vm_compute. reflexivity.
    - split; [split; [discriminate|reflexivity]|]. split; [|split; [vm_compute; reflexivity|vm_compute; reflexivity]].
      change (firstn _ (v2_frame 6 [a; b; c; d; e; f])) with (v2_frame 6 []). rewrite Eh. vm_compute. reflexivity. }
  destruct (Ha 5%N) as (S5 & A5 & T5 & K5); [left; reflexivity|]. destruct (Ha 6%N) as (S6 & A6 & T6 & K6); [right; left; reflexivity|].
  pose proof (Hb 5%N ltac:(left; reflexivity)) as B5. pose proof (Hb 6%N ltac:(right; left; reflexivity)) as B6.
  destruct (Hd 5%N) as (d5 & D5); [left; reflexivity|]. destruct (Hd 6%N) as (d6 & D6); [right; left; reflexivity|].
  set (f5 := signed_frame sha key 5) in *. set (f6 := signed_frame sha key 6) in *. clearbody f5 f6.
  assert (P5 : proven sha (keyed key) f5).
  { exists key. split; [reflexivity|]. split; [exact S5|]. split; [|exact A5]. unfold fresh. cbn [recorded keyed sg_streams dict_get]. rewrite T5. cbn. lia. }
  destruct (c73_state sha text0 (keyed key) f5 B5) as (St & _ & H). destruct (H d5 D5) as (_ & H2 & _). destruct (H2 P5) as (_ & Rc & _).
  assert (R6 : recorded (after_frames sha text0 (keyed key) [f5]) (stream_of f6) = Some 5%Z).
  { cbn [after_frames fold_left]. rewrite (Rc (stream_of f6)). rewrite K6, K5, T5. reflexivity. }
  assert (P6 : proven sha (after_frames sha text0 (keyed key) [f5]) f6).
  { exists key. split; [apply St|]. split; [exact S6|]. split; [|exact A6]. unfold fresh. rewrite R6, T6. lia. }
  assert (Acc : forall sg f d, is_bytes f -> decode text0 f = Ok d -> proven sha sg f -> exists r, snd (decode_signed sha text0 sg f) = Ok r /\ v_signed r = true).
  { intros sg f d B E P. destruct (proj2 (c73_accept sha text0 sg f B)) as (r & Hr); [exists d; auto|].
    exists r. split; [exact Hr|]. apply (c73_result _ _ _ _ _ B Hr). exact P. }
  split; [exact B5|]. split; [exact B6|]. split; [eapply Acc; eassumption|]. split; [eapply Acc; eassumption|].
  destruct (c74_replay sha text0 (after_frames sha text0 (keyed key) [f5]) f6 [f6] B6) as (P6' & _); [constructor; [exact B6|constructor]|exact P6|congruence|].
  eapply Acc; eassumption.
Qed.
Print Assumptions c74_replay_refuted.

(** A forged frame - any hash, no knowledge of the key - blocks a stream that has not been seen: afterwards no frame of the stream with a
    timestamp up to the forged one is accepted as signed; with the largest timestamp none at all. *)
Theorem c74_forged : forall sha text sg b bs f, is_bytes b -> Forall is_bytes bs -> is_bytes f -> sg_key sg <> None ->
  (exists d, decode text b = Ok d) -> has_signature b -> fresh sg b -> recorded sg (stream_of b) = None ->
  stream_of f = stream_of b -> (stamp f <= stamp b)%Z -> ~ proven sha (after_frames sha text sg (b :: bs)) f.
Proof.
  intros sha text sg b bs f B Bs Bf K (d & E) Hs Hf R Ef Le (k & _ & _ & F & _). unfold fresh in F.
  destruct (c73_state sha text sg b B) as (_ & _ & H). destruct (H d E) as (_ & H2 & H3).
  assert (Rc : records sg (fst (decode_signed sha text sg b)) b).
  { destruct (signed_cases sha text sg b B) as (_ & [(e' & E' & _)|(d' & _ & C)]); [congruence|]. cbv zeta in C.
    destruct C as [(K' & _)|[(P & _)|(_ & P & _)]]; [congruence| |].
    - apply (H2 P).
    - apply (H3 K P); assumption. }
  specialize (Rc (stream_of b)). rewrite R, (proj2 (stream_eqb_eq _ _) eq_refl) in Rc.
  unfold after_frames in F. cbn [fold_left] in F. fold (after_frames sha text (fst (decode_signed sha text sg b)) bs) in F.
  rewrite Ef, (frames_records sha text bs _ _ _ Bs Rc) in F. lia.
Qed.
Print Assumptions c74_forged.

Theorem c74_blocked : forall sha text sg b bs f, is_bytes b -> Forall is_bytes bs -> is_bytes f -> sg_key sg <> None ->
  (exists d, decode text b = Ok d) -> has_signature b -> (sg_timestamp sg <= 2 ^ 48)%Z -> recorded sg (stream_of b) = None ->
  stamp b = (2 ^ 48 - 1)%Z -> stream_of f = stream_of b -> ~ proven sha (after_frames sha text sg (b :: bs)) f.
Proof.
  intros sha text sg b bs f B Bs Bf K E Hs Ht R Eb Ef. apply c74_forged; auto.
  - unfold fresh. rewrite R, Eb. lia.
  - pose proof (stamp_bound sha text f Bf). lia.
Qed.
Print Assumptions c74_blocked.

(** A forged frame (hash 0 0 0 0 0 0) and the genuine frame it blocks. *)
Example c74_ex : let b := v2_frame 281474976710655 [0; 0; 0; 0; 0; 0]%N in let f := signed_frame sum_hash [1; 2; 3]%N 5 in
  (exists d, decode text0 b = Ok d) /\ has_signature b /\ stamp b = (2 ^ 48 - 1)%Z /\ stream_of f = stream_of b /\
  snd (decode_signed sum_hash text0 (keyed [1; 2; 3]%N) b) = Err MAVError /\
  (exists r, snd (decode_signed sum_hash text0 (keyed [1; 2; 3]%N) f) = Ok r) /\
  snd (decode_signed sum_hash text0 (after_frames sum_hash text0 (keyed [1; 2; 3]%N) [b]) f) = Err MAVError.
Proof.
  cbv zeta. split; [eexists; vm_compute; reflexivity|]. split; [split; [discriminate|reflexivity]|]. split; [vm_compute; reflexivity|].
  split; [vm_compute; reflexivity|]. split; [vm_compute; reflexivity|]. split; [eexists; vm_compute; reflexivity|vm_compute; reflexivity].
Qed.

(** C75.  Sending.  Without sign_outgoing, or with force_mavlink1, pack is the pack of C09. *)
Theorem c75_unsigned : forall sha sg m seq sys comp force, sg_outgoing sg = false \/ force = true ->
  pack_signed sha sg m seq sys comp force = (sg, message_pack m seq sys comp).
Proof.
  intros sha sg m seq sys comp force H. unfold pack_signed. destruct (message_pack m seq sys comp); [|reflexivity].
  replace (sg_outgoing sg && negb force)%bool with false; [reflexivity|]. destruct H as [-> | ->]; [reflexivity|]. cbn. destruct (sg_outgoing sg); reflexivity.
Qed.
Print Assumptions c75_unsigned.

(** With sign_outgoing every message is a version 1 frame followed by 13 bytes of signature.  It raises an exception without a key, and for a
    link id or a timestamp that does not fit. *)
Theorem c75_signed : forall sha sg x f, legit x -> sg_outgoing sg = true ->
  message_pack (Msg (s_class x) (s_fields x)) (s_seq x) (s_sys x) (s_comp x) = Ok f ->
  let '(sg', r) := pack_signed sha sg (Msg (s_class x) (s_fields x)) (s_seq x) (s_sys x) (s_comp x) false in
  (forall b, r = Ok b <-> exists key, sg_key sg = Some key /\ (0 <= sg_link sg < 256)%Z /\ (0 <= sg_timestamp sg < 2 ^ 64)%Z /\
     let head := f ++ [Z.to_N (sg_link sg)] ++ le_bytes 6 (Z.to_N (sg_timestamp sg)) in b = head ++ firstn 6 (sha (key ++ head))) /\
  (forall e, r = Err e -> sg' = sg /\ (e = StructError \/ e = TypeError)) /\
  (forall b, r = Ok b -> same_settings sg sg' /\ same_records sg sg' /\ counted sg sg' 0 0 0 0 0 /\ sg_timestamp sg' = (sg_timestamp sg + 1)%Z).
Proof.
  intros sha sg x f Hx Ho E. unfold pack_signed. rewrite E, Ho. cbn [andb negb]. unfold sign_packet. rewrite pack_bq.
  destruct ((0 <=? sg_link sg) && (sg_link sg <? 2 ^ 8) && (0 <=? sg_timestamp sg) && (sg_timestamp sg <? 2 ^ 64))%Z%bool eqn:Er.
  - assert (R : (0 <= sg_link sg < 256)%Z /\ (0 <= sg_timestamp sg < 2 ^ 64)%Z) by lia.
    change (firstn 7 (Z.to_N (sg_link sg) :: le_bytes 8 (Z.to_N (sg_timestamp sg))))
      with ([Z.to_N (sg_link sg)] ++ firstn 6 (le_bytes 8 (Z.to_N (sg_timestamp sg)))). rewrite (le_bytes_prefix 6 8) by lia.
    destruct (sg_key sg) as [key|] eqn:Ek.
    + split; [|split].
      * intros b. split; [intros [= <-]; exists key; tauto|]. intros (k & [= <-] & _ & _ & ->). reflexivity.
      * discriminate.
      * intros b _. unfold same_settings, same_records, counted, recorded. cbn. rewrite ?Nat.add_0_r. auto 10.
    + split; [|split; [intros e [= <-]; auto|discriminate]]. intros b. split; [discriminate|]. intros (k & H & _). discriminate.
  - split; [|split; [intros e [= <-]; auto|discriminate]]. intros b. split; [discriminate|]. intros (k & _ & H). lia.
Qed.
Print Assumptions c75_signed.

(** Nobody accepts it: decode, with or without a key and a callback, refuses every message signed in this way. *)
Theorem c75_rejected : forall sha text sg sg' b x, legit x -> sg_outgoing sg = true -> (forall y, is_bytes (sha y)) ->
  pack_signed sha sg (Msg (s_class x) (s_fields x)) (s_seq x) (s_sys x) (s_comp x) false = (sg', Ok b) ->
  is_bytes b /\ decode text b = Err MAVError /\ forall receiver, decode_signed sha text receiver b = (receiver, Err MAVError).
Proof.
  intros sha text sg sg' b x Hx Ho Hs E. destruct Hx as (H1 & H2 & H3 & H4 & H5) eqn:Ex. clear Ex.
  destruct (c09_pack_decode text _ _ _ _ _ H1 H2 H3 H4 H5) as (f & d & Ef & Bf & Lf & F & _).
  pose proof (c75_signed sha sg x f Hx Ho Ef) as H. rewrite E in H. destruct H as (H & _). destruct (proj1 (H b) eq_refl) as (key & _ & Rl & Rt & Eb).
  cbv zeta in Eb. rewrite <- !app_assoc in Eb.
  assert (B : is_bytes b).
  { rewrite Eb. apply is_bytes_app. split; [exact Bf|]. constructor; [lia|]. apply is_bytes_app. split; [apply le_bytes_is_bytes|]. apply is_bytes_firstn. apply Hs. }
  split; [exact B|]. assert (Ed : decode text b = Err MAVError).
  { rewrite Eb. rewrite Eb in B. apply (frame_longer text _ _ _ F B). discriminate. }
  split; [exact Ed|]. intros r. destruct (signed_cases sha text r b B) as (_ & [(e & E1 & E2 & E3)|(d' & E1 & _)]); [|congruence].
  rewrite Ed in E1. injection E1 as <-. destruct (decode_signed sha text r b) as [r1 r2]. cbn in E2, E3. congruence.
Qed.
Print Assumptions c75_rejected.

(** Only the stream parser gets the message out, by treating the signature as the bytes that follow. *)
Theorem c75_stream : forall sha text sg sg' b x blocks more, legit x -> sg_outgoing sg = true -> (forall y, is_bytes (sha y)) ->
  pack_signed sha sg (Msg (s_class x) (s_fields x)) (s_seq x) (s_sys x) (s_comp x) false = (sg', Ok b) ->
  is_bytes more -> concat blocks = b ++ more ->
  exists p m items, feed_blocks (plain_decode text) (parser_new true tt) blocks = (p, Ok (Message m :: items)) /\ sent_as text x m.
Proof.
  intros sha text sg sg' b x blocks more Hx Ho Hs E Bm Eb'. destruct (c75_rejected sha text sg sg' b x Hx Ho Hs E) as (B & _).
  pose proof Hx as (H1 & H2 & H3 & H4 & H5).
  destruct (c09_pack_decode text _ _ _ _ _ H1 H2 H3 H4 H5) as (f & d & Ef & Bf & Lf & F & _).
  pose proof (c75_signed sha sg x f Hx Ho Ef) as H. rewrite E in H. destruct H as (H & _). destruct (proj1 (H b) eq_refl) as (key & _ & _ & _ & Eb).
  cbv zeta in Eb. rewrite <- !app_assoc in Eb. destruct (packed_whole text x f Hx Ef) as (W & _ & H0 & d' & Ed & Se).
  set (s := _ ++ _) in Eb at 2. destruct (cut_total (s ++ more)) as (l & r & C).
  assert (C' : cut (concat blocks) (Frame f :: l) r). { rewrite Eb', Eb, <- app_assoc. constructor; assumption. }
  assert (Bb : is_bytes (concat blocks)) by (rewrite Eb'; apply is_bytes_app; auto).
  destruct (c69_blocks _ _ (plain_decode text) tt blocks _ _ (plain_mav text) Bb C') as (p & Ep & _). exists p, d'.
  cbn [tolerant] in Ep. unfold outcome in Ep. rewrite H0 in Ep. replace (254 =? 253)%N with false in Ep by reflexivity. cbn [andb] in Ep.
  unfold plain_decode at 2 in Ep. rewrite Ed in Ep. destruct (tolerant (plain_decode text) tt l) as [d2 rs]. exists rs. split; [exact Ep|exact Se].
Qed.
Print Assumptions c75_stream.

(** And that costs messages: a signature with the byte 254 or 253 is taken for the start of a frame.  Here, whatever the hash function, the
    message sent after a signed one is lost. *)
Theorem c75_swallowed_refuted : forall sha, (forall y, length (sha y) = 32 /\ is_bytes (sha y)) -> exists sg x f b sg',
  legit x /\ sg_outgoing sg = true /\ pack_signed sha sg (Msg (s_class x) (s_fields x)) (s_seq x) (s_sys x) (s_comp x) false = (sg', Ok b) /\
  message_pack (Msg (s_class x) (s_fields x)) (s_seq x) (s_sys x) (s_comp x) = Ok f /\
  exists p m bad, feed_blocks (plain_decode text0) (parser_new true tt) [b; f] = (p, Ok [Message m; BadData bad]) /\ pending p = [].
Proof.
  intros sha Hs. pose (sg := Signing (Some [1; 2; 3]%N) 12884901910 254 true None [] 0 0 0 0 0). exists sg, (Sending (class_of 0) hb_fields 17 1 1), hb.
  assert (Hx : legit (Sending (class_of 0) hb_fields 17 1 1)). { destruct c09_ex_fits as [H1 H2]. repeat split; cbn; try exact H1; try apply H2; lia. }
  pose (head := hb ++ [254%N] ++ le_bytes 6 12884901910). exists (head ++ firstn 6 (sha ([1; 2; 3]%N ++ head))).
  pose proof (c75_signed sha sg _ hb Hx eq_refl c09_ex_pack) as H. cbn [s_class s_fields s_seq s_sys s_comp] in *.
  destruct (pack_signed sha sg (Msg (class_of 0) hb_fields) 17 1 1 false) as [sg' r] eqn:Ep. destruct H as (H & _). exists sg'. split; [exact Hx|]. split; [reflexivity|]. split; [|split; [exact c09_ex_pack|]].
  { f_equal. apply H. exists [1; 2; 3]%N. split; [reflexivity|]. split; [cbn; lia|]. split; [cbn; lia|]. reflexivity. }
  clear H Ep. destruct (Hs ([1; 2; 3]%N ++ head)) as [Hl _]. destruct (sha ([1; 2; 3]%N ++ head)) as [|h1 [|h2 [|h3 [|h4 [|h5 [|h6 t]]]]]]; cbn in Hl; try lia.
  cbn [firstn]. eexists. eexists. eexists. split; [|].
  - vm_compute. reflexivity.
  - reflexivity.
Qed.
Print Assumptions c75_swallowed_refuted.

Example c75_ex : let sg := Signing (Some [1; 2; 3]%N) 7 5 true None [] 0 0 0 0 0 in
  pack_signed sum_hash sg (Msg (class_of 0) hb_fields) 17 1 1 false =
    (Signing (Some [1; 2; 3]%N) 8 5 true None [] 0 0 0 0 0, Ok (hb ++ [5; 7; 0; 0; 0; 0; 0; 114; 114; 114; 114; 114; 114]%N)).
Proof. vm_compute. reflexivity. Qed.
Example c73_ex_new : let sg := after_frames sum_hash text0 signing_new [hb; signed_frame sum_hash [1; 2; 3]%N 5] in sg_sig sg = 1 /\ sg_badsig sg = 0 /\ recorded sg (9, 1, 1)%N = None.
Proof. repeat split; vm_compute; reflexivity. Qed.
