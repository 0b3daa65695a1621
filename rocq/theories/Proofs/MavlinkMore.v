(** Corollaries about decode in the form of the properties. *)
From Coq Require Import String Ascii List Arith NArith ZArith Bool Lia ZifyBool ZifyNat ZifyN.
From Verif.Model Require Import Py Dialect ProtocolMeta Struct Crc Mavlink.
From Verif.Spec Require Import Bytes Bits Header CrcSpec Frame.
From Verif.Proofs Require Import Base BitOpsP DialectP HeaderP HeaderMore StructP CrcP MavlinkP FieldsP PackP ErrP.
Import ListNotations.

Lemma x25_incremental a b : x25_accumulate (x25crc a) b = x25crc (a ++ b).
Proof. symmetry. apply x25_app. Qed.

Lemma x25_affine a b c : length a = length b -> length b = length c ->
  x25crc (xor_bytes (xor_bytes a b) c) = N.lxor (N.lxor (x25crc a) (x25crc b)) (x25crc c).
Proof.
  intros L1 L2. unfold x25crc.
  rewrite <- x25_lin by auto. rewrite <- x25_lin by (rewrite length_xor_bytes; lia). reflexivity.
Qed.

Lemma x25crc_bound l : is_bytes l -> (x25crc l < 65536)%N.
Proof. intros. apply x25_bound; auto. lia. Qed.

Lemma decode_v1_iff ts b : is_bytes b -> nth 0 b 0%N = 254%N -> forall d,
  decode ts b = Ok d <->
  exists c, frame_v1 c b /\ d_class d = c /\ d_msgId d = nth 5 b 0%N /\ d_mlen d = nth 1 b 0%N /\ d_seq d = nth 2 b 0%N /\
    d_sys d = nth 3 b 0%N /\ d_comp d = nth 4 b 0%N /\ d_incompat d = 0%N /\ d_compat d = 0%N /\
    d_crc d = le_number (skipn (length b - 2) b) /\
    d_fields d = map (f_value ts c (payload b)) (seq 0 (f_count c)).
Proof.
  intros B M d. destruct (decode_v1 ts b B M) as [(c & F & D)|(F & D)]; rewrite D.
  - rewrite decoded_fields_spec; [|apply F|apply is_bytes_firstn, is_bytes_skipn; auto]. rewrite <- le_number_val.
    split.
    + intros E. injection E as <-. exists c. repeat (split; auto).
    + intros (c' & F' & E). assert (c' = c) by (eapply is_msg_fun; [apply F'|apply F]). subst c'.
      destruct d as [x1 x2 x3 x4 x5 x6 x7 x8 x9 x10]. cbn [d_class d_msgId d_mlen d_seq d_sys d_comp d_incompat d_compat d_crc d_fields] in E.
      decompose [and] E. subst. reflexivity.
  - split; [discriminate|]. intros (c & F' & _). exfalso. eapply F; eauto.
Qed.

Lemma decode_v2_iff ts b : is_bytes b -> b <> [] -> nth 0 b 0%N <> 254%N ->
  (exists d, decode ts b = Ok d) <-> (exists c, frame_v2 c b).
Proof.
  intros B NE M. destruct (decode_not_v1 ts b B NE M) as [(c & d & F & D & _)|(F & D)]; rewrite D.
  - split; eauto.
  - split; [intros (d & X); discriminate|]. intros (c & F'). exfalso. eapply F; eauto.
Qed.

Lemma bit0_siglen x : (if N.eqb (N.land x 1) 0 then 0 else 13) = if N.testbit x 0 then 13 else 0.
Proof. change 1%N with (N.ones 1). rewrite N.land_ones. change (2 ^ 1)%N with 2%N. rewrite <- N.bit0_mod. destruct (N.testbit x 0); reflexivity. Qed.
Lemma decode_v2_full ts b : is_bytes b -> b <> [] -> nth 0 b 0%N <> 254%N -> forall d,
  decode ts b = Ok d <->
  exists c, frame_v2 c b /\ d_class d = c /\ d_msgId d = (nth 7 b 0 + 256 * nth 8 b 0 + 65536 * nth 9 b 0)%N /\ d_mlen d = nth 1 b 0%N /\
    d_seq d = nth 4 b 0%N /\ d_sys d = nth 5 b 0%N /\ d_comp d = nth 6 b 0%N /\ d_incompat d = nth 2 b 0%N /\ d_compat d = nth 3 b 0%N /\
    d_crc d = le_number (firstn 2 (skipn (10 + length (payload_v2 b)) b)) /\
    d_fields d = map (f_value ts c (payload_v2 b)) (seq 0 (f_count c)).
Proof.
  intros B NE M d. set (sl := if N.testbit (nth 2 b 0%N) 0 then 13 else 0).
  assert (G : forall c, frame_v2 c b -> 12 + sl <= length b /\ 10 + length (payload_v2 b) = length b - (2 + sl)).
  { intros c [_ (body & lo & hi & sig & E & Ls & Hl & _)]. fold sl in Ls. assert (L : 12 + sl <= length b) by (rewrite E; cbn [length]; rewrite !app_length; cbn [length]; lia).
    split; [exact L|]. unfold payload_v2. fold sl. rewrite firstn_length, skipn_length. lia. }
  destruct (decode_not_v1 ts b B NE M) as [(c & d' & F & D & _ & _ & _ & _ & Ec)|(F & D)].
  - destruct (G c F) as [GL GP]. assert (E : d' = Decoded (nth 7 b 0 + 256 * nth 8 b 0 + 65536 * nth 9 b 0)%N (nth 1 b 0%N) (nth 4 b 0%N) (nth 5 b 0%N) (nth 6 b 0%N) (nth 2 b 0%N) (nth 3 b 0%N)
        (le_number (firstn 2 (skipn (10 + length (payload_v2 b)) b))) c (map (f_value ts c (payload_v2 b)) (seq 0 (f_count c)))).
    { destruct b as [|b0 b]; [congruence|]. unfold decode in D. cbn [nth] in M. change stx with 254%N in D. rewrite (proj2 (N.eqb_neq b0 254) M) in D. cbv iota zeta in D.
      destruct (Nat.ltb_spec (length (b0 :: b)) 10) as [L|L]; [discriminate|]. rewrite bit0_siglen in D. fold sl in D.
      destruct (decode_body_spec ts (b0 :: b) 10 sl b0 (nth 1 (b0 :: b) 0%N) (nth 2 (b0 :: b) 0%N) (nth 3 (b0 :: b) 0%N)
       (nth 4 (b0 :: b) 0%N) (nth 5 (b0 :: b) 0%N) (nth 6 (b0 :: b) 0%N)
       (nth 7 (b0 :: b) 0 + 256 * nth 8 (b0 :: b) 0 + 65536 * nth 9 (b0 :: b) 0)%N) as [(c' & A & D')|(A & D')]; [|congruence].
      rewrite D in D'. apply (f_equal (fun r => match r with Ok x => x | Err _ => d' end)) in D'. cbv beta iota in D'. rewrite D' in Ec |- *. cbn [d_class] in Ec. subst c'.
      rewrite GP. rewrite <- (le_number_val (firstn 2 (skipn (length (b0 :: b) - (2 + sl)) (b0 :: b)))). f_equal. unfold payload_v2. fold sl. unfold slice.
      replace (length (b0 :: b) - (2 + sl) - 10) with (length (b0 :: b) - 12 - sl) by lia.
      apply decoded_fields_spec; [apply F|apply is_bytes_firstn, is_bytes_skipn; auto]. }
    rewrite D. split.
    + intros X. injection X as <-. exists c. rewrite E. cbn [d_class d_msgId d_mlen d_seq d_sys d_comp d_incompat d_compat d_crc d_fields]. auto 15.
    + intros (c' & F' & X). assert (c' = c) by (eapply is_msg_fun; [apply F'|apply F]). subst c'. f_equal. rewrite E.
      destruct d as [x1 x2 x3 x4 x5 x6 x7 x8 x9 x10]. cbn [d_class d_msgId d_mlen d_seq d_sys d_comp d_incompat d_compat d_crc d_fields] in X. decompose [and] X. subst. reflexivity.
  - rewrite D. split; [discriminate|]. intros (c & F' & _). destruct (F c F').
Qed.

Lemma decode_errors ts b e : is_bytes b -> decode ts b = Err e ->
  (b = [] /\ e = IndexError) \/ (b <> [] /\ e = MAVError).
Proof.
  intros B E. destruct b as [|b0 b]; [left; split; auto; cbv in E; congruence|]. right. split; [discriminate|].
  destruct (N.eq_dec b0 254) as [->|N].
  - destruct (decode_v1 ts (254%N :: b) B eq_refl) as [(c & _ & D)|(_ & D)]; congruence.
  - destruct (decode_not_v1 ts (b0 :: b) B ltac:(discriminate) N) as [(c & d & _ & D & _)|(_ & D)]; congruence.
Qed.

(** Rejection in terms of decode. *)
Lemma reject_decode ts f g c : is_bytes g -> frame_v1 c f -> nth 0 f 0%N = nth 0 g 0%N -> (forall c', ~ frame_v1 c' g) ->
  decode ts g = Err MAVError.
Proof.
  intros B F H0 R. assert (M : nth 0 g 0%N = 254%N).
  { rewrite <- H0. destruct F as [_ (? & ? & ? & ? & E & _)]. rewrite E. reflexivity. }
  destruct (decode_v1 ts g B M) as [(c' & F' & _)|(_ & D)]; auto. exfalso. eapply R; eauto.
Qed.

Lemma decode_reject_odd ts f g c : is_bytes f -> is_bytes g -> length f = length g -> frame_v1 c f ->
  nth 0 f 0%N = nth 0 g 0%N -> nth 5 f 0%N = nth 5 g 0%N ->
  Nat.odd (length (flips f g)) = true -> decode ts g = Err MAVError.
Proof.
  intros Bf Bg L F H0 H5 O. apply (reject_decode ts f g c Bg F H0). intros c'. apply (reject_odd f g c Bf Bg L F H0 H5 c' O).
Qed.

Lemma decode_reject_two ts f g c : is_bytes f -> is_bytes g -> length f = length g -> frame_v1 c f ->
  nth 0 f 0%N = nth 0 g 0%N -> nth 5 f 0%N = nth 5 g 0%N ->
  length (flips f g) = 2 -> decode ts g = Err MAVError.
Proof.
  intros Bf Bg L F H0 H5 O. destruct (two _ O) as (p & q & E). apply (reject_decode ts f g c Bg F H0).
  intros c'. apply (reject_two f g c Bf Bg L F H0 H5 c' p q E).
Qed.

Lemma decode_reject_burst ts f g c p : is_bytes f -> is_bytes g -> length f = length g -> frame_v1 c f ->
  nth 0 f 0%N = nth 0 g 0%N -> nth 5 f 0%N = nth 5 g 0%N -> f <> g ->
  (forall i, In i (flips f g) -> p <= i < p + 16) ->
  ((forall i, In i (flips f g) -> i < 8 * (length f - 2)) \/ (forall i, In i (flips f g) -> 8 * (length f - 2) <= i) \/
   (forall i, In i (flips f g) -> p <= i < p + 8)) ->
  decode ts g = Err MAVError.
Proof.
  intros Bf Bg L F H0 H5 NE W K. apply (reject_decode ts f g c Bg F H0).
  intros c'. apply (reject_burst f g c Bf Bg L F H0 H5 c' p NE W K).
Qed.

Lemma decode_reject_length ts f g c : is_bytes f -> is_bytes g -> length f = length g -> frame_v1 c f ->
  nth 0 f 0%N = nth 0 g 0%N -> nth 1 f 0%N <> nth 1 g 0%N -> decode ts g = Err MAVError.
Proof.
  intros Bf Bg L F H0 N. apply (reject_decode ts f g c Bg F H0). intros c'. apply (reject_length f g c c' Bf Bg L F N).
Qed.

Lemma exceptional_wire_size : forallb (fun c => negb (N.eqb (mc_id c) 4 || N.eqb (mc_id c) 6) || negb (Nat.eqb (wire_size c) 208)) mavlink_classes = true.
Proof. vm_compute. reflexivity. Qed.

Lemma packed_single_bit ts f g c p : is_bytes f -> is_bytes g -> length f = length g ->
  frame_v1 c f -> length f = 8 + wire_size c -> flips f g = [p] -> decode ts g = Err MAVError.
Proof.
  intros Bf Bg L F W S. destruct (single_bit ts f g c p Bf Bg L F S) as [[D|D] I]; auto. exfalso.
  apply I in D. destruct D as [[D1 D2] _]. pose proof exceptional_wire_size as X. rewrite forallb_forall in X.
  destruct F as [[Ic Id] _]. specialize (X c Ic). rewrite <- Id in D1. lia.
Qed.

(** A frame of message 4 with 208 zero payload bytes, and the same with the id byte changed to 6. *)
Definition ping208 (i : N) (tr : bytes) : bytes := [254; 208; 0; 0; 0; i]%N ++ repeat 0%N 208 ++ tr.
Definition ping208_crc : bytes := le_bytes 2 (x25crc (skipn 1 (ping208 4 []) ++ match get_class 4 with Some c => [mc_crc_extra c] | None => [] end)).

Lemma single_bit_counterexample : exists (text : bytes -> list N) f g p,
  is_bytes f /\ is_bytes g /\ length f = length g /\ flips f g = [p] /\
  (exists d, decode text f = Ok d) /\ (exists d, decode text g = Ok d).
Proof.
  exists (fun b => b), (ping208 4 ping208_crc), (ping208 6 ping208_crc), 41.
  assert (B : forall i, (i < 256)%N -> is_bytes (ping208 i ping208_crc)).
  { intros i Hi. unfold ping208. apply is_bytes_app. split; [repeat apply Forall_cons; auto; lia|].
    apply is_bytes_app. split; [apply is_bytes_repeat0|apply le_bytes_is_bytes]. }
  split; [apply B; lia|]. split; [apply B; lia|]. split; [reflexivity|]. split; [vm_compute; reflexivity|].
  split; eexists; vm_compute; reflexivity.
Qed.
