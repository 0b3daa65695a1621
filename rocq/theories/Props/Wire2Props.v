(** C117: messages sent with protocol version 2.0. *)
From Coq Require Import String Ascii List NArith ZArith Arith Bool Lia ZifyBool ZifyNat ZifyN.
From Verif.Model Require Import Py Dialect ProtocolMeta Struct Crc Mavlink Parser Signing Wire2.
From Verif.Spec Require Import Bytes Bits Header CrcSpec Frame StreamSpec SignSpec Wire2Spec.
From Verif.Proofs Require Import Base BitOpsP CrcP DialectP StructP MavlinkP FieldsP PackP SendP MavlinkMore StreamP StreamMore SignP SignSend Wire2P.
From Verif.Props Require Import MavlinkProps StreamProps SigningProps.
Import ListNotations.
Local Open Scope list_scope.
Local Notation length := List.length.

Local Notation pack2 sha marker sg x := (pack_v2 sha marker sg (Msg (s_class x) (s_fields x)) (s_seq x) (s_sys x) (s_comp x) false).
Local Notation frame_2 marker flag x p := (frame2 marker flag (s_class x) (Z.to_N (s_seq x)) (Z.to_N (s_sys x)) (Z.to_N (s_comp x)) p).

(** The bytes: the payload of version 1.0 without its trailing zeros, behind a header of ten bytes and before the checksum. *)
Theorem c117_frame : forall sha marker sg x, (0 <= marker <= 255)%Z -> legit x -> exists f p,
  message_pack (Msg (s_class x) (s_fields x)) (s_seq x) (s_sys x) (s_comp x) = Ok f /\ shortest p (payload f) /\
  (sg_outgoing sg = false -> pack2 sha marker sg x = (sg, Ok (frame_2 (Z.to_N marker) 0%N x p))) /\
  (sg_outgoing sg = true -> let '(sg', r) := pack2 sha marker sg x in
    (forall b, r = Ok b <-> exists key, sg_key sg = Some key /\ (0 <= sg_link sg < 256)%Z /\ (0 <= sg_timestamp sg < 2 ^ 64)%Z /\
       let head := frame_2 (Z.to_N marker) 1%N x p ++ [Z.to_N (sg_link sg)] ++ le_bytes 6 (Z.to_N (sg_timestamp sg)) in b = head ++ firstn 6 (sha (key ++ head))) /\
    (forall e, r = Err e -> sg' = sg /\ (e = StructError \/ e = TypeError)) /\
    (forall b, r = Ok b -> same_settings sg sg' /\ same_records sg sg' /\ counted sg sg' 0 0 0 0 0 /\ sg_timestamp sg' = (sg_timestamp sg + 1)%Z)).
Proof.
  intros sha marker sg x Hm (H1 & H2 & H3 & H4 & H5).
  destruct (frame2_ok (fun b => b) marker (sg_outgoing sg) _ _ _ _ _ Hm H1 H2 H3 H4 H5) as (pl & p & E & _ & _ & SH & (f & EF & PF) & _).
  exists f, p. split; [exact EF|]. split; [rewrite PF; exact SH|]. unfold pack_v2. cbn [m_class]. rewrite E. split; intros O; rewrite O; [reflexivity|].
  unfold sign_packet. rewrite pack_bq.
  destruct ((0 <=? sg_link sg) && (sg_link sg <? 2 ^ 8) && (0 <=? sg_timestamp sg) && (sg_timestamp sg <? 2 ^ 64))%Z%bool eqn:Er.
  - assert (R : (0 <= sg_link sg < 256)%Z /\ (0 <= sg_timestamp sg < 2 ^ 64)%Z) by lia.
    change (firstn 7 (Z.to_N (sg_link sg) :: le_bytes 8 (Z.to_N (sg_timestamp sg))))
      with ([Z.to_N (sg_link sg)] ++ firstn 6 (le_bytes 8 (Z.to_N (sg_timestamp sg)))). rewrite (le_bytes_prefix 6 8) by lia.
    destruct (sg_key sg) as [key|] eqn:Ek.
    + split; [|split].
      * intros b. split; [intros [= <-]; exists key; tauto|]. intros (k & [= <-] & _ & _ & ->). reflexivity.
      * discriminate.
      * intros b _. unfold same_settings, same_records, counted, recorded. cbn. rewrite ?Nat.add_0_r. auto 10.
    + split; [|split; [intros e [= <-]; auto|discriminate]]. intros b. split; [discriminate|]. intros (k & H & _). discriminate.
  - split; [|split; [intros e [= <-]; auto|discriminate]]. intros b. split; [discriminate|]. intros (k & _ & H). lia.
Qed.
Print Assumptions c117_frame.

(** The header is packed with the start marker of version 1.0 (254): whatever is sent so, signed or not, no receiver decodes it. *)
Theorem c117_never : forall sha text sg m seq sys comp sg' b, pack_v2 sha written_marker sg m seq sys comp false = (sg', Ok b) ->
  decode text b = Err MAVError /\ forall receiver, decode_signed sha text receiver b = (receiver, Err MAVError).
Proof.
  intros sha text sg m seq sys comp sg' b. unfold pack_v2. destruct (do! args <- pack_args m in _) as [f|e] eqn:E; [|discriminate]. intros H.
  assert (S : exists n t, b = 254%N :: N.of_nat n :: t /\ n + 10 <= length t).
  { apply bind_ok in E as (args & _ & E). apply bind_ok in E as (pl & _ & E). apply frame2_shape in E as (n & t & -> & L). destruct (sg_outgoing sg).
    - apply sign_shape in H as (t' & ->). exists n, (t ++ t'). split; [reflexivity|]. rewrite app_length. lia.
    - injection H as _ <-. exists n, t. split; [reflexivity|lia]. }
  clear -S. destruct S as (n & t & -> & L).
  assert (X : Z.eqb (Z.of_N (N.of_nat n)) (Z.of_nat (length (254%N :: N.of_nat n :: t)) - Z.of_nat (6 + 2 + 0)) = false) by (cbn [length]; lia).
  split.
  - unfold decode. change (N.eqb 254 stx) with true. cbv iota. destruct (Nat.ltb _ 6); [reflexivity|]. unfold decode_body. cbn [nth]. rewrite X. reflexivity.
  - intros rc. unfold decode_signed. change (N.eqb 254 stx) with true. cbv iota. destruct (Nat.ltb _ 6); [reflexivity|]. unfold decode_signed_body. cbn [nth]. rewrite X. reflexivity.
Qed.
Print Assumptions c117_never.

(** With the marker of version 2.0 (253), the only change, every message would be understood, its stripped zeros included. *)
Theorem c117_understood : forall sha text sg x sg' b, legit x -> (forall y, length (sha y) = 32 /\ is_bytes (sha y)) ->
  pack2 sha 253%Z sg x = (sg', Ok b) ->
  is_bytes b /\ exists d, decode text b = Ok d /\ sent2 text (s_class x) (s_fields x) (Z.to_N (s_seq x)) (Z.to_N (s_sys x)) (Z.to_N (s_comp x)) d /\
    d_incompat d = (if sg_outgoing sg then 1 else 0)%N /\ (sg_outgoing sg = true -> has_signature b).
Proof.
  intros sha text sg x sg' b L Hs E. destruct (c117_frame sha 253 sg x ltac:(lia) L) as (f & p & EF & SH & A & B). destruct L as (H1 & H2 & H3 & H4 & H5). unfold in_byte in *.
  destruct (frame2_ok text 253 (sg_outgoing sg) _ _ _ _ _ ltac:(lia) H1 H2 H3 H4 H5) as (pl & p' & _ & Lp & Bp & _ & (f' & EF' & PF) & V). rewrite EF in EF'. injection EF' as <-. rewrite PF in SH. clear p'.
  destruct (sg_outgoing sg) eqn:O.
  - specialize (B eq_refl). rewrite E in B. destruct B as (B & _). destruct (proj1 (B b) eq_refl) as (key & K & Rl & Rt & Eb). cbv zeta in Eb. rewrite <- !app_assoc in Eb.
    assert (FS : let sig := [Z.to_N (sg_link sg)] ++ le_bytes 6 (Z.to_N (sg_timestamp sg)) ++ firstn 6 (sha (key ++ frame_2 (Z.to_N 253) 1%N x p ++ [Z.to_N (sg_link sg)] ++ le_bytes 6 (Z.to_N (sg_timestamp sg)))) in length sig = 13 /\ is_bytes sig).
    { cbv zeta. split; [rewrite !app_length, length_le_bytes, firstn_length, (proj1 (Hs _)); reflexivity|]. constructor; [lia|]. apply is_bytes_app. split; [apply le_bytes_is_bytes|]. apply is_bytes_firstn. apply Hs. }
    rewrite Eb. destruct (frame2_decoded text 1%N (s_class x) (s_fields x) (Z.to_N (s_seq x)) (Z.to_N (s_sys x)) (Z.to_N (s_comp x)) p pl _ H1 ltac:(lia) ltac:(lia) ltac:(lia) Bp Lp SH (or_intror (conj eq_refl FS)) V) as (Bb & d & D & S & I & _).
    split; [exact Bb|]. exists d. split; [exact D|]. split; [exact S|]. split; [exact I|]. intros _. split; [discriminate|reflexivity].
  - rewrite (A eq_refl) in E. injection E as _ <-.
    destruct (frame2_decoded text 0%N (s_class x) (s_fields x) (Z.to_N (s_seq x)) (Z.to_N (s_sys x)) (Z.to_N (s_comp x)) p pl [] H1 ltac:(lia) ltac:(lia) ltac:(lia) Bp Lp SH (or_introl (conj eq_refl eq_refl)) V) as (Bb & d & D & S & I & _).
    rewrite app_nil_r in *. split; [exact Bb|]. exists d. split; [exact D|]. split; [exact S|]. split; [exact I|]. discriminate.
Qed.
Print Assumptions c117_understood.

(** A signed one proves its origin to every receiver with the same key to whom its timestamp is news: link, system and component name the
    stream, the timestamp is that of the sender. *)
Theorem c117_proven : forall sha text sg x sg' b receiver key, legit x -> (forall y, length (sha y) = 32 /\ is_bytes (sha y)) ->
  sg_outgoing sg = true -> sg_key sg = Some key -> sg_key receiver = Some key -> pack2 sha 253%Z sg x = (sg', Ok b) ->
  stamp b = (sg_timestamp sg mod 2 ^ 48)%Z /\ stream_of b = (Z.to_N (sg_link sg), Z.to_N (s_sys x), Z.to_N (s_comp x)) /\ authentic sha key b /\
  (fresh receiver b -> exists r, snd (decode_signed sha text receiver b) = Ok r /\ v_signed r = true /\ v_link r = Some (Z.to_N (sg_link sg)) /\
     sent2 text (s_class x) (s_fields x) (Z.to_N (s_seq x)) (Z.to_N (s_sys x)) (Z.to_N (s_comp x)) (v_msg r)).
Proof.
  intros sha text sg x sg' b rc key L Hs O K KR E. destruct (c117_understood sha text sg x sg' b L Hs E) as (Bb & d & D & S & _ & HS). specialize (HS O).
  destruct (c117_frame sha 253 sg x ltac:(lia) L) as (f & p & _ & _ & _ & B). specialize (B O). rewrite E in B. destruct B as (B & _). destruct (proj1 (B b) eq_refl) as (k & K' & Rl & Rt & Eb).
  rewrite K in K'. injection K' as <-. cbv zeta in Eb. set (fr := frame_2 (Z.to_N 253) 1%N x p) in *. set (lk := Z.to_N (sg_link sg)) in *. set (tm := le_bytes 6 (Z.to_N (sg_timestamp sg))) in *.
  set (hd := fr ++ [lk] ++ tm) in *. assert (LT : length tm = 6) by apply length_le_bytes. assert (LH : length (firstn 6 (sha (key ++ hd))) = 6) by (rewrite firstn_length, (proj1 (Hs _)); reflexivity).
  assert (Lb : length b = length fr + 13) by (rewrite Eb, app_length, LH; unfold hd; rewrite !app_length, LT; cbn [length]; lia).
  assert (Lhd : length hd = length fr + 7) by (unfold hd; rewrite !app_length, LT; cbn [length]; lia).
  assert (E5 : nth 5 b 0%N = Z.to_N (s_sys x) /\ nth 6 b 0%N = Z.to_N (s_comp x)) by (rewrite Eb; split; reflexivity).
  assert (E13 : nth (length b - 13) b 0%N = lk).
  { rewrite Lb, Eb. replace (length fr + 13 - 13) with (length fr) by lia. unfold hd. rewrite <- app_assoc, app_nth2, Nat.sub_diag by lia. reflexivity. }
  assert (ST : stamp b = (sg_timestamp sg mod 2 ^ 48)%Z).
  { unfold stamp, from_end. rewrite Lb, Eb. unfold hd. rewrite <- !app_assoc. rewrite skipn_app, skipn_all2 by lia. cbn [app]. replace (length fr + 13 - 12 - length fr) with 1 by lia. cbn [skipn app].
    rewrite firstn_app, firstn_all2 by lia. rewrite LT. cbn [Nat.sub firstn]. rewrite app_nil_r. unfold tm. rewrite le_number_val.
    rewrite le_val_le_bytes_mod. rewrite N2Z.inj_mod by lia. rewrite Z2N.id by lia. reflexivity. }
  assert (SO : stream_of b = (lk, Z.to_N (s_sys x), Z.to_N (s_comp x))) by (unfold stream_of; rewrite E13, (proj1 E5), (proj2 E5); reflexivity).
  assert (AU : authentic sha key b).
  { unfold authentic, from_end. rewrite Lb, Eb. replace (length fr + 13 - 6) with (length hd) by lia. set (hs := firstn 6 (sha (key ++ hd))) in *.
    assert (Q1 : skipn (length hd) (hd ++ hs) = hs) by (rewrite skipn_app, skipn_all, Nat.sub_diag; reflexivity).
    assert (Q2 : firstn (length hd) (hd ++ hs) = hd) by (rewrite firstn_app, firstn_all, Nat.sub_diag; apply app_nil_r).
    rewrite Q1, Q2. fold hs. apply firstn_all2. rewrite LH. apply le_n. }
  split; [exact ST|]. split; [exact SO|]. split; [exact AU|]. intros FR.
  assert (P : proven sha rc b) by (exists key; auto).
  destruct (proj2 (c73_accept sha text rc b Bb)) as (r & R); [exists d; auto|]. exists r. split; [exact R|]. destruct (c73_result sha text rc b r Bb R) as (D' & V & LK). rewrite D in D'. injection D' as D'.
  rewrite (proj2 V P) in LK. split; [apply V; exact P|]. split; [rewrite LK, E13; reflexivity|]. rewrite <- D'. exact S.
Qed.
Print Assumptions c117_proven.

(** With force_mavlink1 a message is that of version 1.0 (C09), never signed. *)
Theorem c117_forced : forall sha marker sg m seq sys comp, pack_v2 sha marker sg m seq sys comp true = (sg, message_pack m seq sys comp).
Proof. reflexivity. Qed.
Print Assumptions c117_forced.

(** ** Examples: a heartbeat whose last fields are zero; sent as the code does and as it should. *)
Definition short_hb : message := Msg (class_of 0) (map (fun z => FOne (VInt z)) [2; 3; 81; 5; 0; 0]%Z).
Example c117_ex_sent : exists b, pack_v2 sum_hash written_marker signing_new short_hb 17 1 1 false = (signing_new, Ok b) /\ length b = 19 /\
  firstn 10 b = [254; 7; 0; 0; 17; 1; 1; 0; 0; 0]%N /\ decode (fun b => b) b = Err MAVError.
Proof. eexists. split; [vm_compute; reflexivity|]. vm_compute. auto. Qed.
Example c117_ex_marker : exists b d, pack_v2 sum_hash 253 signing_new short_hb 17 1 1 false = (signing_new, Ok b) /\ length b = 19 /\
  decode (fun b => b) b = Ok d /\ d_fields d = m_fields short_hb.
Proof. eexists. eexists. split; [vm_compute; reflexivity|]. split; [reflexivity|]. split; vm_compute; reflexivity. Qed.
Example c117_ex_zero : stripped_length [0; 0; 0]%N 3 = 1 /\ stripped_length [0; 7; 0]%N 3 = 2.
Proof. vm_compute. auto. Qed.
