(** Frames of protocol version 2.0. *)
From Coq Require Import String Ascii List Arith NArith ZArith Bool Lia ZifyBool ZifyNat ZifyN.
From Verif.Model Require Import Py Dialect ProtocolMeta Struct Crc Mavlink Signing Wire2.
From Verif.Spec Require Import Bytes Bits Header CrcSpec Frame SignSpec Wire2Spec.
From Verif.Proofs Require Import Base BitOpsP DialectP HeaderP HeaderMore StructP CrcP MavlinkP FieldsP PackP SendP MavlinkMore.
Import ListNotations.
Local Open Scope list_scope.
Local Notation length := List.length.

(** ** Trailing zeros *)
Lemma stripped_shortest pl : 1 <= length pl -> forall n, 1 <= n <= length pl -> pl = firstn n pl ++ repeat 0%N (length pl - n) ->
  shortest (firstn (stripped_length pl n) pl) pl.
Proof.
  intros L. induction n as [|n IH]; [lia|]. intros H E. destruct n as [|n].
  - cbn [stripped_length]. unfold shortest. rewrite firstn_length_le by lia. split; [exact E|]. split; lia.
  - cbn [stripped_length]. destruct (N.eqb_spec (nth (S n) pl 1%N) 0) as [Z|Z].
    + apply IH; [lia|]. rewrite E at 1. assert (S1 : firstn (S (S n)) pl = firstn (S n) pl ++ [0%N]).
      { rewrite <- Z. clear -H. revert pl H. generalize (S n) as k. induction k as [|k IHk]; intros [|x pl] H; cbn [length firstn nth app] in *; try lia; [reflexivity|]. f_equal. apply IHk. lia. }
      rewrite S1, <- app_assoc. f_equal. replace (length pl - S n) with (S (length pl - S (S n))) by lia. reflexivity.
    + unfold shortest. rewrite firstn_length_le by lia. split; [exact E|]. split; [lia|]. intros _ X. apply Z.
      rewrite <- X. clear -H. revert pl H. generalize (S n) as k. induction k as [|k IHk]; intros [|x pl] H; cbn [length] in H; try lia.
      * destruct pl; reflexivity.
      * cbn [nth]. rewrite (IHk pl) by lia. destruct pl as [|y pl]; [cbn in H; lia|]. reflexivity.
Qed.
Lemma strip_ok pl : 1 <= length pl -> shortest (firstn (stripped_length pl (length pl)) pl) pl.
Proof. intros L. apply stripped_shortest; [exact L|lia|]. rewrite firstn_all, Nat.sub_diag. cbn. rewrite app_nil_r. reflexivity. Qed.

(** ** The header *)
Lemma pack_B z : (0 <= z <= 255)%Z -> pack_one "B" (VInt z) = Ok [Z.to_N z].
Proof.
  intros Hz. unfold pack_one. cbn [char_size char_unsigned]. change (2 ^ (8 * Z.of_nat 1))%Z with 256%Z.
  replace ((0 <=? z)%Z && (z <? 256)%Z)%bool with true by lia. cbn [le_bytes]. f_equal. f_equal. apply N.mod_small. lia.
Qed.
Lemma pack_H z : (0 <= z <= 65535)%Z -> pack_one "H" (VInt z) = Ok [Z.to_N z mod 256; Z.to_N z / 256]%N.
Proof.
  intros Hz. unfold pack_one. cbn [char_size char_unsigned]. change (2 ^ (8 * Z.of_nat 2))%Z with 65536%Z.
  replace ((0 <=? z)%Z && (z <? 65536)%Z)%bool with true by lia. cbn [le_bytes]. f_equal. f_equal. f_equal. apply N.mod_small. apply N.div_lt_upper_bound; lia.
Qed.
Lemma header2_ok marker mlen flag seq sys comp id : (0 <= marker <= 255)%Z -> (0 <= mlen <= 255)%Z -> (0 <= flag <= 255)%Z -> in_byte seq -> in_byte sys -> in_byte comp -> (id < 256)%N ->
  header_pack2 marker mlen flag 0 seq sys comp (Z.of_N id) =
  Ok [Z.to_N marker; Z.to_N mlen; Z.to_N flag; 0; Z.to_N seq; Z.to_N sys; Z.to_N comp; id mod 256; (id / 256) mod 256; id / 65536]%N.
Proof.
  intros Hm Hl Hf S1 S2 S3 Hi. unfold in_byte in *. unfold header_pack2, struct_pack.
  change (parse_fmt "<BBBBBBBHB") with (Ok (repeat (1, "B"%char) 7 ++ [(1, "H"%char); (1, "B"%char)])). cbn [bind repeat app].
  assert (E1 : Z.land (Z.of_N id) 65535 = Z.of_N id) by (change 65535%Z with (Z.ones 16); rewrite Z.land_ones by lia; apply Z.mod_small; lia).
  assert (E2 : Z.shiftr (Z.of_N id) 16 = 0%Z) by (rewrite Z.shiftr_div_pow2 by lia; apply Z.div_small; lia). rewrite E1, E2.
  cbn [pack_items pack_item fst snd pack_rep]. do 7 (rewrite pack_B by lia; cbn [bind fst snd app]). rewrite pack_H by lia. cbn [bind fst snd app]. rewrite pack_B by lia. cbn [bind fst snd app].
  rewrite N2Z.id, (N.div_small id 65536), (N.div_small id 256) by lia. reflexivity.
Qed.

(** Whatever is packed has the length of the rest in its second byte. *)
Lemma pack_items_B (l : list (nat * ascii)) z vs b : pack_items ((1, "B"%char) :: l) (VInt z :: vs) = Ok b ->
  exists t, b = Z.to_N z :: t /\ (0 <= z < 256)%Z /\ pack_items l vs = Ok t.
Proof.
  cbn [pack_items]. unfold pack_item at 1. cbn [snd fst pack_rep]. unfold pack_one. cbn [char_size char_unsigned]. change (2 ^ (8 * Z.of_nat 1))%Z with 256%Z.
  destruct ((0 <=? z)%Z && (z <? 256)%Z)%bool eqn:E; [|discriminate]. cbn [bind fst snd app le_bytes]. intros H. apply bind_ok in H as (t & H & K). injection K as <-. exists t.
  rewrite N.mod_small by lia. split; [reflexivity|]. split; [lia|exact H].
Qed.
Lemma header2_shape marker mlen flag seq sys comp id h : header_pack2 marker mlen flag 0 seq sys comp id = Ok h ->
  exists t, h = Z.to_N marker :: Z.to_N mlen :: t /\ length t = 8 /\ (0 <= mlen < 256)%Z /\ (0 <= marker < 256)%Z.
Proof.
  unfold header_pack2, struct_pack. change (parse_fmt "<BBBBBBBHB") with (Ok (repeat (1, "B"%char) 7 ++ [(1, "H"%char); (1, "B"%char)])). cbn [bind repeat app]. intros H.
  apply pack_items_B in H as (t & -> & M & H). apply pack_items_B in H as (t1 & -> & L & H). exists t1. split; [reflexivity|]. split; [|split; [exact L|exact M]].
  do 5 (apply pack_items_B in H as (? & -> & _ & H); cbn [length]; f_equal). revert H. cbn [pack_items]. unfold pack_item. cbn [snd fst pack_rep].
  intros H. apply bind_ok in H as (r & R & H). apply bind_ok in R as (q & Q & R). cbn [bind] in R. injection R as <-. cbn [fst snd] in H.
  assert (LQ : length q = 2). { revert Q. unfold pack_one. cbn [char_size char_unsigned]. destruct (_ && _)%bool; [|discriminate]. intros [= <-]. reflexivity. }
  apply bind_ok in H as (b2 & B2 & H). injection H as <-. apply bind_ok in B2 as (r & R & H). apply bind_ok in R as (q2 & Q2 & R). cbn [bind] in R. injection R as <-. cbn [fst snd bind] in H. injection H as <-.
  assert (LQ2 : length q2 = 1). { revert Q2. unfold pack_one. cbn [char_size char_unsigned]. destruct (_ && _)%bool; [|discriminate]. intros [= <-]. reflexivity. }
  rewrite !app_length, LQ, LQ2. reflexivity.
Qed.
Lemma frame2_shape marker c out seq sys comp pl b : pack_frame2 marker c out seq sys comp pl = Ok b ->
  exists n t, b = Z.to_N marker :: N.of_nat n :: t /\ length t = n + 10.
Proof.
  unfold pack_frame2. cbv zeta. intros H. apply bind_ok in H as (h & H & K). apply bind_ok in K as (t & T & K). injection K as <-.
  apply header2_shape in H as (t1 & -> & L & M & _). set (p := firstn (stripped_length pl (length pl)) pl) in *. exists (length p), (t1 ++ p ++ t). split.
  - cbn [app]. rewrite <- app_assoc. f_equal. f_equal. lia.
  - assert (LT : length t = 2).
    { revert T. unfold struct_pack. change (parse_fmt "<H") with (Ok [(1, "H"%char)]). cbn [bind pack_items pack_item fst snd pack_rep].
      unfold pack_one. cbn [char_size char_unsigned]. destruct (_ && _)%bool; [|discriminate]. cbn [bind fst snd]. intros [= <-]. reflexivity. }
    rewrite !app_length, L, LT. lia.
Qed.
Lemma sign_shape sha sg b sg' r : sign_packet sha sg b = (sg', Ok r) -> exists t, r = b ++ t.
Proof.
  unfold sign_packet. destruct (struct_pack _ _); [|discriminate]. destruct (sg_key sg); [|discriminate]. intros [= <- <-]. rewrite <- app_assoc. eauto.
Qed.

(** ** The frame of a message that fits *)
Lemma wire_size_pos : forallb (fun c => Nat.leb 1 (wire_size c)) mavlink_classes = true.
Proof. vm_compute. reflexivity. Qed.
Lemma frame2_ok ts marker out c fs seq sys comp : (0 <= marker <= 255)%Z -> In c mavlink_classes -> fits_all c fs -> in_byte seq -> in_byte sys -> in_byte comp ->
  exists pl p, (do! args <- pack_args (Msg c fs) in do! payload <- struct_pack (mc_pack_fmt c) args in pack_frame2 marker c out seq sys comp payload) =
      Ok (frame2 (Z.to_N marker) (if out then 1 else 0)%N c (Z.to_N seq) (Z.to_N sys) (Z.to_N comp) p) /\
    length pl = wire_size c /\ is_bytes pl /\ shortest p pl /\ (exists f, message_pack (Msg c fs) seq sys comp = Ok f /\ payload f = pl) /\
    map (f_value ts c pl) (List.seq 0 (f_count c)) = map (fun i => returned ts c i (nth i fs (FText []))) (List.seq 0 (f_count c)).
Proof.
  intros Hm H Ft S1 S2 S3. pose proof (class_facts_in _ H) as F. destruct (wire_facts_in c H) as (items & W). destruct (payload_ok ts c fs H Ft) as (pl & EP & LP & BP & DP).
  pose proof (wf_small _ _ W) as SM. pose proof (cf_id _ F) as IDB. pose proof (proj1 (forallb_forall _ _) wire_size_pos c H) as WP. cbv beta in WP. apply Nat.leb_le in WP.
  set (p := firstn (stripped_length pl (length pl)) pl). exists pl, p.
  assert (SH : shortest p pl) by (apply strip_ok; lia). assert (LPp : length p <= length pl) by (unfold p; rewrite firstn_length; lia).
  rewrite (decoded_fields_spec ts c pl H BP) in DP.
  split; [|split; [exact LP|split; [exact BP|split; [exact SH|split; [|exact DP]]]]].
  - apply bind_ok in EP as (args & EA & EP). rewrite EA. cbn [bind]. rewrite EP. cbn [bind]. unfold pack_frame2. cbv zeta. fold p.
    rewrite header2_ok by (auto; try lia; destruct out; lia). cbn [bind].
    set (h := [Z.to_N marker; Z.to_N (Z.of_nat (length p)); Z.to_N (if out then 1 else 0); 0; Z.to_N seq; Z.to_N sys; Z.to_N comp; mc_id c mod 256; (mc_id c / 256) mod 256; mc_id c / 65536]%N).
    assert (EB : skipn 1 (h ++ p) = checked_part (if out then 1 else 0)%N c (Z.to_N seq) (Z.to_N sys) (Z.to_N comp) p).
    { unfold checked_part, h. cbn [app skipn]. f_equal; [lia|]. f_equal. destruct out; reflexivity. }
    assert (Bb : is_bytes (skipn 1 (h ++ p))).
    { apply is_bytes_skipn. apply is_bytes_app. split; [|apply is_bytes_firstn; exact BP]. unfold in_byte in *. unfold h.
      assert (D : (mc_id c / 65536 < 256)%N) by (rewrite N.div_small; lia). assert (M : forall x, (x mod 256 < 256)%N) by (intros x; apply N.mod_lt; lia).
      assert (O : (Z.to_N (if out then 1 else 0) < 256)%N) by (destruct out; reflexivity).
      repeat (apply Forall_cons; [first [lia | apply M | exact O | exact D]|]). constructor. }
    set (crc := crc16 (skipn 1 (h ++ p) ++ [mc_crc_extra c])).
    assert (CB : (crc < 65536)%N) by (apply crc_bits_bound; lia).
    assert (EC : x25_accumulate (x25crc (skipn 1 (h ++ p))) [mc_pack_extra c] = crc).
    { unfold x25crc. rewrite <- x25_app. rewrite (cf_pextra _ F). apply x25crc_is_crc16. apply is_bytes_app. split; auto. constructor; [apply cf_extra; auto|constructor]. }
    rewrite EC. unfold struct_pack. change (parse_fmt "<H") with (Ok [(1, "H"%char)]). cbn [bind pack_items pack_item fst snd pack_rep]. rewrite pack_H by lia. cbn [bind fst snd app].
    rewrite N2Z.id. unfold frame2. cbv zeta. rewrite <- EB. fold crc. f_equal.
  - destruct (pack_decode ts c fs seq sys comp H Ft S1 S2 S3) as (b & E & B & L & F6 & _). exists b. split; [exact E|].
    unfold message_pack in E. apply bind_ok in EP as (args & EA & EP). rewrite EA in E. cbn [bind m_class] in E. rewrite EP in E. cbn [bind] in E. unfold pack_frame in E.
    apply bind_ok in E as (h & EH & E). cbv zeta in E. apply bind_ok in E as (t & ET & E). injection E as <-.
    assert (LT : length t = 2).
    { revert ET. unfold struct_pack. change (parse_fmt "<H") with (Ok [(1, "H"%char)]). cbn [bind pack_items pack_item fst snd pack_rep].
      unfold pack_one. cbn [char_size char_unsigned]. destruct (_ && _)%bool; [|discriminate]. cbn [bind fst snd]. intros [= <-]. reflexivity. }
    assert (LH : length h = 6) by (rewrite !app_length in L; lia).
    unfold payload. rewrite L, <- app_assoc. rewrite skipn_app, LH, (skipn_all2 h) by lia. cbn [Nat.sub app skipn]. replace (8 + wire_size c - 8) with (length pl) by lia.
    rewrite firstn_app, firstn_all, Nat.sub_diag. cbn [firstn]. apply app_nil_r.
Qed.
Lemma shortest_value ts c p pl i : shortest p pl -> f_value ts c p i = f_value ts c pl i.
Proof.
  intros (E & _). assert (N : forall k, nth k p 0%N = nth k pl 0%N).
  { intros k. rewrite E. destruct (Nat.ltb_spec k (length p)); [rewrite app_nth1 by assumption; reflexivity|]. rewrite app_nth2, nth_repeat, nth_overflow by lia. reflexivity. }
  unfold f_value. rewrite (map_ext _ (fun k => nth (f_offset c i + k) pl 0%N)) by (intros k; apply N). reflexivity.
Qed.

Lemma frame2_decoded text flag c fs seq sys comp p pl sig : In c mavlink_classes -> (seq < 256)%N -> (sys < 256)%N -> (comp < 256)%N -> is_bytes pl -> length pl = wire_size c -> shortest p pl ->
  (flag = 0%N /\ sig = [] \/ flag = 1%N /\ length sig = 13 /\ is_bytes sig) ->
  map (f_value text c pl) (List.seq 0 (f_count c)) = map (fun i => returned text c i (nth i fs (FText []))) (List.seq 0 (f_count c)) ->
  let b := frame2 253 flag c seq sys comp p ++ sig in
  is_bytes b /\ exists d, decode text b = Ok d /\ sent2 text c fs seq sys comp d /\ d_incompat d = flag /\ d_mlen d = N.of_nat (length p).
Proof.
  intros H S1 S2 S3 Bp Lp SH FS V b. pose proof (class_facts_in _ H) as F. destruct (wire_facts_in c H) as (items & W). pose proof (wf_small _ _ W) as SM. pose proof (cf_id _ F) as IDB.
  assert (LE : length p <= length pl) by (destruct SH as (-> & _); rewrite app_length; lia).
  assert (Bpp : is_bytes p) by (destruct SH as (E & _); rewrite E in Bp; apply is_bytes_app in Bp; apply Bp).
  set (body := checked_part flag c seq sys comp p). set (crc := crc16 (body ++ [mc_crc_extra c])).
  assert (CB : (crc < 65536)%N) by (apply crc_bits_bound; lia).
  assert (Fl : (flag < 256)%N) by (destruct FS as [[-> _]|[-> _]]; reflexivity).
  assert (D : (mc_id c / 65536 < 256)%N) by (rewrite N.div_small; lia). assert (M : forall x, (x mod 256 < 256)%N) by (intros x; apply N.mod_lt; lia).
  assert (Eb : b = 253%N :: body ++ [crc mod 256; crc / 256]%N ++ sig) by (unfold b, frame2; cbv zeta; fold body; fold crc; cbn [app]; rewrite <- app_assoc; reflexivity).
  assert (C2 : (crc / 256 < 256)%N) by (apply N.div_lt_upper_bound; lia).
  assert (B : is_bytes b).
  { rewrite Eb. apply Forall_cons; [reflexivity|]. apply is_bytes_app. split; [unfold body, checked_part; apply is_bytes_app; split; [|exact Bpp]; repeat (apply Forall_cons; [first [lia | apply M | exact D]|]); constructor|].
    apply is_bytes_app. split; [apply Forall_cons; [apply M|]; apply Forall_cons; [exact C2|constructor]|]. destruct FS as [[_ ->]|(_ & _ & FS)]; [constructor|exact FS]. }
  split; [exact B|].
  assert (Lb : length body = 9 + length p) by reflexivity.
  assert (SL : (if N.testbit (nth 2 b 0%N) 0 then 13 else 0) = length sig).
  { rewrite Eb. unfold body, checked_part. cbn [app nth]. destruct FS as [[-> ->]|(-> & -> & _)]; reflexivity. }
  assert (ID : (nth 7 b 0 + 256 * nth 8 b 0 + 65536 * nth 9 b 0)%N = mc_id c).
  { rewrite Eb. unfold body, checked_part. cbn [app nth]. rewrite N.mod_small, (N.div_small _ 256), (N.div_small _ 65536) by lia. cbn. lia. }
  assert (FR : frame_v2 c b).
  { split; [rewrite ID; split; [exact H|reflexivity]|]. rewrite SL. exists body, (crc mod 256)%N, (crc / 256)%N, sig. split; [exact Eb|]. split; [reflexivity|]. split; [lia|]. split.
    - rewrite Eb. unfold body at 1, checked_part. cbn [app nth]. lia.
    - fold crc. rewrite N.add_comm. symmetry. apply N.div_mod. lia. }
  assert (PL : payload_v2 b = p).
  { unfold payload_v2. rewrite SL. rewrite Eb. unfold body, checked_part. cbn [app skipn length]. rewrite !app_length. cbn [length]. replace (_ - 12 - length sig) with (length p) by lia.
    rewrite firstn_app, firstn_all, Nat.sub_diag. cbn [firstn]. apply app_nil_r. }
  eexists (Decoded _ _ _ _ _ _ _ _ _ _). split; [apply (decode_v2_full text b B); [rewrite Eb; discriminate|rewrite Eb; discriminate|]|].
  - exists c. cbn [d_class d_msgId d_mlen d_seq d_sys d_comp d_incompat d_compat d_crc d_fields]. repeat (split; [first [exact FR|reflexivity]|]). reflexivity.
  - unfold sent2. cbn [d_class d_msgId d_mlen d_seq d_sys d_comp d_incompat d_compat d_crc d_fields]. rewrite ID, PL, <- V. rewrite Eb. unfold body, checked_part. cbn [app nth]. repeat (split; [reflexivity|]).
    repeat split. apply map_ext. intros i. apply shortest_value. exact SH.
Qed.
