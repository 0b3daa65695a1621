(** unpack_values. *)
From Coq Require Import String Ascii List NArith ZArith Bool Lia ZifyBool ZifyNat ZifyN Arith.
From Verif.Model Require Import Py Float Dialect ProtocolMeta Struct Crc Mavlink Segmentation StatModels.
From Verif.Spec Require Import Bytes Bits Header Frame Segment Describe RealOps Stats.
From Verif.Proofs Require Import Base BitOpsP DialectP HeaderP HeaderMore StructP CrcP MavlinkP FieldsP PackP SegMore DescribeP StatP LayoutP.
Import ListNotations.

Lemma f_type_ctype c i : In c mavlink_classes -> i < f_count c -> exists sz ch, ctype (f_type c i) sz ch /\ f_width c i = Nat.max 1 (f_array c i) * sz.
Proof.
  intros H Hi. destruct (wire_facts_in c H) as (items & W). destruct (wf_item _ _ W i Hi) as (sz & ch & C & _ & _).
  exists sz, ch. split; auto. unfold f_width. f_equal. apply ctype_size in C. tauto.
Qed.

Lemma plain_array c i : In c mavlink_classes -> no_arrays c -> i < f_count c -> f_array c i = 0.
Proof.
  intros H NA Hi. unfold f_array. unfold no_arrays in NA. rewrite Forall_forall in NA. apply NA. apply nth_In.
  pose proof (class_facts_in _ H) as F. rewrite (cf_alen _ F). apply (cf_order_lt _ F). exact Hi.
Qed.

Lemma plain_not_char c i : In c mavlink_classes -> no_arrays c -> i < f_count c -> f_type c i <> "char"%string.
Proof.
  intros H NA Hi. destruct (body_chars 0 c H NA) as (_ & _ & T). rewrite Forall_forall in T. apply T. apply nth_In.
  rewrite (cf_types _ (class_facts_in _ H)). exact Hi.
Qed.

Lemma unpack_item_one ch b sz : ch <> "s"%char -> char_size ch = Some sz -> unpack_item (1, ch) b = [unpack_one ch (firstn sz b)].
Proof. intros N S. rewrite unpack_item_eq. cbn [fst snd]. destruct (Ascii.eqb_spec ch "s"); [contradiction|]. rewrite S. reflexivity. Qed.

Lemma is_bytes_skipn n (b : bytes) : is_bytes b -> is_bytes (skipn n b).
Proof. intros H. unfold is_bytes in *. rewrite Forall_forall in *. intros x Hx. apply H. rewrite <- (firstn_skipn n b). apply in_or_app; auto. Qed.
Lemma is_bytes_firstn n (b : bytes) : is_bytes b -> is_bytes (firstn n b).
Proof. intros H. unfold is_bytes in *. rewrite Forall_forall in *. intros x Hx. apply H. rewrite <- (firstn_skipn n b). apply in_or_app; auto. Qed.

Lemma skipn_S_nth {A} (l : list A) j d : j < length l -> skipn j l = nth j l d :: skipn (S j) l.
Proof. revert j; induction l; intros [|j] H; simpl in *; try lia; auto. apply IHl. lia. Qed.

Lemma payload_values_from c items pl : In c mavlink_classes -> no_arrays c -> wire_facts c items -> is_bytes pl -> length pl = wire_size c ->
  forall m j, j + m = f_count c ->
  unpack_items (skipn j items) (skipn (items_size (firstn j items)) pl) =
  map (fun j => let i := field_at_wire c j in c_scalar (f_type c i) (firstn (f_width c i) (skipn (f_offset c i) pl))) (seq j m).
Proof.
  intros H NA W B L. induction m; intros j E.
  - rewrite skipn_all2 by (rewrite (wf_len _ _ W); lia). reflexivity.
  - rewrite (skipn_S_nth items j (0, " "%char)) by (rewrite (wf_len _ _ W); lia). cbn [unpack_items seq map].
    assert (Hj : j < f_count c) by lia.
    destruct (field_at_wire_spec c j H Hj) as [Hi Ei]. destruct (wire_offset c items j H W Hj) as [Eo Ew].
    destruct (wf_item _ _ W _ Hi) as (sz & ch & C & It & _). rewrite Ei in It. rewrite plain_array in It by auto. change (Nat.max 1 0) with 1 in It.
    pose proof (plain_not_char c _ H NA Hi) as NC. pose proof (ctype_char _ _ _ C) as CC. pose proof (ctype_size _ _ _ C) as [CS CZ].
    assert (Ns : ch <> "s"%char).
    { intros ->. rewrite Ascii.eqb_refl in CC. symmetry in CC. apply String.eqb_eq in CC. contradiction. }
    rewrite skipn_skipn. rewrite (Nat.add_comm (item_size _)). rewrite <- items_size_S by (rewrite (wf_len _ _ W); lia).
    rewrite IHm by lia. rewrite It, (unpack_item_one ch _ sz Ns CZ). cbn [app]. f_equal.
    assert (Ws : f_width c (field_at_wire c j) = sz).
    { unfold f_width. rewrite plain_array by auto. change (Nat.max 1 0) with 1. rewrite CS. lia. }
    pose proof (offset_bound c _ H Hi) as OB.
    cbv zeta. rewrite Ws, Eo. apply (unpack_one_c _ sz); auto.
    + apply is_bytes_firstn, is_bytes_skipn, B.
    + rewrite firstn_length, skipn_length. lia.
Qed.

Lemma payload_values c pl : In c mavlink_classes -> no_arrays c -> is_bytes pl -> length pl = wire_size c ->
  struct_unpack (mc_unpacker c) pl =
  Ok (map (fun j => let i := field_at_wire c j in c_scalar (f_type c i) (firstn (f_width c i) (skipn (f_offset c i) pl))) (seq 0 (f_count c))).
Proof.
  intros H NA B L. destruct (wire_facts_in c H) as (items & W). unfold struct_unpack.
  rewrite (cf_unpacker _ (class_facts_in _ H)), (wf_parse _ _ W). cbn [bind]. rewrite (wf_size _ _ W), L, Nat.eqb_refl.
  f_equal. exact (payload_values_from c items pl H NA W B L (f_count c) 0 eq_refl).
Qed.

Lemma header_values (h : bytes) : is_bytes h -> length h = 6 ->
  struct_unpack "<BBBBBB" h = Ok (map (fun i => c_scalar "uint8_t" (firstn 1 (skipn i h))) [0; 1; 2; 3; 4; 5]).
Proof.
  intros B L. destruct h as [|a [|b [|c [|d [|e [|f [|]]]]]]]; try discriminate. reflexivity.
Qed.

(** One message. *)
Lemma values_step b k i c : is_bytes b -> is_msg i c -> no_arrays c -> k + 6 + wire_size c <= length b ->
  struct_unpack "<BBBBBB" (slice b k (k + header_len)) = Ok (map (slot_value b) (head_slots k c)) /\
  payload_length i = Some (wire_size c) /\
  struct_unpack (mc_unpacker c) (slice b (k + header_len) (k + header_len + wire_size c)) = Ok (map (slot_value b) (body_slots k c)).
Proof.
  intros B M NA W. pose proof M as [H Hid]. change header_len with 6.
  assert (S1 : slice b k (k + 6) = firstn 6 (skipn k b)) by (unfold slice; f_equal; lia).
  assert (S2 : slice b (k + 6) (k + 6 + wire_size c) = firstn (wire_size c) (skipn (k + 6) b)) by (unfold slice; f_equal; lia).
  split; [|split].
  - rewrite S1, header_values.
    + f_equal. unfold head_slots, slot_value. cbn [map s_type s_width s_first].
      rewrite !firstn_skipn_firstn by lia. rewrite !skipn_skipn. rewrite !(Nat.add_comm _ k), Nat.add_0_r. reflexivity.
    + apply is_bytes_firstn, is_bytes_skipn, B.
    + rewrite firstn_length, skipn_length. lia.
  - apply payload_length_spec. destruct (wire_plen c H) as (n & P & _ & X). apply X in NA. subst n. rewrite <- Hid. exact P.
  - rewrite S2, payload_values; auto.
    + f_equal. unfold body_slots. rewrite map_map. apply map_ext_in. intros j Hj. apply in_seq in Hj. unfold slot_value.
      cbn [s_type s_width s_first]. cbv zeta. f_equal.
      destruct (field_at_wire_spec c j H ltac:(lia)) as [Hi _]. pose proof (offset_bound c _ H Hi).
      rewrite firstn_skipn_firstn by lia. rewrite skipn_skipn. do 2 f_equal. lia.
    + apply is_bytes_firstn, is_bytes_skipn, B.
    + rewrite firstn_length, skipn_length. lia.
Qed.

Definition vstep (b : bytes) (vals : list pyval) (kv : nat * N) : res (list pyval) :=
    let '(byte_idx, msg_id) := kv in
    do! h <- struct_unpack "<BBBBBB" (slice b byte_idx (byte_idx + header_len)) in
    do! c <- map_class msg_id in
    do! len <- match payload_length msg_id with Some n => Ok n | None => Err KeyError end in
    do! p <- struct_unpack (mc_unpacker c) (slice b (byte_idx + header_len) (byte_idx + header_len + len)) in
    Ok (vals ++ h ++ p).

Lemma unpack_values_eq buffer s : unpack_values buffer s =
  do! b <- match buffer with BBytes b => Ok b | BBits l => Ok (pack_bits (length l) l) | BOther => Err ValueError end in
  fold_res (vstep b) s [].
Proof. reflexivity. Qed.

Lemma vfold_ok b s : is_bytes b -> Forall (plain_in (length b)) s -> forall sl vals, layout s sl ->
  fold_res (vstep b) s vals = Ok (vals ++ map (slot_value b) sl).
Proof.
  intros B. induction 1 as [|[k i] s (c & M & NA & W) Hs IH]; intros sl vals L; inversion L as [|? ? c0 ? sl1 M0 L1]; subst.
  - rewrite app_nil_r. reflexivity.
  - cbn [fold_res]. cbn [fst snd] in *. assert (c0 = c) by (eapply is_msg_fun; eauto). subst c0.
    destruct (values_step b k i c B M NA W) as (V1 & V2 & V3). unfold vstep at 1. rewrite V1. cbn [bind].
    rewrite (map_class_ok i c M). cbn [bind]. rewrite V2. cbn [bind]. rewrite V3. cbn [bind].
    rewrite (IH sl1) by auto. rewrite msg_slots_split, !map_app, <- !app_assoc. reflexivity.
Qed.

Lemma values_ok b s sl : is_bytes b -> Forall (plain_in (length b)) s -> layout s sl -> unpack_values (BBytes b) s = Ok (map (slot_value b) sl).
Proof. intros. rewrite unpack_values_eq. cbn [bind]. rewrite (vfold_ok b s) with (sl := sl); auto. Qed.

Lemma vstep_err b vals k i : is_bytes b -> ~ plain_in (length b) (k, i) ->
  vstep b vals (k, i) = Err (if (Nat.leb (k + 6) (length b)) then if get_class i then StructError else KeyError else StructError).
Proof.
  intros B NP. unfold vstep. change header_len with 6.
  assert (S1 : length (slice b k (k + 6)) = Nat.min 6 (length b - k)).
  { unfold slice. rewrite firstn_length, skipn_length. lia. }
  destruct (Nat.leb_spec (k + 6) (length b)) as [K6|K6].
  - rewrite header_values; [|unfold slice; apply is_bytes_firstn, is_bytes_skipn, B|lia]. cbn [bind].
    destruct (get_class i) as [c|] eqn:G; unfold map_class; rewrite G; cbn [bind]; [|reflexivity].
    apply get_class_spec in G. pose proof G as [H Hid]. destruct (wire_plen c H) as (n & P & Ln & X).
    rewrite Hid in P. rewrite (proj2 (payload_length_spec i n) P). cbn [bind].
    destruct (wire_facts_in c H) as (items & W). unfold struct_unpack.
    rewrite (cf_unpacker _ (class_facts_in _ H)), (wf_parse _ _ W). cbn [bind]. rewrite (wf_size _ _ W).
    destruct (Nat.eqb_spec (length (slice b (k + 6) (k + 6 + n))) (wire_size c)) as [E|E]; [|reflexivity].
    exfalso. apply NP. exists c. cbn [fst snd]. unfold slice in E. rewrite firstn_length, skipn_length in E.
    assert (n = wire_size c) by lia. split; auto. split; [apply X; auto|lia].
  - unfold struct_unpack at 1. replace (parse_fmt "<BBBBBB") with (Ok (repeat (1, "B"%char) 6)) by reflexivity. cbn [bind].
    change (items_size (repeat (1, "B"%char) 6)) with 6. destruct (Nat.eqb_spec (length (slice b k (k + 6))) 6); [lia|reflexivity].
Qed.

Lemma values_first_err b s1 k i s2 : is_bytes b -> Forall (plain_in (length b)) s1 -> ~ plain_in (length b) (k, i) ->
  unpack_values (BBytes b) (s1 ++ (k, i) :: s2) =
  Err (if (Nat.leb (k + 6) (length b)) then if get_class i then StructError else KeyError else StructError).
Proof.
  intros B P NP. destruct (layout_exists _ s1 P) as (sl & L). rewrite unpack_values_eq. cbn [bind]. rewrite fold_res_app.
  rewrite (vfold_ok b s1 B P sl [] L). cbn [bind fold_res]. rewrite vstep_err by auto. reflexivity.
Qed.

Lemma values_iff b s r : is_bytes b -> (unpack_values (BBytes b) s = Ok r <->
  Forall (plain_in (length b)) s /\ exists sl, layout s sl /\ r = map (slot_value b) sl).
Proof.
  intros B. split.
  - intros H. destruct (Forall_or_first (plain_in (length b)) (plain_in_dec (length b)) s) as [P|(a & [k i] & t & -> & Pa & NP)].
    + split; auto. destruct (layout_exists _ s P) as (sl & L). exists sl. rewrite (values_ok b s sl B P L) in H. injection H as <-. auto.
    + rewrite values_first_err in H by auto. discriminate.
  - intros (P & sl & L & ->). apply values_ok; auto.
Qed.

(** Bits to bytes. *)
Lemma bits_value_byte a : (a < 256)%N -> bits_value (byte_bits a) = a.
Proof.
  intros H. assert (forallb (fun a => N.eqb (bits_value (byte_bits a)) a) (map N.of_nat (seq 0 256)) = true) as T by (vm_compute; reflexivity).
  rewrite forallb_forall in T. specialize (T a). apply N.eqb_eq. apply T. apply in_map_iff. exists (N.to_nat a). split; [lia|apply in_seq; lia].
Qed.

Lemma pack_bits_bytes b : is_bytes b -> forall n, 8 * length b <= n -> pack_bits n (bytes_bits b) = b.
Proof.
  induction b as [|a b IH]; intros B n Hn.
  - destruct n; reflexivity.
  - inversion B; subst. cbn [length] in Hn. destruct n; [lia|]. unfold bytes_bits. cbn [flat_map]. fold (bytes_bits b).
    cbn [pack_bits]. replace (byte_bits a ++ bytes_bits b) with (byte_bits a ++ bytes_bits b) by reflexivity.
    assert (L8 : length (byte_bits a) = 8) by reflexivity.
    assert (E1 : firstn 8 (byte_bits a ++ bytes_bits b) = byte_bits a).
    { rewrite firstn_app, L8. change (8 - 8) with 0. rewrite firstn_O, app_nil_r. apply firstn_all2. lia. }
    assert (E2 : skipn 8 (byte_bits a ++ bytes_bits b) = bytes_bits b).
    { rewrite skipn_app, L8. change (8 - 8) with 0. rewrite skipn_all2 by lia. reflexivity. }
    rewrite E1, E2, bits_value_byte by auto. unfold byte_bits at 1. cbn [map app]. rewrite IH by (auto; lia). reflexivity.
Qed.

Lemma values_bits b s : is_bytes b -> unpack_values (BBits (bytes_bits b)) s = unpack_values (BBytes b) s.
Proof. intros B. rewrite !unpack_values_eq. cbn [bind]. rewrite pack_bits_bytes by (auto; rewrite length_bytes_bits; lia). reflexivity. Qed.

Lemma buf_length_bits b : buf_length (BBits (bytes_bits b)) = buf_length (BBytes b).
Proof. unfold buf_length. rewrite length_bytes_bits, Nat.mul_comm, Nat.div_mul by lia. reflexivity. Qed.
