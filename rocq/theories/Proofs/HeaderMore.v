(** Further lemmas used by Props/HeaderProps.v. *)
From Coq Require Import String Ascii List NArith ZArith Bool Lia ZifyBool ZifyNat ZifyN.
From Verif.Model Require Import Py Dialect ProtocolMeta BitOps MsgHeader Struct.
From Verif.Spec Require Import Bytes Bits Header.
From Verif.Proofs Require Import Base BitOpsP DialectP HeaderP.
Import ListNotations.

Lemma hamming_metric : forall n a b c,
  (forall d, hamming_distance a b n = Ok d -> hamming_distance b a n = Ok d) /\
  (forall d x y, hamming_distance a b n = Ok d -> denotes n a x -> denotes n b y -> (d = 0 <-> x = y) /\ d <= length x) /\
  (forall d1 d2, hamming_distance a b n = Ok d1 -> hamming_distance b c n = Ok d2 ->
     exists d3, hamming_distance a c n = Ok d3 /\ d3 <= d1 + d2).
Proof.
  intros n a b c. split; [|split].
  - intros d. rewrite !hamming_spec. intros (x & y & Hx & Hy & L & ->). exists y, x. rewrite diffs_sym; auto.
  - intros d x y. rewrite hamming_spec. intros (x' & y' & Hx & Hy & L & ->) Hx' Hy'.
    rewrite (denotes_fun _ _ _ _ Hx' Hx), (denotes_fun _ _ _ _ Hy' Hy). split; [|apply diffs_le].
    split; [apply diffs_zero; auto|]. intros ->. apply diffs_refl.
  - intros d1 d2. rewrite !hamming_spec. intros (x & y & Hx & Hy & L & ->) (y' & z & Hy' & Hz & L' & ->).
    pose proof (denotes_fun _ _ _ _ Hy' Hy); subst y'.
    exists (diffs x z). split; [|apply diffs_triangle; auto]. apply hamming_spec. exists x, z. repeat split; auto; lia.
Qed.

Lemma frame_header_accessors : forall m s c q h,
  frame_header_init m s c q = Ok h ->
  Z.of_N (fh_msg_id h) = m /\ Z.of_N (fh_sys_id h) = s /\ Z.of_N (fh_comp_id h) = c /\ Z.of_N (fh_sequence h) = q /\
  plen (fh_msg_id h) (N.to_nat (fh_length h)).
Proof.
  intros m s c q h H. apply frame_header_ok in H. destruct H as (Hs & Hc & Hq & Hm & n & Hn & Hb).
  unfold fh_msg_id, fh_sys_id, fh_comp_id, fh_sequence, fh_length. rewrite Hb. simpl nth. unfold in_byte in *.
  rewrite Nat2N.id. repeat split; auto; lia.
Qed.

Lemma header_length_errors : forall b, length b <> 6 ->
  is_valid_header b = false /\ (forall f, from_buffer b f = Err HeaderLength) /\
  (forall m, hamming_distance_2_valid_header b m = Err HeaderLength) /\
  (forall h, fh_hamming_distance h b = Err HeaderLength).
Proof.
  intros b L. unfold is_valid_header, hamming_distance_2_valid_header, fh_hamming_distance, from_buffer.
  change header_len with 6. apply Nat.eqb_neq in L. rewrite L. repeat split; auto.
Qed.

Lemma fh_hamming_ok : forall m s c q h b,
  frame_header_init m s c q = Ok h -> length b = 6 -> fh_hamming_distance h b = Ok (byte_diffs (fh_buffer h) b).
Proof.
  intros m s c q h b H L. unfold fh_hamming_distance. change header_len with 6. rewrite L. simpl negb. cbv iota.
  apply hamming_bytes. apply frame_header_ok in H. destruct H as (_ & _ & _ & _ & n & _ & E). rewrite E, L. reflexivity.
Qed.

Lemma nearest_max_len_refuted : exists b m h,
  is_bytes b /\ length b = 6 /\ valid_header h /\ (Z.of_N (nth 1 h 0%N) <= m)%Z /\ byte_diffs b h < 17 /\
  hamming_distance_2_valid_header b (Some m) = Ok (17, -1)%Z.
Proof.
  exists [254; 9; 0; 0; 0; 0]%N, 8%Z, [254; 4; 0; 0; 0; 40]%N.
  split; [repeat constructor|]. split; [reflexivity|].
  split; [apply is_valid_header_spec; vm_compute; reflexivity|].
  split; [vm_compute; discriminate|]. split; [vm_compute; lia|]. vm_compute. reflexivity.
Qed.

Lemma dialect_lengths : forall c,
  In c mavlink_classes ->
  (mc_id c < 256)%N /\
  exists n k, payload_length (mc_id c) = Some n /\ type_sum (mc_fieldtypes c) n /\ calcsize (mc_format c) = Ok k /\
    k < 256 /\ n <= k /\ (n = k <-> no_arrays c).
Proof.
  intros c H. pose proof (class_facts_in _ H) as F. split; [apply cf_id; auto|].
  destruct (cf_items _ F) as (items & k & E1 & E2 & E3 & E4 & E5 & E6 & E7 & E8 & _).
  exists k, (items_size items). repeat split; auto.
  - apply payload_length_spec. exists c. split; [split; auto|auto].
  - unfold calcsize. rewrite E1. reflexivity.
  - apply E8.
  - apply E8.
Qed.

Lemma dialect_ids_distinct : forall c c',
  In c mavlink_classes -> In c' mavlink_classes -> mc_id c = mc_id c' -> c = c'.
Proof. intros c c' H H' E. eapply is_msg_fun; split; eauto. Qed.

Definition fields_ok (c : msg_class) : bool :=
  match msg_fields c with
  | Ok fs => Nat.eqb (length fs) (length (mc_fieldnames c)) &&
      forallb (fun i => String.eqb (fst (nth (nth i (mc_orders c) 0) fs (""%string, ""%string))) (nth i (mc_fieldnames c) ""%string)
                     && String.eqb (snd (nth (nth i (mc_orders c) 0) fs (""%string, ""%string))) (nth i (mc_fieldtypes c) ""%string))
        (seq 0 (length (mc_fieldnames c))) &&
      forallb (fun j => existsb (fun i => Nat.eqb (nth i (mc_orders c) 0) j) (seq 0 (length (mc_fieldnames c))))
        (seq 0 (length (mc_fieldnames c)))
  | Err _ => false
  end.

Lemma all_fields_ok : forallb fields_ok mavlink_classes = true.
Proof. vm_compute. reflexivity. Qed.

(** [orders] is onto. *)
Lemma orders_onto c j : In c mavlink_classes -> j < length (mc_fieldnames c) ->
  exists i, i < length (mc_fieldnames c) /\ nth i (mc_orders c) 0 = j.
Proof.
  intros H Hj. pose proof all_fields_ok as A. rewrite forallb_forall in A. specialize (A c H).
  unfold fields_ok in A. destruct (msg_fields c) as [fs|]; [|discriminate].
  rewrite !andb_true_iff in A. destruct A as [_ A].
  pose proof (forallb_seq _ _ A j Hj) as B. cbv beta in B. apply existsb_exists in B. destruct B as (i & Hi & E).
  apply in_seq in Hi. apply Nat.eqb_eq in E. exists i; split; auto; lia.
Qed.

Lemma msgs_fields_wire_order : forall c,
  In c mavlink_classes ->
  exists fs items, msg_fields c = Ok fs /\ parse_fmt (mc_format c) = Ok items /\
    length fs = length (mc_fieldnames c) /\ length items = length fs /\
    forall j, j < length fs -> exists i sz ch,
      i < length (mc_fieldnames c) /\ nth i (mc_orders c) 0 = j /\
      nth j fs (""%string, ""%string) = (nth i (mc_fieldnames c) ""%string, nth i (mc_fieldtypes c) ""%string) /\
      nth j (mc_ordered c) ""%string = nth i (mc_fieldnames c) ""%string /\
      ctype (nth i (mc_fieldtypes c) ""%string) sz ch /\
      nth j items (0, " "%char) = (Nat.max 1 (nth j (mc_array_lengths c) 0), ch).
Proof.
  intros c H. pose proof (class_facts_in _ H) as F.
  destruct (cf_items _ F) as (items & k & E1 & E2 & E3 & E4 & E5 & E6 & E7 & E8 & E9).
  pose proof all_fields_ok as A. rewrite forallb_forall in A. specialize (A c H).
  unfold fields_ok in A. destruct (msg_fields c) as [fs|] eqn:EF; [|discriminate].
  rewrite !andb_true_iff in A. destruct A as [[A1 A2] A3]. apply Nat.eqb_eq in A1.
  exists fs, items. repeat split; auto; try lia.
  intros j Hj. rewrite A1 in Hj.
  destruct (orders_onto c j H Hj) as (i & Hi & Ei).
  destruct (E9 i Hi) as (sz & ch & C & I & _). rewrite Ei in I.
  exists i, sz, ch. repeat split; auto.
  - pose proof (forallb_seq _ _ A2 i Hi) as B. cbv beta in B. rewrite Ei in B. apply andb_true_iff in B. destruct B as [B1 B2].
    apply String.eqb_eq in B1, B2. rewrite <- B1, <- B2. apply surjective_pairing.
  - rewrite <- Ei. apply cf_order_name; auto.
Qed.

Lemma dialect_lengths_refuted : exists c n k,
  In c mavlink_classes /\ payload_length (mc_id c) = Some n /\ calcsize (mc_format c) = Ok k /\ n < k.
Proof.
  destruct (get_class 7) as [c|] eqn:E; [|vm_compute in E; discriminate].
  exists c, 1, 32. pose proof E as E'. apply get_class_spec in E'. destruct E' as [H Hi]. split; auto.
  rewrite Hi. split; [vm_compute; reflexivity|].
  vm_compute in E. injection E as <-. split; [vm_compute; reflexivity|lia].
Qed.
