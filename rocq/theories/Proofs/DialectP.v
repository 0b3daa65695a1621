(** Consistency of the dialect table, by computation over the 155 messages. *)
From Coq Require Import String Ascii List NArith ZArith Bool Lia.
From Verif.Model Require Import Py Dialect ProtocolMeta Struct.
From Verif.Spec Require Import Bytes Header.
From Verif.Proofs Require Import Base.
Import ListNotations.

Definition ctype_of (t : string) : option (nat * ascii) :=
  if String.eqb t "uint8_t" then Some (1, "B"%char) else if String.eqb t "int8_t" then Some (1, "b"%char) else
  if String.eqb t "uint16_t" then Some (2, "H"%char) else if String.eqb t "int16_t" then Some (2, "h"%char) else
  if String.eqb t "uint32_t" then Some (4, "I"%char) else if String.eqb t "int32_t" then Some (4, "i"%char) else
  if String.eqb t "uint64_t" then Some (8, "Q"%char) else if String.eqb t "int64_t" then Some (8, "q"%char) else
  if String.eqb t "float" then Some (4, "f"%char) else if String.eqb t "char" then Some (1, "s"%char) else None.

Lemma ctype_of_spec t n ch : ctype_of t = Some (n, ch) <-> ctype t n ch.
Proof.
  split; intros H.
  - unfold ctype_of in H.
    repeat match type of H with
    | context [String.eqb t ?x] => destruct (String.eqb_spec t x); [inv H; constructor|]
    end. discriminate.
  - inv H; reflexivity.
Qed.

Fixpoint type_sum_of (l : list string) : option nat :=
  match l with
  | [] => Some 0
  | t :: r => match ctype_of t, type_sum_of r with Some (n, _), Some m => Some (n + m) | _, _ => None end
  end.

Lemma type_sum_of_spec l n : type_sum_of l = Some n <-> type_sum l n.
Proof.
  revert n; induction l as [|t l]; intros n; simpl; split; intros H.
  - inv H; constructor.
  - inv H; auto.
  - destruct (ctype_of t) as [[k ch]|] eqn:E; [|discriminate]. destruct (type_sum_of l) as [m|]; [|discriminate].
    inv H. econstructor; [apply ctype_of_spec; eauto|apply IHl; auto].
  - inv H. apply ctype_of_spec in H2. rewrite H2. apply IHl in H4. rewrite H4. reflexivity.
Qed.

Lemma type_sum_fun l n m : type_sum l n -> type_sum l m -> n = m.
Proof. rewrite <- !type_sum_of_spec. congruence. Qed.

(** The whole-table facts, as one boolean. *)
Definition item_eqb (a b : nat * ascii) : bool := Nat.eqb (fst a) (fst b) && Ascii.eqb (snd a) (snd b).

Definition nat_list_eqb (a b : list nat) : bool := if list_eq_dec Nat.eq_dec a b then true else false.

(** [orders], [ordered], [fieldnames] agree; field [i] sits at wire position [nth i orders]. *)
Definition order_ok (c : msg_class) : bool :=
  forallb (fun i => Nat.ltb (nth i (mc_orders c) 0) (length (mc_fieldnames c))
                    && String.eqb (nth (nth i (mc_orders c) 0) (mc_ordered c) ""%string) (nth i (mc_fieldnames c) "?"%string))
    (seq 0 (length (mc_fieldnames c))).

(** struct items, array lengths and value counts agree with the field types. *)
Definition items_ok (c : msg_class) (items : list (nat * ascii)) : bool :=
  forallb (fun i =>
     let j := nth i (mc_orders c) 0 in
     let a := nth j (mc_array_lengths c) 0 in
     match ctype_of (nth i (mc_fieldtypes c) ""%string) with
     | Some (_, ch) => item_eqb (nth j items (0, " "%char)) (Nat.max 1 a, ch)
                       && Nat.eqb (nth j (mc_lengths c) 0) (if Ascii.eqb ch "s" then 1 else Nat.max 1 a)
     | None => false
     end) (seq 0 (length (mc_fieldnames c))).

Definition class_ok (c : msg_class) : bool :=
  let n := length (mc_fieldnames c) in
  N.eqb (mc_key c) (mc_id c) && N.ltb (mc_id c) 256
  && N.eqb (mc_pack_extra c) (mc_crc_extra c) && N.ltb (mc_crc_extra c) 256
  && String.eqb (mc_unpacker c) (mc_format c) && String.eqb (mc_pack_fmt c) (mc_format c)
  && Nat.eqb (length (mc_ordered c)) n && Nat.eqb (length (mc_fieldtypes c)) n && Nat.eqb (length (mc_orders c)) n
  && Nat.eqb (length (mc_lengths c)) n && Nat.eqb (length (mc_array_lengths c)) n
  && Nat.ltb 0 n
  && nodupb String.eqb (mc_fieldnames c) && nodupb Nat.eqb (mc_orders c) && order_ok c
  && match parse_fmt (mc_format c) with
     | Ok items => Nat.eqb (length items) n && items_ok c items && Nat.ltb (items_size items) 256
                   && match type_sum_of (mc_fieldtypes c), msg_len c with
                      | Some k, Ok k' => Nat.eqb k k' && Nat.leb k (items_size items) && Nat.ltb 0 k
                                         && Bool.eqb (Nat.eqb k (items_size items)) (forallb (Nat.eqb 0) (mc_array_lengths c))
                      | _, _ => false
                      end
     | Err _ => false
     end.

Lemma table_ok : forallb class_ok mavlink_classes = true.
Proof. vm_compute. reflexivity. Qed.

Lemma table_ids_nodup : NoDup (map mc_key mavlink_classes).
Proof. apply (nodupb_sound N.eqb Neqb_spec). vm_compute. reflexivity. Qed.

Record class_facts (c : msg_class) : Prop := CF {
  cf_key : mc_key c = mc_id c;
  cf_id : (mc_id c < 256)%N;
  cf_pextra : mc_pack_extra c = mc_crc_extra c;
  cf_extra : (mc_crc_extra c < 256)%N;
  cf_unpacker : mc_unpacker c = mc_format c;
  cf_packfmt : mc_pack_fmt c = mc_format c;
  cf_ordered : length (mc_ordered c) = length (mc_fieldnames c);
  cf_types : length (mc_fieldtypes c) = length (mc_fieldnames c);
  cf_orders : length (mc_orders c) = length (mc_fieldnames c);
  cf_lengths : length (mc_lengths c) = length (mc_fieldnames c);
  cf_alen : length (mc_array_lengths c) = length (mc_fieldnames c);
  cf_nonempty : 0 < length (mc_fieldnames c);
  cf_nodup : NoDup (mc_fieldnames c);
  cf_nodup_orders : NoDup (mc_orders c);
  cf_order_lt : forall i, i < length (mc_fieldnames c) -> nth i (mc_orders c) 0 < length (mc_fieldnames c);
  cf_order_name : forall i, i < length (mc_fieldnames c) ->
      nth (nth i (mc_orders c) 0) (mc_ordered c) ""%string = nth i (mc_fieldnames c) ""%string;
  cf_items : exists items k, parse_fmt (mc_format c) = Ok items /\ length items = length (mc_fieldnames c) /\
      items_size items < 256 /\ type_sum (mc_fieldtypes c) k /\ msg_len c = Ok k /\ k <= items_size items /\ 0 < k /\
      (k = items_size items <-> no_arrays c) /\
      forall i, i < length (mc_fieldnames c) ->
        exists sz ch, ctype (nth i (mc_fieldtypes c) ""%string) sz ch /\
          let j := nth i (mc_orders c) 0 in
          nth j items (0, " "%char) = (Nat.max 1 (nth j (mc_array_lengths c) 0), ch) /\
          nth j (mc_lengths c) 0 = if Ascii.eqb ch "s" then 1 else Nat.max 1 (nth j (mc_array_lengths c) 0)
}.

Lemma forallb_seq (f : nat -> bool) n : forallb f (seq 0 n) = true -> forall i, i < n -> f i = true.
Proof. intros H i Hi. rewrite forallb_forall in H. apply H, in_seq. lia. Qed.

Lemma class_ok_facts c : class_ok c = true -> class_facts c.
Proof.
  unfold class_ok. intros H.
  destruct (parse_fmt (mc_format c)) as [items|] eqn:EP; [|rewrite andb_false_r in H; discriminate].
  destruct (type_sum_of (mc_fieldtypes c)) as [k|] eqn:ET; [|rewrite !andb_false_r in H; discriminate].
  destruct (msg_len c) as [k'|] eqn:EM; [|rewrite !andb_false_r in H; discriminate].
  repeat rewrite andb_true_iff in H.
  decompose [and] H; clear H.
  repeat match goal with
  | H : N.eqb _ _ = true |- _ => apply N.eqb_eq in H
  | H : N.ltb _ _ = true |- _ => apply N.ltb_lt in H
  | H : String.eqb _ _ = true |- _ => apply String.eqb_eq in H
  | H : Nat.eqb _ _ = true |- _ => apply Nat.eqb_eq in H
  | H : Nat.ltb _ _ = true |- _ => apply Nat.ltb_lt in H
  | H : Nat.leb _ _ = true |- _ => apply Nat.leb_le in H
  | H : nodupb String.eqb _ = true |- _ => apply (nodupb_sound String.eqb streqb_spec) in H
  | H : nodupb Nat.eqb _ = true |- _ => apply (nodupb_sound Nat.eqb nateqb_spec) in H
  | H : Bool.eqb _ _ = true |- _ => apply Bool.eqb_prop in H
  end.
  match goal with H : order_ok c = true |- _ => pose proof (forallb_seq _ _ H) as HO; clear H end.
  match goal with H : items_ok c items = true |- _ => pose proof (forallb_seq _ _ H) as HI; clear H end.
  constructor; auto.
  - intros i Hi. specialize (HO i Hi). apply andb_true_iff in HO; destruct HO as [HO _]. apply Nat.ltb_lt; auto.
  - intros i Hi. specialize (HO i Hi). apply andb_true_iff in HO; destruct HO as [_ HO].
    apply String.eqb_eq in HO. rewrite HO. apply nth_indep; auto.
  - exists items, k. subst k'. repeat split; auto; try lia.
    + apply type_sum_of_spec; auto.
    + intros E. match goal with H : Nat.eqb _ _ = forallb _ _ |- _ => rename H into HB end.
      rewrite E, Nat.eqb_refl in HB. symmetry in HB. rewrite forallb_forall in HB. apply Forall_forall.
      intros x Hx. apply HB in Hx. apply Nat.eqb_eq in Hx; auto.
    + intros E. match goal with H : Nat.eqb _ _ = forallb _ _ |- _ => rename H into HB end.
      assert (F : forallb (Nat.eqb 0) (mc_array_lengths c) = true).
      { apply forallb_forall. intros x Hx. unfold no_arrays in E. rewrite Forall_forall in E. apply Nat.eqb_eq; symmetry; auto. }
      rewrite F in HB. apply Nat.eqb_eq; auto.
    + intros i Hi. specialize (HI i Hi). cbv beta zeta in HI.
      destruct (ctype_of (nth i (mc_fieldtypes c) ""%string)) as [[sz ch]|] eqn:EC; [|discriminate].
      exists sz, ch. split; [apply ctype_of_spec; auto|].
      apply andb_true_iff in HI. destruct HI as [HI1 HI2]. unfold item_eqb in HI1. apply andb_true_iff in HI1.
      destruct HI1 as [HI0 HI1]. apply Nat.eqb_eq in HI0, HI2. apply Ascii.eqb_eq in HI1. cbv zeta. split; auto.
      rewrite (surjective_pairing (nth _ items _)), HI0, HI1. reflexivity.
Qed.

Lemma class_facts_in c : In c mavlink_classes -> class_facts c.
Proof. intros H. apply class_ok_facts. pose proof table_ok as T. rewrite forallb_forall in T. auto. Qed.

Lemma get_class_spec i c : get_class i = Some c <-> is_msg i c.
Proof.
  unfold get_class, mavlink_map, is_msg. rewrite (dict_get_iff N.eqb Neqb_spec).
  - rewrite in_map_iff. split.
    + intros (c' & E & H). inv E. split; auto. symmetry; apply cf_key, class_facts_in; auto.
    + intros (H & E). exists c; split; auto. rewrite (cf_key _ (class_facts_in _ H)), E. reflexivity.
  - rewrite map_map. exact table_ids_nodup.
Qed.

Lemma is_msg_fun i c c' : is_msg i c -> is_msg i c' -> c = c'.
Proof. rewrite <- !get_class_spec. congruence. Qed.

Lemma msg_len_sum i c n : is_msg i c -> (msg_len c = Ok n <-> type_sum (mc_fieldtypes c) n).
Proof.
  intros [H _]. destruct (cf_items _ (class_facts_in _ H)) as (items & k & _ & _ & _ & T & E & _).
  rewrite E. split; intros H1; [inv H1; auto|]. f_equal. eapply type_sum_fun; eauto.
Qed.

Lemma payload_length_spec i n : payload_length i = Some n <-> plen i n.
Proof.
  unfold payload_length, msgs_payload_length, plen. rewrite (dict_get_iff N.eqb Neqb_spec).
  - rewrite in_map_iff. split.
    + intros (c & E & H). inv E. exists c.
      assert (I : is_msg (mc_key c) c) by (split; auto; symmetry; apply cf_key, class_facts_in; auto).
      split; auto.
      destruct (cf_items _ (class_facts_in _ H)) as (items & k & _ & _ & _ & T & E & _). rewrite E; auto.
    + intros (c & (H & E) & T). exists c; split; auto.
      assert (I : is_msg i c) by (split; auto).
      apply (msg_len_sum _ _ _ I) in T. rewrite T, (cf_key _ (class_facts_in _ H)), E. reflexivity.
  - rewrite map_map. exact table_ids_nodup.
Qed.

Lemma payload_length_none i : payload_length i = None <-> ~ exists n, plen i n.
Proof.
  split.
  - intros H (n & P). apply payload_length_spec in P. congruence.
  - intros H. destruct (payload_length i) eqn:E; auto. destruct H. exists n. apply payload_length_spec; auto.
Qed.

Lemma plen_fun i n m : plen i n -> plen i m -> n = m.
Proof. rewrite <- !payload_length_spec. congruence. Qed.

Lemma plen_bounds i n : plen i n -> (i < 256)%N /\ n < 256 /\ 0 < n.
Proof.
  intros (c & (H & E) & T). pose proof (class_facts_in _ H) as F. split; [rewrite <- E; apply cf_id; auto|].
  destruct (cf_items _ F) as (items & k & _ & _ & S & T' & _ & L & P & _).
  assert (n = k) by (eapply type_sum_fun; eauto). lia.
Qed.
