(** unpack_structure and unpack_values. *)
From Coq Require Import String Ascii List NArith ZArith Bool Lia ZifyBool ZifyNat ZifyN Arith.
From Verif.Model Require Import Py Float Dialect ProtocolMeta Struct Crc Mavlink Segmentation StatModels.
From Verif.Spec Require Import Bytes Bits Header Frame Segment Describe RealOps Stats.
From Verif.Proofs Require Import Base BitOpsP DialectP HeaderP HeaderMore StructP CrcP MavlinkP FieldsP PackP SegMore DescribeP StatP.
Import ListNotations.

(** Facts about the format strings, checked on the whole table. *)
Definition fmt_chars (c : msg_class) : list ascii := chars (String.substring 1 (String.length (mc_unpacker c) - 1) (mc_unpacker c)).
Definition char_bytes (a : ascii) : option nat :=
  match dict_get Ascii.eqb inv_format_strings a with Some ty => dict_get String.eqb field_lengths ty | None => None end.
Definition plainb (c : msg_class) : bool := forallb (Nat.eqb 0) (mc_array_lengths c).
Fixpoint known_prefix (l : list ascii) : option nat :=
  match l with
  | [] => None
  | a :: t => match char_bytes a with None => Some 0 | Some n => match known_prefix t with Some m => Some (n + m) | None => None end end
  end.

Lemma plain_table : forallb (fun c => negb (plainb c) ||
  (Nat.eqb (length (fmt_chars c)) (f_count c) &&
   forallb (fun j => match char_bytes (nth j (fmt_chars c) " "%char) with
                     | Some n => Nat.eqb n (f_width c (field_at_wire c j)) | None => false end) (seq 0 (f_count c)) &&
   negb (existsb (String.eqb "char") (mc_fieldtypes c))))%bool mavlink_classes = true.
Proof. vm_compute. reflexivity. Qed.

Lemma array_table : forallb (fun c => plainb c || match known_prefix (fmt_chars c) with Some n => Nat.leb n (wire_size c) | None => false end)%bool
  mavlink_classes = true.
Proof. vm_compute. reflexivity. Qed.

Lemma plainb_spec c : plainb c = true <-> no_arrays c.
Proof.
  unfold plainb, no_arrays. rewrite forallb_forall, Forall_forall. split; intros H x Hx; specialize (H x Hx).
  - apply Nat.eqb_eq in H; auto.
  - apply Nat.eqb_eq; auto.
Qed.

(** Slots *)
Fixpoint contiguous (f : nat) (xs : list slot) : Prop :=
  match xs with [] => True | x :: t => s_first x = f /\ contiguous (f + s_width x) t end.
Definition total (xs : list slot) : nat := list_sum (map s_width xs).

Definition bit_map (n : nat) (sl : list slot) (bits : list Z) : Prop :=
  length bits = 8 * n /\ forall p, p < 8 * n -> owner sl p (nth p bits 0%Z).

Lemma bit_in_dec x p : {bit_in x p} + {~ bit_in x p}.
Proof. unfold bit_in. destruct (le_lt_dec (8 * s_first x) p), (le_lt_dec (8 * (s_first x + s_width x)) p); [right|left|right|right]; lia. Qed.

Lemma owner_fun sl p q q' : owner sl p q -> owner sl p q' -> q = q'.
Proof.
  intros [[-> H]|(pre & x & post & E & -> & B & N)] [[-> H']|(pre' & x' & post' & E' & -> & B' & N')]; auto.
  - exfalso. apply (H x'); auto. rewrite E'. apply in_or_app; simpl; auto.
  - exfalso. apply (H' x); auto. rewrite E. apply in_or_app; simpl; auto.
  - f_equal. rewrite E in E'. clear E. revert pre' E'.
    induction pre as [|y pre IH]; intros [|y' pre'] E; simpl in *; auto.
    + injection E as -> ->. exfalso. apply (N x'); auto. apply in_or_app; simpl; auto.
    + injection E as -> <-. exfalso. apply (N' x); auto. apply in_or_app; simpl; auto.
    + injection E as _ E. f_equal; auto.
Qed.

Lemma owner_snoc sl x p q : owner (sl ++ [x]) p q <->
  (bit_in x p /\ q = Z.of_nat (length sl)) \/ (~ bit_in x p /\ owner sl p q).
Proof.
  split.
  - intros H. destruct (bit_in_dec x p) as [B|B].
    + left. split; auto. apply (owner_fun (sl ++ [x]) p); auto. right. exists sl, x, []. simpl; tauto.
    + right. split; auto. destruct H as [[-> H]|(pre & y & post & E & -> & By & N)].
      * left. split; auto. intros y Hy. apply H. apply in_or_app; auto.
      * right. destruct (exists_last (l := y :: post)) as (post' & z & Ez); [discriminate|].
        rewrite Ez, app_assoc in E. apply app_inj_tail in E. destruct E as [E ->].
        destruct post' as [|y' post'']; simpl in Ez; injection Ez as -> ->.
        -- contradiction.
        -- exists pre, y', post''. split; [auto|split; [auto|split; [auto|]]]. intros z0 Hz. apply N. apply in_or_app; auto.
  - intros [[B ->]|[B [[-> H]|(pre & y & post & -> & -> & By & N)]]].
    + right. exists sl, x, []. simpl; tauto.
    + left. split; auto. intros y Hy. apply in_app_or in Hy. simpl in Hy. destruct Hy as [Hy|[<-|[]]]; auto.
    + right. exists pre, y, (post ++ [x]). rewrite <- app_assoc. simpl. repeat split; auto; try apply By.
      intros z Hz. apply in_app_or in Hz. simpl in Hz. destruct Hz as [Hz|[<-|[]]]; auto.
Qed.

Lemma bit_map_fun n sl b b' : bit_map n sl b -> bit_map n sl b' -> b = b'.
Proof.
  intros [L H] [L' H']. apply nth_ext_eq with (d := 0%Z); [congruence|]. rewrite L. intros i Hi. eapply owner_fun; eauto.
Qed.

Lemma bit_map_nil n : bit_map n [] (repeat (-1)%Z (n * 8)).
Proof.
  split; [rewrite repeat_length; lia|]. intros p Hp. left. split; [|simpl; tauto].
  rewrite nth_indep with (d' := (-1)%Z) by (rewrite repeat_length; lia). apply nth_repeat.
Qed.

Lemma assign_ok n sl bits x : bit_map n sl bits -> s_first x + s_width x <= n ->
  exists bits', assign_slice bits (8 * s_first x) (8 * s_first x + s_width x * 8) (Z.of_nat (length sl)) = Ok bits' /\ bit_map n (sl ++ [x]) bits'.
Proof.
  intros [L H] W. unfold assign_slice. rewrite L. destruct (Nat.leb_spec (8 * s_first x + s_width x * 8) (8 * n)); [|lia].
  eexists. split; [reflexivity|]. split; [rewrite length_fill; auto|]. intros p Hp. apply owner_snoc. rewrite nth_fill, L.
  destruct (bit_in_dec x p) as [B|B]; unfold bit_in in B.
  - left. split; auto.
    replace (Nat.leb (8 * s_first x) p && Nat.ltb p (8 * s_first x + s_width x * 8) && Nat.ltb p (8 * n))%bool with true by lia. auto.
  - right. split; auto.
    replace (Nat.leb (8 * s_first x) p && Nat.ltb p (8 * s_first x + s_width x * 8) && Nat.ltb p (8 * n))%bool with false by lia. auto.
Qed.

Lemma assign_err bits i j v : length bits < j -> assign_slice bits i j v = Err ValueError.
Proof. intros H. unfold assign_slice. destruct (Nat.leb_spec j (length bits)); [lia|auto]. Qed.

Lemma char_bits_eq {A} a (k : nat -> res A) :
  (do! len <- match dict_get Ascii.eqb inv_format_strings a with
              | Some ty => match dict_get String.eqb field_lengths ty with Some n => Ok (n * 8) | None => Err TypeError end
              | None => Err TypeError end in k len) =
  match char_bytes a with Some n => k (n * 8) | None => Err TypeError end.
Proof. unfold char_bytes. destruct (dict_get Ascii.eqb inv_format_strings a) as [ty|]; auto. destruct (dict_get String.eqb field_lengths ty); auto. Qed.

Lemma map_fields_ok n cs : forall xs sl bits f, Forall2 (fun a x => char_bytes a = Some (s_width x)) cs xs -> contiguous f xs ->
  f + total xs <= n -> bit_map n sl bits ->
  exists bits', map_fields cs (bits, length sl, 8 * f) = Ok (bits', length (sl ++ xs), 8 * (f + total xs)) /\ bit_map n (sl ++ xs) bits'.
Proof.
  induction cs as [|a cs IH]; intros xs sl bits f F2 C T B; inversion F2 as [|? x ? xs' E F2']; subst.
  - exists bits. cbn [map_fields]. rewrite app_nil_r. unfold total; simpl. split; auto. f_equal. f_equal. lia.
  - destruct C as [E1 C]. unfold total in *. cbn [map] in T. rewrite list_sum_cons in T.
    cbn [map_fields]. rewrite char_bits_eq, E.
    destruct (assign_ok n sl bits x B ltac:(lia)) as (bits1 & A & B1). rewrite E1 in A. rewrite A. cbn [bind].
    destruct (IH xs' (sl ++ [x]) bits1 (f + s_width x) F2' C ltac:(lia) B1) as (bits2 & M & B2).
    exists bits2. rewrite <- app_assoc in M, B2. cbn [app] in *. rewrite app_length in M. cbn [length] in M. cbn [map]. rewrite list_sum_cons.
    replace (S (length sl)) with (length sl + 1) by lia. replace (8 * f + s_width x * 8) with (8 * (f + s_width x)) by lia.
    rewrite M. split; auto. f_equal. f_equal. lia.
Qed.

Lemma map_fields_short n cs : forall xs bits fi f, Forall2 (fun a x => char_bytes a = Some (s_width x)) cs xs ->
  f + total xs > n -> length bits = 8 * n -> cs <> [] -> f <= n ->
  map_fields cs (bits, fi, 8 * f) = Err ValueError.
Proof.
  induction cs as [|a cs IH]; intros xs bits fi f F2 T L NE Fn; [contradiction|]. inversion F2 as [|? x ? xs' E F2']; subst.
  unfold total in *. cbn [map] in T. rewrite list_sum_cons in T. cbn [map_fields]. rewrite char_bits_eq, E.
  destruct (Nat.le_gt_cases (f + s_width x) n).
  - unfold assign_slice. destruct (Nat.leb_spec (8 * f + s_width x * 8) (length bits)); [|lia]. cbn [bind].
    replace (8 * f + s_width x * 8) with (8 * (f + s_width x)) by lia. apply IH with (xs := xs'); auto; try lia.
    + rewrite length_fill. auto.
    + intros ->. inversion F2'; subst. simpl in T. lia.
  - rewrite assign_err by lia. reflexivity.
Qed.

Lemma map_fields_unknown n cs : forall bits fi f m, known_prefix cs = Some m -> length bits = 8 * n -> f <= n ->
  (f + m <= n -> map_fields cs (bits, fi, 8 * f) = Err TypeError) /\
  (exists e, map_fields cs (bits, fi, 8 * f) = Err e).
Proof.
  induction cs as [|a cs IH]; intros bits fi f m K L Fn; [discriminate|]. cbn [known_prefix] in K. cbn [map_fields].
  rewrite char_bits_eq. destruct (char_bytes a) as [w|]; [|split; eauto].
  destruct (known_prefix cs) as [m'|] eqn:K'; [|discriminate]. injection K as <-.
  unfold assign_slice. destruct (Nat.leb_spec (8 * f + w * 8) (length bits)).
  - cbn [bind]. replace (8 * f + w * 8) with (8 * (f + w)) by lia.
    destruct (IH (fill bits (8 * f) (8 * (f + w)) (Z.of_nat fi)) (S fi) (f + w) m' eq_refl) as [A B]; [rewrite length_fill; auto|lia|].
    split; auto. intros H1. apply A. lia.
  - cbn [bind]. split; [intros; lia|eauto].
Qed.

Lemma map_header_ok n xs : forall sl bits f, Forall (fun x => s_width x = 1) xs -> contiguous f xs ->
  f + length xs <= n -> bit_map n sl bits ->
  exists bits', map_header (length xs) (bits, length sl, 8 * f) = Ok (bits', length (sl ++ xs), 8 * (f + length xs)) /\ bit_map n (sl ++ xs) bits'.
Proof.
  induction xs as [|x xs IH]; intros sl bits f W C T B.
  - exists bits. cbn [map_header length]. rewrite app_nil_r. split; auto. f_equal. f_equal. lia.
  - inversion W as [|? ? W1 W2]; subst. destruct C as [E1 C]. cbn [length] in T. cbn [length map_header].
    destruct (assign_ok n sl bits x B ltac:(lia)) as (bits1 & A & B1). rewrite E1, W1 in A. change (1 * 8) with 8 in A. rewrite A. cbn [bind].
    rewrite W1 in C.
    destruct (IH (sl ++ [x]) bits1 (f + 1) W2 C ltac:(lia) B1) as (bits2 & M & B2).
    exists bits2. rewrite <- app_assoc in M, B2. cbn [app] in *. rewrite app_length in M. cbn [length] in M.
    replace (S (length sl)) with (length sl + 1) by lia. replace (8 * f + 8) with (8 * (f + 1)) by lia. rewrite M. split; auto.
    f_equal. f_equal. lia.
Qed.

Lemma map_header_short n m : forall bits fi f, f + m > n -> length bits = 8 * n -> f <= n ->
  map_header m (bits, fi, 8 * f) = Err ValueError.
Proof.
  induction m; intros bits fi f T L Fn; [lia|]. cbn [map_header]. destruct (Nat.le_gt_cases (f + 1) n).
  - unfold assign_slice. destruct (Nat.leb_spec (8 * f + 8) (length bits)); [|lia]. cbn [bind].
    replace (8 * f + 8) with (8 * (f + 1)) by lia. apply IHm; rewrite ?length_fill; auto; lia.
  - rewrite assign_err by lia. reflexivity.
Qed.

Lemma map_header_far n m bits fi f : 0 < m -> length bits = 8 * n -> n < f -> map_header m (bits, fi, 8 * f) = Err ValueError.
Proof. intros Hm L H. destruct m; [lia|]. cbn [map_header]. rewrite assign_err by lia. reflexivity. Qed.

Lemma map_header_err n m bits fi f : 0 < m -> f + m > n -> length bits = 8 * n -> map_header m (bits, fi, 8 * f) = Err ValueError.
Proof. intros. destruct (Nat.le_gt_cases f n); [apply map_header_short with n; auto|apply map_header_far with n; auto]. Qed.

(** The slots of a message. *)
Definition head_slots (k : nat) (c : msg_class) : list slot :=
  [Slot "magic" "uint8_t" k 1; Slot (mc_name c ++ "_mlen") "uint8_t" (k + 1) 1; Slot "seq" "uint8_t" (k + 2) 1;
   Slot "srcSystem" "uint8_t" (k + 3) 1; Slot (mc_name c ++ "_srcComponent") "uint8_t" (k + 4) 1;
   Slot (mc_name c ++ "_msgId") "uint8_t" (k + 5) 1].
Definition body_slots (k : nat) (c : msg_class) : list slot :=
  map (fun j => let i := field_at_wire c j in Slot (full_name c i) (f_type c i) (k + 6 + f_offset c i) (f_width c i)) (seq 0 (f_count c)).
Lemma msg_slots_split k c : msg_slots k c = head_slots k c ++ body_slots k c.
Proof. reflexivity. Qed.

Lemma wire_offset c items j : In c mavlink_classes -> wire_facts c items -> j < f_count c ->
  f_offset c (field_at_wire c j) = items_size (firstn j items) /\ f_width c (field_at_wire c j) = item_size (nth j items (0, " "%char)).
Proof.
  intros H W Hj. destruct (field_at_wire_spec c j H Hj) as [Hi Ei].
  rewrite <- (wf_offset _ _ W _ Hi), <- (wf_isize _ _ W _ Hi), Ei. auto.
Qed.

Lemma items_size_S items j : j < length items ->
  items_size (firstn (S j) items) = items_size (firstn j items) + item_size (nth j items (0, " "%char)).
Proof.
  unfold items_size. revert j; induction items as [|it items IH]; intros j Hj; [simpl in Hj; lia|].
  destruct j; cbn [firstn map nth].
  - rewrite list_sum_cons. simpl. lia.
  - rewrite !list_sum_cons. cbn [length] in Hj. rewrite <- Nat.add_assoc. f_equal. rewrite <- IH by lia. reflexivity.
Qed.

Lemma body_contiguous_from k c items : In c mavlink_classes -> wire_facts c items -> forall m j, j + m = f_count c ->
  contiguous (k + 6 + items_size (firstn j items))
    (map (fun j => let i := field_at_wire c j in Slot (full_name c i) (f_type c i) (k + 6 + f_offset c i) (f_width c i)) (seq j m)) /\
  items_size (firstn j items) +
  total (map (fun j => let i := field_at_wire c j in Slot (full_name c i) (f_type c i) (k + 6 + f_offset c i) (f_width c i)) (seq j m)) = wire_size c.
Proof.
  intros H W. induction m; intros j E.
  - cbn [seq map contiguous]. split; auto. unfold total. simpl. rewrite Nat.add_0_r.
    replace j with (length items) by (rewrite (wf_len _ _ W); lia). rewrite firstn_all. apply (wf_size _ _ W).
  - cbn [seq map contiguous]. cbv zeta. cbn [s_first s_width]. destruct (wire_offset c items j H W ltac:(lia)) as [E1 E2].
    destruct (IHm (S j) ltac:(lia)) as [C T]. rewrite items_size_S in C, T by (rewrite (wf_len _ _ W); lia). rewrite <- E2 in C, T.
    split; [split; [lia|]|].
    + rewrite <- Nat.add_assoc. exact C.
    + unfold total in *. cbn [map]. rewrite list_sum_cons. cbn [s_width]. rewrite Nat.add_assoc. exact T.
Qed.

Lemma body_contiguous k c : In c mavlink_classes -> contiguous (k + 6) (body_slots k c) /\ total (body_slots k c) = wire_size c.
Proof.
  intros H. destruct (wire_facts_in c H) as (items & W). destruct (body_contiguous_from k c items H W (f_count c) 0 eq_refl) as [A B].
  cbn [firstn] in A, B. change (items_size []) with 0 in *. rewrite Nat.add_0_r in A. auto.
Qed.

Lemma Forall2_nth {A B} (P : A -> B -> Prop) l l' da db : length l = length l' ->
  (forall i, i < length l -> P (nth i l da) (nth i l' db)) -> Forall2 P l l'.
Proof.
  revert l'; induction l as [|a l IH]; intros [|b l'] L H; try discriminate; constructor.
  - apply (H 0). simpl; lia.
  - apply IH; [simpl in L; lia|]. intros i Hi. apply (H (S i)). simpl; lia.
Qed.

Lemma body_chars k c : In c mavlink_classes -> no_arrays c ->
  Forall2 (fun a x => char_bytes a = Some (s_width x)) (fmt_chars c) (body_slots k c) /\ fmt_chars c <> [] /\
  Forall (fun ty => ty <> "char"%string) (mc_fieldtypes c).
Proof.
  intros H NA. pose proof plain_table as T. rewrite forallb_forall in T. specialize (T c H).
  apply plainb_spec in NA. rewrite NA in T. cbn [negb orb] in T. rewrite !andb_true_iff in T. destruct T as [[T1 T2] T3].
  apply Nat.eqb_eq in T1. split; [|split].
  - apply Forall2_nth with (da := " "%char) (db := Slot "" "" 0 0).
    { unfold body_slots. rewrite map_length, seq_length. auto. }
    rewrite T1. intros i Hi. rewrite forallb_forall in T2. assert (Ii : In i (seq 0 (f_count c))) by (apply in_seq; lia). specialize (T2 i Ii).
    destruct (char_bytes (nth i (fmt_chars c) " "%char)) as [w|]; [|discriminate]. apply Nat.eqb_eq in T2. f_equal.
    unfold body_slots. rewrite nth_map_lt with (d' := 0) by (rewrite seq_length; auto). rewrite seq_nth by auto. exact T2.
  - intros E. rewrite E in T1. pose proof (cf_nonempty _ (class_facts_in _ H)). unfold f_count in T1. simpl in T1. lia.
  - apply negb_true_iff in T3. apply Forall_forall. intros ty Hty ->. 
    assert (X : existsb (String.eqb "char") (mc_fieldtypes c) = true) by (apply existsb_exists; exists "char"%string; split; auto). congruence.
Qed.

Lemma array_chars c : In c mavlink_classes -> ~ no_arrays c -> exists m, known_prefix (fmt_chars c) = Some m /\ m <= wire_size c.
Proof.
  intros H NA. pose proof array_table as T. rewrite forallb_forall in T. specialize (T c H). cbv beta in T.
  destruct (plainb c) eqn:P; [apply plainb_spec in P; contradiction|]. cbn [orb] in T.
  destruct (known_prefix (fmt_chars c)) as [m|]; [|discriminate]. exists m. split; auto. apply Nat.leb_le; auto.
Qed.

Lemma wire_types c : In c mavlink_classes ->
  map_res (fun n => do! i <- str_index (mc_fieldnames c) n in index (mc_fieldtypes c) i) (mc_ordered c) =
    Ok (map (fun j => f_type c (field_at_wire c j)) (seq 0 (f_count c))) /\
  map (fun n => (mc_name c ++ "_" ++ n)%string) (mc_ordered c) = map (fun j => full_name c (field_at_wire c j)) (seq 0 (f_count c)).
Proof.
  intros H. pose proof (class_facts_in _ H) as F.
  assert (E : mc_ordered c = map (fun j => nth (field_at_wire c j) (mc_fieldnames c) ""%string) (seq 0 (f_count c))).
  { apply nth_ext_eq with (d := ""%string).
    - rewrite map_length, seq_length. apply (cf_ordered _ F).
    - rewrite (cf_ordered _ F). intros j Hj. rewrite nth_map_lt with (d' := 0) by (rewrite seq_length; auto). rewrite seq_nth by auto.
      destruct (field_at_wire_spec c j H Hj) as [Hi Ei]. simpl Nat.add. rewrite <- Ei at 1. apply (cf_order_name _ F). exact Hi. }
  split.
  - rewrite E. assert (G : forall l, (forall j, In j l -> j < f_count c) ->
      map_res (fun n => do! i <- str_index (mc_fieldnames c) n in index (mc_fieldtypes c) i)
         (map (fun j => nth (field_at_wire c j) (mc_fieldnames c) ""%string) l) = Ok (map (fun j => f_type c (field_at_wire c j)) l)).
    { induction l as [|j l IH]; intros Hl; [reflexivity|]. cbn [map map_res].
      destruct (field_at_wire_spec c j H (Hl j ltac:(simpl; auto))) as [Hi _].
      rewrite str_index_nth by (auto; apply (cf_nodup _ F)). cbn [bind].
      rewrite index_ok with (d := ""%string) by (rewrite (cf_types _ F); exact Hi). cbn [bind].
      rewrite IH by (intros; apply Hl; simpl; auto). reflexivity. }
    apply G. intros j Hj. apply in_seq in Hj. lia.
  - rewrite E, map_map. reflexivity.
Qed.

Lemma map_class_ok i c : is_msg i c -> map_class i = Ok c.
Proof. intros H. unfold map_class. apply get_class_spec in H. rewrite H. reflexivity. Qed.
Lemma map_class_err i : ~ (exists c, is_msg i c) -> map_class i = Err KeyError.
Proof. intros H. unfold map_class. destruct (get_class i) as [c|] eqn:E; auto. exfalso. apply H. exists c. apply get_class_spec; auto. Qed.

(** One message. *)
Lemma step_names k i c bw bits sl fi : is_msg i c ->
  unpack_step bw (bits, map s_name sl, map s_type sl, fi) (k, i) =
  if bw then
    do! st <- map_header 6 (bits, fi, 8 * k) in
    do! st <- map_fields (fmt_chars c) (fst st, 8 * (k + 6)) in
    Ok (fst (fst st), map s_name (sl ++ msg_slots k c), map s_type (sl ++ msg_slots k c), snd (fst st))
  else Ok (bits, map s_name (sl ++ msg_slots k c), map s_type (sl ++ msg_slots k c), fi).
Proof.
  intros M. pose proof M as [H _]. unfold unpack_step. rewrite (map_class_ok i c M). cbn [bind].
  destruct (wire_types c H) as [T N]. rewrite T, N. cbn [bind].
  rewrite !map_app. unfold msg_slots. rewrite !map_app, !map_map. cbn [map s_name s_type]. rewrite <- !app_assoc. 
  replace (k * 8) with (8 * k) by lia. replace ((k + header_len) * 8) with (8 * (k + 6)) by (unfold header_len; lia).
  change header_len with 6. reflexivity.
Qed.

Lemma step_ok n k i c bits sl : is_msg i c -> no_arrays c -> k + 6 + wire_size c <= n -> bit_map n sl bits ->
  exists bits', unpack_step true (bits, map s_name sl, map s_type sl, length sl) (k, i) =
    Ok (bits', map s_name (sl ++ msg_slots k c), map s_type (sl ++ msg_slots k c), length (sl ++ msg_slots k c)) /\ bit_map n (sl ++ msg_slots k c) bits'.
Proof.
  intros M NA W B. pose proof M as [H _]. rewrite (step_names k i c true bits sl _ M). cbv iota.
  destruct (map_header_ok n (head_slots k c) sl bits k) as (b1 & M1 & B1); auto.
  { repeat constructor. }
  { cbn. repeat split; lia. }
  { cbn; lia. }
  change (length (head_slots k c)) with 6 in M1. rewrite M1. cbn [bind fst snd].
  destruct (body_contiguous k c H) as [C T]. destruct (body_chars k c H NA) as (F2 & _ & _).
  destruct (map_fields_ok n (fmt_chars c) (body_slots k c) (sl ++ head_slots k c) b1 (k + 6) F2 C ltac:(lia) B1) as (b2 & M2 & B2).
  rewrite M2. cbn [bind fst snd]. exists b2. rewrite msg_slots_split. rewrite <- app_assoc in *. auto.
Qed.

Lemma step_err n k i bits sl : bit_map n sl bits -> ~ plain_in n (k, i) ->
  (~ (exists c, is_msg i c) -> unpack_step true (bits, map s_name sl, map s_type sl, length sl) (k, i) = Err KeyError) /\
  (forall c, is_msg i c -> no_arrays c -> unpack_step true (bits, map s_name sl, map s_type sl, length sl) (k, i) = Err ValueError) /\
  (forall c, is_msg i c -> ~ no_arrays c -> k + 6 + wire_size c <= n ->
     unpack_step true (bits, map s_name sl, map s_type sl, length sl) (k, i) = Err TypeError) /\
  (exists e, unpack_step true (bits, map s_name sl, map s_type sl, length sl) (k, i) = Err e).
Proof.
  intros B NP.
  assert (X1 : ~ (exists c, is_msg i c) -> unpack_step true (bits, map s_name sl, map s_type sl, length sl) (k, i) = Err KeyError).
  { intros U. unfold unpack_step. rewrite map_class_err by auto. reflexivity. }
  assert (X2 : forall c, is_msg i c -> no_arrays c -> unpack_step true (bits, map s_name sl, map s_type sl, length sl) (k, i) = Err ValueError).
  { intros c M NA. pose proof M as [H _]. rewrite (step_names k i c true bits sl _ M). cbv iota.
    assert (Big : n < k + 6 + wire_size c).
    { destruct (Nat.le_gt_cases (k + 6 + wire_size c) n); auto. exfalso. apply NP. exists c. auto. }
    destruct (Nat.le_gt_cases (k + 6) n) as [K|K].
    - destruct (map_header_ok n (head_slots k c) sl bits k) as (b1 & M1 & B1); auto.
      { repeat constructor. } { cbn. repeat split; lia. }
      change (length (head_slots k c)) with 6 in M1. rewrite M1. cbn [bind fst snd].
      destruct (body_contiguous k c H) as [C T]. destruct (body_chars k c H NA) as (F2 & NE & _).
      rewrite (map_fields_short n (fmt_chars c) (body_slots k c)); auto; try lia. apply B1.
    - rewrite map_header_err with (n := n); auto; try lia. apply B. }
  assert (X3 : forall c, is_msg i c -> ~ no_arrays c ->
     (k + 6 + wire_size c <= n -> unpack_step true (bits, map s_name sl, map s_type sl, length sl) (k, i) = Err TypeError) /\
     (exists e, unpack_step true (bits, map s_name sl, map s_type sl, length sl) (k, i) = Err e)).
  { intros c M NA. pose proof M as [H _]. rewrite (step_names k i c true bits sl _ M). cbv iota.
    destruct (array_chars c H NA) as (m & K & Lm).
    destruct (Nat.le_gt_cases (k + 6) n) as [K6|K6].
    - destruct (map_header_ok n (head_slots k c) sl bits k) as (b1 & M1 & B1); auto.
      { repeat constructor. } { cbn. repeat split; lia. }
      change (length (head_slots k c)) with 6 in M1. rewrite M1. cbn [bind fst snd].
      destruct (map_fields_unknown n (fmt_chars c) b1 (length (sl ++ head_slots k c)) (k + 6) m K ltac:(apply B1) ltac:(lia)) as [A (e & E)].
      split.
      + intros W. rewrite A by lia. reflexivity.
      + rewrite E. cbn [bind]. eauto.
    - rewrite map_header_err with (n := n); auto; try lia; [|apply B]. split; [intros; lia|]. cbn [bind]; eauto. }
  split; auto. split; auto. split; [intros c M NA W; apply (X3 c); auto|].
  destruct (is_msg_dec i) as [(c & M)|U]; [|eauto].
  destruct (plainb c) eqn:P.
  - apply plainb_spec in P. eauto.
  - apply (X3 c M). intros NA. apply plainb_spec in NA. congruence.
Qed.

Lemma plain_in_dec n ki : plain_in n ki \/ ~ plain_in n ki.
Proof.
  destruct (is_msg_dec (snd ki)) as [(c & M)|U].
  - destruct (plainb c) eqn:P.
    + apply plainb_spec in P. destruct (le_lt_dec (fst ki + 6 + wire_size c) n).
      * left. exists c; auto.
      * right. intros (c' & M' & _ & W). rewrite (is_msg_fun _ _ _ M' M) in W. lia.
    + right. intros (c' & M' & NA & _). rewrite (is_msg_fun _ _ _ M' M) in NA. apply plainb_spec in NA. congruence.
  - right. intros (c & M & _). eauto.
Qed.

Lemma layout_app s1 s2 sl : layout (s1 ++ s2) sl <-> exists sl1 sl2, sl = sl1 ++ sl2 /\ layout s1 sl1 /\ layout s2 sl2.
Proof.
  revert sl; induction s1 as [|[k i] s1 IH]; intros sl; cbn [app].
  - split; [intros H; exists [], sl; repeat split; auto; constructor|]. intros (sl1 & sl2 & -> & H1 & H2). inversion H1; subst. auto.
  - split.
    + intros H. inversion H as [|? ? c ? sl' M H6]; subst. apply IH in H6. destruct H6 as (a & b & -> & Ha & Hb).
      exists (msg_slots k c ++ a), b. rewrite app_assoc. repeat split; auto. constructor; auto.
    + intros (sl1 & sl2 & -> & H1 & H2). inversion H1; subst. rewrite <- app_assoc. constructor; auto. apply IH. eauto.
Qed.

Lemma layout_fun s sl sl' : layout s sl -> layout s sl' -> sl = sl'.
Proof.
  intros H; revert sl'. induction H as [|k i c s sl M H IH]; intros sl' H'; inversion H' as [|? ? c' ? sl'' M' H'']; subst; auto.
  rewrite (is_msg_fun _ _ _ M' M). f_equal. auto.
Qed.

Lemma layout_exists n s : Forall (plain_in n) s -> exists sl, layout s sl.
Proof.
  induction 1 as [|[k i] s (c & M & _) _ (sl & IH)]; [exists []; constructor|]. exists (msg_slots k c ++ sl). constructor; auto.
Qed.

Lemma fold_ok n s : Forall (plain_in n) s -> forall sl sl0 bits, layout s sl -> bit_map n sl0 bits ->
  exists bits', fold_res (unpack_step true) s (bits, map s_name sl0, map s_type sl0, length sl0) =
    Ok (bits', map s_name (sl0 ++ sl), map s_type (sl0 ++ sl), length (sl0 ++ sl)) /\ bit_map n (sl0 ++ sl) bits'.
Proof.
  induction 1 as [|[k i] s (c & M & NA & W) Hs IH]; intros sl sl0 bits L B; inversion L as [|? ? c0 ? sl1 M0 L1]; subst.
  - exists bits. rewrite app_nil_r. auto.
  - cbn [fold_res]. cbn [fst snd] in *. assert (c0 = c) by (eapply is_msg_fun; eauto). subst c0.
    destruct (step_ok n k i c bits sl0 M NA W B) as (b1 & -> & B1). cbn [bind].
    destruct (IH sl1 _ b1 L1 B1) as (b2 & E & B2). rewrite <- app_assoc in *. exists b2. auto.
Qed.

Lemma structure_ok n s sl : Forall (plain_in n) s -> layout s sl ->
  exists bits, unpack_structure true n s = Ok (bits, map s_name sl, map s_type sl) /\ bit_map n sl bits.
Proof.
  intros P L. destruct (fold_ok n s P sl [] _ L (bit_map_nil n)) as (b & E & B). cbn [app map length] in E.
  unfold unpack_structure. rewrite E. exists b. auto.
Qed.

Lemma structure_first_err n s1 k i s2 : Forall (plain_in n) s1 -> ~ plain_in n (k, i) ->
  (~ (exists c, is_msg i c) -> unpack_structure true n (s1 ++ (k, i) :: s2) = Err KeyError) /\
  (forall c, is_msg i c -> no_arrays c -> unpack_structure true n (s1 ++ (k, i) :: s2) = Err ValueError) /\
  (forall c, is_msg i c -> ~ no_arrays c -> k + 6 + wire_size c <= n -> unpack_structure true n (s1 ++ (k, i) :: s2) = Err TypeError) /\
  (exists e, unpack_structure true n (s1 ++ (k, i) :: s2) = Err e).
Proof.
  intros P NP. destruct (layout_exists n s1 P) as (sl & L).
  destruct (fold_ok n s1 P sl [] _ L (bit_map_nil n)) as (b & E & B). cbn [app map length] in E, B.
  unfold unpack_structure. rewrite fold_res_app, E. cbn [bind fold_res].
  destruct (step_err n k i b sl B NP) as (A1 & A2 & A3 & (e & A4)).
  split; [intros U; rewrite A1 by auto; reflexivity|].
  split; [intros c M NA; rewrite (A2 c) by auto; reflexivity|].
  split; [intros c M NA W; rewrite (A3 c) by auto; reflexivity|].
  exists e. rewrite A4. reflexivity.
Qed.

Lemma Forall_or_first {A} (P : A -> Prop) (dec : forall x, P x \/ ~ P x) l :
  Forall P l \/ exists a x b, l = a ++ x :: b /\ Forall P a /\ ~ P x.
Proof.
  induction l as [|x l IH]; [auto|]. destruct (dec x) as [H|H].
  - destruct IH as [IH|(a & y & b & -> & Ha & Hy)]; [left; auto|]. right. exists (x :: a), y, b. auto.
  - right. exists [], x, l. auto.
Qed.

Lemma structure_iff n s r : unpack_structure true n s = Ok r <->
  Forall (plain_in n) s /\ exists sl, layout s sl /\ bit_map n sl (fst (fst r)) /\ snd (fst r) = map s_name sl /\ snd r = map s_type sl.
Proof.
  split.
  - intros H. destruct (Forall_or_first (plain_in n) (plain_in_dec n) s) as [P|(a & [k i] & b & -> & Pa & NP)].
    + split; auto. destruct (layout_exists n s P) as (sl & L). exists sl. destruct (structure_ok n s sl P L) as (bits & E & B).
      rewrite E in H. injection H as <-. auto.
    + destruct (structure_first_err n a k i b Pa NP) as (_ & _ & _ & (e & E)). congruence.
  - intros (P & sl & L & B & N & T). destruct (structure_ok n s sl P L) as (bits & E & B'). rewrite E.
    destruct r as [[b nm] ty]. cbn [fst snd] in *. rewrite (bit_map_fun _ _ _ _ B' B). congruence.
Qed.

(** Without bit map. *)
Lemma fold_names s : forall sl sl0 fi, layout s sl ->
  fold_res (unpack_step false) s ([], map s_name sl0, map s_type sl0, fi) = Ok ([], map s_name (sl0 ++ sl), map s_type (sl0 ++ sl), fi).
Proof.
  induction s as [|[k i] s IH]; intros sl sl0 fi L; inversion L as [|? ? c ? sl1 M L1]; subst; cbn [fold_res].
  - rewrite app_nil_r. auto.
  - rewrite (step_names k i c false [] sl0 fi M). cbv iota. cbn [bind]. rewrite IH with (sl := sl1); auto. rewrite <- app_assoc. auto.
Qed.

Lemma names_ok n s sl : layout s sl -> unpack_structure false n s = Ok ([], map s_name sl, map s_type sl).
Proof. intros L. unfold unpack_structure. pose proof (fold_names s sl [] 0 L) as H. cbn [map app] in H. rewrite H. reflexivity. Qed.

Lemma names_err n s : ~ (exists sl, layout s sl) -> unpack_structure false n s = Err KeyError.
Proof.
  intros H. destruct (Forall_or_first (fun ki : nat * N => exists c, is_msg (snd ki) c) (fun ki => is_msg_dec (snd ki)) s) as [P|(a & [k i] & b & -> & Pa & NP)].
  - exfalso. apply H. induction P as [|[k i] s (c & M) P IH]; [exists []; constructor|].
    destruct IH as (sl & L); [|exists (msg_slots k c ++ sl); constructor; auto].
    intros (sl & L). apply H. exists (msg_slots k c ++ sl). constructor; auto.
  - assert (La : exists sl, layout a sl).
    { clear -Pa. induction Pa as [|[k i] s (c & M) P (sl & IH)]; [exists []; constructor|]. exists (msg_slots k c ++ sl); constructor; auto. }
    destruct La as (sl & La). unfold unpack_structure. rewrite fold_res_app.
    pose proof (fold_names a sl [] 0 La) as E. cbn [map app] in E. rewrite E. cbn [bind fold_res]. unfold unpack_step at 1.
    rewrite map_class_err by auto. reflexivity.
Qed.
