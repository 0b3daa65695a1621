(** C77: message objects: comparison, to_dict, forwarding. *)
From Coq Require Import String Ascii List NArith ZArith Arith Bool Lia.
From Verif.Model Require Import Py Dialect ProtocolMeta Struct Crc Mavlink Message.
From Verif.Spec Require Import Bytes Bits Header CrcSpec Frame ApiSpec MessageSpec.
From Verif.Proofs Require Import Base DialectP StructP MavlinkP FieldsP PackP MavlinkMore SendP ApiP MessageP.
From Verif.Props Require Import MavlinkProps.
Import ListNotations.
Local Open Scope list_scope.
Local Notation length := List.length.

(** C77.  a == b: same kind of message, same sequence number, system and component, and fields that show the same. *)
Theorem c77_eq : forall text a b, proper a -> proper b ->
  exists r, message_eq text a (Some b) = Ok r /\ message_ne text a (Some b) = Ok (negb r) /\ (r = true <-> same_message text a b).
Proof.
  intros text a b Pa Pb. destruct (message_eq_spec text a b Pa Pb) as (r & E & S). exists r. unfold message_ne. rewrite E. cbn [bind]. auto.
Qed.
Print Assumptions c77_eq.

Theorem c77_none : forall text a, message_eq text a None = Ok false /\ message_ne text a None = Ok true.
Proof. intros. split; reflexivity. Qed.
Print Assumptions c77_none.

(** A message that was not sent yet equals one that was received only if this has number 0 from system 0, component 0. *)
Theorem c77_new : forall text c fs b r, proper (obj_new c fs) -> proper b -> message_eq text (obj_new c fs) (Some b) = Ok r ->
  (r = true <-> mo_seq b = 0%Z /\ mo_sys b = 0%Z /\ mo_comp b = 0%Z /\ mo_class b = c /\ forall i, i < f_count c -> same_field text (field fs i) (field (mo_fields b) i)).
Proof.
  intros text c fs b r Pa Pb E. destruct (message_eq_spec text _ b Pa Pb) as (r' & E' & S). rewrite E in E'. injection E' as <-. rewrite S.
  unfold same_message, obj_new. cbn [mo_class mo_seq mo_sys mo_comp mo_fields]. intuition congruence.
Qed.
Print Assumptions c77_new.

(** A field is read by its name; there is no other attribute to read. *)
Theorem c77_attribute : forall text m name, ~ In name (mc_fieldnames (mo_class m)) -> format_attr text m name = Err AttributeError.
Proof.
  intros text m name H. unfold format_attr. replace (str_index (mc_fieldnames (mo_class m)) name) with (@Err nat ValueError); [reflexivity|].
  symmetry. induction (mc_fieldnames (mo_class m)) as [|x l IH]; [reflexivity|]. cbn [str_index]. destruct (String.eqb_spec name x) as [->|]; [exfalso; apply H; now left|].
  rewrite IH by (intros K; apply H; now right). reflexivity.
Qed.
Print Assumptions c77_attribute.

(** A message packed and decoded again equals the packed one iff it contains no NaN and every text arrives. *)
Theorem c77_sent : forall text c fs seq sys comp, In c mavlink_classes -> fits_all c fs -> in_byte seq -> in_byte sys -> in_byte comp ->
  exists b d r, message_pack (Msg c fs) seq sys comp = Ok b /\ decode text b = Ok d /\
    message_eq text (obj_packed (obj_new c fs) seq sys comp) (Some (obj_decoded d)) = Ok r /\
    (r = true <-> forall i, i < f_count c -> no_nan (field fs i) /\
       forall t, field fs i = FOne (VBytes t) -> stripped (text t) (before_nul (text (padded (f_width c i) t)))).
Proof.
  intros text c fs seq sys comp Hc F S1 S2 S3. destruct (pack_decode_sent text c fs seq sys comp Hc F S1 S2 S3) as (b & d & Eb & _ & _ & _ & Ed & S).
  destruct (sent_same text c fs seq sys comp d Hc F S1 S2 S3 S) as (P1 & P2 & Sm). destruct (message_eq_spec text _ _ P1 P2) as (r & Er & Sr).
  exists b, d, r. do 3 (split; [assumption|]). rewrite Sr, Sm. destruct F as [_ F].
  assert (Pd : forall w t, padded w t = firstn w t ++ repeat 0%N (w - length t)).
  { intros w t. unfold padded. rewrite firstn_app. f_equal. apply firstn_all2. rewrite repeat_length. lia. }
  split; intros H i Hi; specialize (H i Hi).
  - apply (same_returned text c i _ (F i Hi)) in H as [H1 H2]. split; [exact H1|]. intros t Et. rewrite Pd. exact (H2 t Et).
  - apply (same_returned text c i _ (F i Hi)). destruct H as [H1 H2]. split; [exact H1|]. intros t Et. rewrite <- Pd. exact (H2 t Et).
Qed.
Print Assumptions c77_sent.

(** For texts that are no longer than their fields, under a decoding of text that keeps NULs at the end (UTF-8): iff no text has a NUL before its end. *)
Theorem c77_plain : forall text c fs seq sys comp, In c mavlink_classes -> fits_all c fs -> in_byte seq -> in_byte sys -> in_byte comp ->
  (forall i t, i < f_count c -> field fs i = FOne (VBytes t) -> length t <= f_width c i /\ keeps_padding text t) ->
  exists b d r, message_pack (Msg c fs) seq sys comp = Ok b /\ decode text b = Ok d /\
    message_eq text (obj_packed (obj_new c fs) seq sys comp) (Some (obj_decoded d)) = Ok r /\
    (r = true <-> forall i, i < f_count c -> no_nan (field fs i) /\ plain_text text (f_width c i) (field fs i)).
Proof.
  intros text c fs seq sys comp Hc F S1 S2 S3 K. destruct (c77_sent text c fs seq sys comp Hc F S1 S2 S3) as (b & d & r & Eb & Ed & Er & Sr).
  exists b, d, r. do 3 (split; [assumption|]). rewrite Sr.
  assert (Pd : forall w t, padded w t = firstn w t ++ repeat 0%N (w - length t)).
  { intros w t. unfold padded. rewrite firstn_app. f_equal. apply firstn_all2. rewrite repeat_length. lia. }
  split; intros H i Hi; specialize (H i Hi); destruct H as [H1 H2]; (split; [exact H1|]).
  - destruct (field fs i) as [[| |t]| |] eqn:Ef; try exact I. destruct (K i t Hi Ef) as [Kl Kp]. apply plain_kept; auto. rewrite <- Pd. exact (H2 t eq_refl).
  - intros t Et. rewrite Et in H2. destruct (K i t Hi Et) as [Kl Kp]. rewrite Pd. apply plain_kept; auto.
Qed.
Print Assumptions c77_plain.

(** statustext(severity, text): a text of 51 bytes, a text with a NUL inside, and attitude with a NaN are delivered but not equal. *)
Definition plain_ascii (b : bytes) : list N := b.
Definition status (t : bytes) : list fieldval := [FOne (VInt 6); FOne (VBytes t)].
Definition not_same (c : msg_class) (fs : list fieldval) : Prop := In c mavlink_classes /\ fits_all c fs /\ exists b d,
  message_pack (Msg c fs) 1 2 3 = Ok b /\ decode plain_ascii b = Ok d /\ message_eq plain_ascii (obj_packed (obj_new c fs) 1 2 3) (Some (obj_decoded d)) = Ok false.
Lemma status_fits t : is_bytes t -> fits_all (class_of 253) (status t).
Proof.
  intros B. split; [reflexivity|]. change (f_count (class_of 253)) with 2. intros [|[|i]] Hi; [| |lia].
  - unfold fits. change (String.eqb (f_type (class_of 253) 0) "char") with false. change (f_array (class_of 253) 0) with 0. cbn [Nat.eqb].
    exists (VInt 6). split; [reflexivity|]. split; [discriminate|]. change (0 <= 6 < 256)%Z. lia.
  - unfold fits. change (String.eqb (f_type (class_of 253) 1) "char") with true. exists t. auto.
Qed.
Theorem c77_long_refuted : exists t, is_bytes t /\ length t = 51 /\ ~ In 0%N t /\ not_same (class_of 253) (status t).
Proof.
  exists (repeat 65%N 51). split; [apply Forall_forall; intros x H; apply repeat_spec in H; subst; reflexivity|]. split; [reflexivity|].
  split; [intros H; apply repeat_spec in H; discriminate|]. split; [apply (get_class_spec 253); vm_compute; reflexivity|].
  split; [apply status_fits; apply Forall_forall; intros x H; apply repeat_spec in H; subst; reflexivity|].
  eexists. eexists. split; [vm_compute; reflexivity|]. split; vm_compute; reflexivity.
Qed.
Print Assumptions c77_long_refuted.
Theorem c77_nul_refuted : exists t, is_bytes t /\ length t <= 50 /\ not_same (class_of 253) (status t).
Proof.
  exists [65; 0; 66]%N. assert (B : is_bytes [65; 0; 66]%N) by (repeat constructor). split; [exact B|]. split; [cbn; lia|].
  split; [apply (get_class_spec 253); vm_compute; reflexivity|]. split; [apply status_fits; exact B|].
  eexists. eexists. split; [vm_compute; reflexivity|]. split; vm_compute; reflexivity.
Qed.
Print Assumptions c77_nul_refuted.
Definition tilted (p : N) : list fieldval := [FOne (VInt 1000); FOne (VF32 p); FOne (VF32 0); FOne (VF32 0); FOne (VF32 0); FOne (VF32 0); FOne (VF32 0)].
Theorem c77_nan_refuted : exists p, nan p /\ not_same (class_of 30) (tilted p).
Proof.
  exists 2143289344%N. split; [split; [reflexivity|discriminate]|]. split; [apply (get_class_spec 30); vm_compute; reflexivity|]. split.
  - split; [reflexivity|]. intros i Hi. change (f_count (class_of 30)) with 7 in Hi.
    assert (T : forall k, 1 <= k < 7 -> f_type (class_of 30) k = "float"%string /\ f_array (class_of 30) k = 0) by (intros k Hk; do 7 (destruct k as [|k]; [try lia; split; reflexivity|]); lia).
    destruct i as [|i].
    + unfold fits. change (String.eqb (f_type (class_of 30) 0) "char") with false. change (f_array (class_of 30) 0) with 0. cbn [Nat.eqb].
      exists (VInt 1000). split; [reflexivity|]. split; [discriminate|]. change (0 <= 1000 < 4294967296)%Z. lia.
    + destruct (T (S i) ltac:(lia)) as [T1 T2]. unfold fits. rewrite T1, T2. cbn [Nat.eqb]. change (String.eqb "float" "char") with false. cbv iota.
      do 6 (destruct i as [|i]; [eexists; split; [reflexivity|]; split; reflexivity|]). lia.
  - eexists. eexists. split; [vm_compute; reflexivity|]. split; vm_compute; reflexivity.
Qed.
Print Assumptions c77_nan_refuted.

(** to_dict: the name of the message, then each field by name. *)
Theorem c77_dict : forall text m, proper m -> exists vs, to_dict text m = Ok (("mavpackettype"%string, DName (mc_name (mo_class m))) :: combine (mc_fieldnames (mo_class m)) (map DField vs)) /\
  length vs = f_count (mo_class m) /\ (forall i, i < f_count (mo_class m) -> shows text (field (mo_fields m) i) (field vs i)) /\
  NoDup ("mavpackettype"%string :: mc_fieldnames (mo_class m)).
Proof.
  intros text m P. exists (map (fun i => shown text (field (mo_fields m) i)) (seq 0 (f_count (mo_class m)))). rewrite map_map. split; [apply to_dict_ok; exact P|].
  split; [rewrite map_length, seq_length; reflexivity|]. split.
  - intros i Hi. apply shows_iff. unfold field at 1. rewrite nth_map_lt with (d' := 0) by (rewrite seq_length; exact Hi). rewrite seq_nth by exact Hi. reflexivity.
  - constructor; [|apply names_nodup; apply P]. intros H. pose proof (proj1 (forallb_forall _ _) no_type_field _ (proj1 P)) as Nt. cbv beta in Nt. apply negb_true_iff in Nt.
    assert (existsb (String.eqb "mavpackettype") (mc_fieldnames (mo_class m)) = true) by (apply existsb_exists; exists "mavpackettype"%string; split; [exact H|reflexivity]). congruence.
Qed.
Print Assumptions c77_dict.

(** Packing a received message again, e.g. to forward it. *)
Theorem c77_forward : forall text b d seq sys comp, is_bytes b -> nth 0 b 0%N = 254%N -> decode text b = Ok d -> in_byte seq -> in_byte sys -> in_byte comp ->
  ~ has_text (d_class d) ->
  exists b', message_pack (Msg (d_class d) (d_fields d)) seq sys comp = Ok b' /\ frame_v1 (d_class d) b' /\
    nth 2 b' 0%N = Z.to_N seq /\ nth 3 b' 0%N = Z.to_N sys /\ nth 4 b' 0%N = Z.to_N comp /\ payload b' = padded (wire_size (d_class d)) (payload b).
Proof.
  intros text b d seq sys comp B B0 D S1 S2 S3 T. destruct (repack text b d seq sys comp B B0 D S1 S2 S3 T) as (b' & E & _ & _ & F & R). exists b'. auto.
Qed.
Print Assumptions c77_forward.

(** With the same sequence number, system and component the same bytes are sent iff the received payload had the full length. *)
Theorem c77_same_bytes : forall text b d, is_bytes b -> nth 0 b 0%N = 254%N -> decode text b = Ok d -> ~ has_text (d_class d) ->
  message_pack (Msg (d_class d) (d_fields d)) (Z.of_N (d_seq d)) (Z.of_N (d_sys d)) (Z.of_N (d_comp d)) = Ok b <-> length b = 8 + wire_size (d_class d).
Proof.
  intros text b d B B0 D T. pose proof (proj1 (decode_v1_iff text b B B0 d) D) as (c & F & Ec & _ & _ & E2 & E3 & E4 & _).
  assert (Hb : forall k, in_byte (Z.of_N (nth k b 0%N))) by (intros k; unfold in_byte; pose proof (nth_byte b k B); lia).
  destruct (repack text b d _ _ _ B B0 D (Hb 2) (Hb 3) (Hb 4) T) as (b' & E & B' & L & F' & N2 & N3 & N4 & P). rewrite N2Z.id in N2, N3, N4. rewrite E2, E3, E4, E.
  split; [intros X; injection X as ->; exact L|]. intros Lb. f_equal. rewrite Ec in *. apply (frame_unique c); auto.
  - intros i Hi. assert (i = 2 \/ i = 3 \/ i = 4) as [-> | [-> | -> ]] by lia; assumption.
  - rewrite P. unfold padded. destruct (frame_length c b F) as [_ Lp]. rewrite Lb in Lp. replace (wire_size c - length (payload b)) with 0 by lia. rewrite app_nil_r. apply firstn_all2. lia.
Qed.
Print Assumptions c77_same_bytes.

(** A received message with a text field cannot be packed: its text is a str. *)
Theorem c77_text_forward : forall text b d seq sys comp, is_bytes b -> nth 0 b 0%N = 254%N -> decode text b = Ok d -> has_text (d_class d) ->
  message_pack (Msg (d_class d) (d_fields d)) seq sys comp = Err StructError.
Proof. exact repack_text. Qed.
Print Assumptions c77_text_forward.

(** Examples: a heartbeat is equal to its copy and to none with another sequence number or mode; forwarding a full and a cut heartbeat; a text. *)
Definition beat (n mode : Z) : msgobj := MsgObj (class_of 0) (map (fun z => FOne (VInt z)) [2; 3; 81; mode; 4; 3]%Z) n 1 1.
Example c77_ex : proper (beat 17 5) /\ message_eq plain_ascii (beat 17 5) (Some (beat 17 5)) = Ok true /\
  message_eq plain_ascii (beat 17 5) (Some (beat 18 5)) = Ok false /\ message_eq plain_ascii (beat 17 5) (Some (beat 17 6)) = Ok false /\
  message_eq plain_ascii (MsgObj (class_of 253) (status [65]%N) 0 0 0) (Some (MsgObj (class_of 253) (status [65; 0; 0]%N) 0 0 0)) = Ok true /\
  (exists d, to_dict plain_ascii (beat 17 5) = Ok d /\ length d = 7) /\ ~ has_text (class_of 0) /\ has_text (class_of 253).
Proof.
  split; [split; [apply (get_class_spec 0); vm_compute; reflexivity|reflexivity]|]. do 4 (split; [vm_compute; reflexivity|]). split; [eexists; split; [vm_compute; reflexivity|reflexivity]|].
  split; [intros (i & Hi & T); change (f_count (class_of 0)) with 6 in Hi; do 6 (destruct i as [|i]; [discriminate T|]); lia|exists 1; split; [vm_compute; lia|reflexivity]].
Qed.
Example c77_ex_forward : exists d, decode plain_ascii hb = Ok d /\ message_pack (Msg (d_class d) (d_fields d)) 17 1 1 = Ok hb.
Proof. eexists. split; vm_compute; reflexivity. Qed.
Example c77_ex_plain : let c := class_of 253 in let fs := status [72; 105]%N in In c mavlink_classes /\ fits_all c fs /\
  (forall i t, i < f_count c -> field fs i = FOne (VBytes t) -> length t <= f_width c i /\ keeps_padding plain_ascii t) /\
  exists b d, message_pack (Msg c fs) 1 2 3 = Ok b /\ decode plain_ascii b = Ok d /\ message_eq plain_ascii (obj_packed (obj_new c fs) 1 2 3) (Some (obj_decoded d)) = Ok true.
Proof.
  cbv zeta. split; [apply (get_class_spec 253); vm_compute; reflexivity|]. split; [apply status_fits; repeat constructor|]. split.
  - change (f_count (class_of 253)) with 2. intros [|[|i]] t Hi E; [discriminate| |lia]. injection E as <-. split; [vm_compute; lia|]. intros n. reflexivity.
  - eexists. eexists. split; [vm_compute; reflexivity|]. split; vm_compute; reflexivity.
Qed.
Example c77_ex_new : let m := obj_new (class_of 0) (mo_fields (beat 0 5)) in proper m /\
  message_eq plain_ascii m (Some (beat 17 5)) = Ok false /\ message_eq plain_ascii m (Some (obj_packed (beat 17 5) 0 0 0)) = Ok true /\
  format_attr plain_ascii m "mode" = Err AttributeError.
Proof. split; [split; [apply (get_class_spec 0); vm_compute; reflexivity|reflexivity]|]. repeat split; vm_compute; reflexivity. Qed.
