(** C76: the generated interface of the dialect. *)
From Coq Require Import String Ascii List NArith ZArith Arith Bool Lia.
From Verif.Model Require Import Py Dialect ProtocolMeta Struct Crc Mavlink ApiTable Wrappers.
From Verif.Spec Require Import Bytes Bits Header CrcSpec Frame ApiSpec.
From Verif.Proofs Require Import Base DialectP StructP MavlinkP FieldsP PackP SendP ApiP.
From Verif.Props Require Import MavlinkProps.
Import ListNotations.
Local Open Scope list_scope.
Local Notation length := List.length.

(** C76.  The object made by name_encode has the given values as the attributes of the message's fields, in the order of the fields. *)
Theorem c76_encode : forall c fs, In c mavlink_classes -> length fs = f_count c ->
  exists o, call_encode (encode_of c) fs = Ok o /\ o_class o = c /\
    forall i, i < f_count c -> attribute o (nth i (mc_fieldnames c) ""%string) = Some (field fs i).
Proof.
  intros c fs Hc Hl. destruct (encode_exact c Hc) as (k & E & e & s & M). destruct M as (_ & _ & _ & Nd & _).
  eexists. split; [exact (E fs Hl)|]. split; [reflexivity|]. intros i Hi. exact (attr_field c k fs Nd Hl i Hi).
Qed.
Print Assumptions c76_encode.

(** name_send sends the message with these values; excess elements of arrays are dropped. *)
Theorem c76_send : forall c fs st, In c mavlink_classes -> length fs = f_count c -> (forall i, i < f_count c -> fits_or_longer c i (field fs i)) ->
  call_send st (send_of c) fs = mav_send st (Msg c (trim_all c fs)).
Proof.
  intros c fs st Hc Hl F. destruct (send_exact c Hc) as (k & e & s & M & E). rewrite (E st fs Hl). unfold object_send, mav_send.
  rewrite (pack_longer c k e s fs _ _ _ M Hl F). reflexivity.
Qed.
Print Assumptions c76_send.

(** So the frame is appended to the file, and decoding it yields the values. *)
Theorem c76_delivered : forall text c fs st, In c mavlink_classes -> fits_all c fs -> in_byte (mav_seq st) -> in_byte (mav_sys st) -> in_byte (mav_comp st) ->
  exists st' f d, call_send st (send_of c) fs = Ok st' /\ mav_file st' = mav_file st ++ f /\ mav_seq st' = ((mav_seq st + 1) mod 256)%Z /\
    mav_packets st' = (mav_packets st + 1)%Z /\ mav_bytes st' = (mav_bytes st + Z.of_nat (length f))%Z /\
    decode text f = Ok d /\ sent text c fs (Z.to_N (mav_seq st)) (Z.to_N (mav_sys st)) (Z.to_N (mav_comp st)) d.
Proof.
  intros text c fs st Hc F H1 H2 H3. pose proof F as [Hl F'].
  rewrite (c76_send c fs st Hc Hl) by (intros i Hi; left; apply F'; exact Hi). rewrite (fits_trim c fs F).
  destruct (pack_decode_sent text c fs _ _ _ Hc F H1 H2 H3) as (b & d & Eb & _ & _ & _ & Ed & S). unfold mav_send. rewrite Eb. cbn [bind].
  eexists. exists b, d. split; [reflexivity|]. cbn [mav_file mav_seq mav_packets mav_bytes]. auto 7.
Qed.
Print Assumptions c76_delivered.

(** An array with too few elements raises IndexError and nothing is sent. *)
Theorem c76_short : forall c fs st, In c mavlink_classes -> length fs = f_count c ->
  (forall i, i < f_count c -> fits_or_longer c i (field fs i) \/ too_short c i (field fs i)) -> (exists i, i < f_count c /\ too_short c i (field fs i)) ->
  call_send st (send_of c) fs = Err IndexError.
Proof.
  intros c fs st Hc Hl F H. destruct (send_exact c Hc) as (k & e & s & M & E). rewrite (E st fs Hl). unfold object_send.
  rewrite (pack_short c k e s fs _ _ _ M Hl F H). reflexivity.
Qed.
Print Assumptions c76_short.

(** A wrong number of arguments raises TypeError; only the last argument of heartbeat_send may be left out, it is 3 then. *)
Theorem c76_count : forall c fs st, In c mavlink_classes -> length fs <> f_count c -> mc_id c <> 0%N \/ length fs <> 5 -> call_send st (send_of c) fs = Err TypeError.
Proof.
  intros c fs st Hc Hl H0. destruct (message_methods c Hc) as (k & e & s & M).
  destruct M as (_ & _ & _ & Nd & _ & _ & _ & Fe & Fs & _ & _ & _ & C4 & C5 & C6 & _ & D). unfold call_send. rewrite Fs, C5.
  rewrite bind_wrong; [reflexivity|exact Hl|]. destruct (N.eqb (mc_id c) 0) eqn:E0; [|left; lia]. right. apply N.eqb_eq in E0.
  destruct H0 as [H0|H0]; [contradiction|]. split; [|exact D].
  assert (Hc0 : forallb (fun c => negb (N.eqb (mc_id c) 0) || Nat.eqb (f_count c) 6)%bool mavlink_classes = true) by (vm_compute; reflexivity).
  pose proof (proj1 (forallb_forall _ _) Hc0 c Hc) as X. cbv beta in X. rewrite E0 in X. apply Nat.eqb_eq in X. unfold f_count in X. rewrite X. lia.
Qed.
Print Assumptions c76_count.

Theorem c76_heartbeat : forall a b c d e st,
  call_send st "heartbeat_send" [a; b; c; d; e] = call_send st "heartbeat_send" [a; b; c; d; e; FOne (VInt 3)].
Proof. intros. reflexivity. Qed.
Print Assumptions c76_heartbeat.

(** There are no other methods. *)
Theorem c76_methods : forall h, (In h encodes -> exists c, In c mavlink_classes /\ h_name h = encode_of c) /\
  (In h sends -> exists c, In c mavlink_classes /\ h_name h = send_of c).
Proof.
  intros h. assert (E : forallb (fun h => existsb (fun c => String.eqb (h_name h) (encode_of c)) mavlink_classes) encodes = true) by (vm_compute; reflexivity).
  assert (S : forallb (fun h => existsb (fun c => String.eqb (h_name h) (send_of c)) mavlink_classes) sends = true) by (vm_compute; reflexivity).
  split; intros H.
  - pose proof (proj1 (forallb_forall _ _) E h H) as X. apply existsb_exists in X as (c & Hc & Ec). exists c. split; [exact Hc|]. apply String.eqb_eq. exact Ec.
  - pose proof (proj1 (forallb_forall _ _) S h H) as X. apply existsb_exists in X as (c & Hc & Ec). exists c. split; [exact Hc|]. apply String.eqb_eq. exact Ec.
Qed.
Print Assumptions c76_methods.

Theorem c76_unknown : forall name st args, (forall c, In c mavlink_classes -> name <> send_of c) -> call_send st name args = Err AttributeError.
Proof.
  intros name st args H. unfold call_send. destruct (find_method sends name) as [h|] eqn:E; [|reflexivity]. exfalso. unfold find_method in E. apply find_some in E as [I E].
  apply String.eqb_eq in E. destruct (proj2 (c76_methods h) I) as (c & Hc & Ec). apply (H c Hc). congruence.
Qed.
Print Assumptions c76_unknown.

(** motor_cmd_send(mode, speed): speed has ten elements; given twelve, ten are sent, given two, IndexError. *)
Definition speeds (n : nat) : fieldval := FMany (map (fun k => VInt (Z.of_nat k - 5)) (seq 0 n)).
Example c76_ex : let c := class_of 221 in send_of c = "motor_cmd_send"%string /\ In c mavlink_classes /\
  (forall i, i < f_count c -> fits_or_longer c i (field [FOne (VInt 1); speeds 12] i)) /\ trim_all c [FOne (VInt 1); speeds 12] = [FOne (VInt 1); speeds 10] /\
  too_short c 1 (speeds 2) /\ call_send (mav_init 1 1) "motor_cmd_send" [FOne (VInt 1); speeds 2] = Err IndexError /\
  (exists st, call_send (mav_init 1 1) "motor_cmd_send" [FOne (VInt 1); speeds 12] = Ok st /\ length (mav_file st) = 29) /\
  call_send (mav_init 1 1) "motor_cmd_send" [FOne (VInt 1)] = Err TypeError.
Proof.
  cbv zeta. split; [vm_compute; reflexivity|]. split; [apply (get_class_spec 221); vm_compute; reflexivity|]. split.
  { intros i Hi. change (f_count (class_of 221)) with 2 in Hi. destruct i as [|[|i]]; [left|right|lia].
    - unfold fits. change (String.eqb (f_type (class_of 221) 0) "char") with false. change (f_array (class_of 221) 0) with 0. cbn [Nat.eqb].
      exists (VInt 1). split; [reflexivity|]. split; [discriminate|]. change (f_type (class_of 221) 0) with "uint8_t"%string. cbn. lia.
    - split; [split; [reflexivity|discriminate]|]. eexists. split; [reflexivity|]. split; [vm_compute; lia|].
      change (f_type (class_of 221) 1) with "int16_t"%string. apply Forall_forall. intros v Hv. apply in_map_iff in Hv as (k & <- & Hk). apply in_seq in Hk.
      split; [discriminate|]. change (-32768 <= Z.of_nat k - 5 < 32768)%Z. lia. }
  split; [vm_compute; reflexivity|]. split; [split; [split; [reflexivity|discriminate]|]; eexists; split; [reflexivity|vm_compute; lia]|].
  split; [vm_compute; reflexivity|]. split; [eexists; split; vm_compute; reflexivity|vm_compute; reflexivity].
Qed.
Example c76_ex_unknown : (forall c, In c mavlink_classes -> "heartbeat_sent"%string <> send_of c) /\ forall st, call_send st "heartbeat_sent" [] = Err AttributeError.
Proof.
  assert (H : forall c, In c mavlink_classes -> "heartbeat_sent"%string <> send_of c).
  { intros c Hc E. assert (X : forallb (fun c => negb (String.eqb "heartbeat_sent" (send_of c))) mavlink_classes = true) by (vm_compute; reflexivity).
    pose proof (proj1 (forallb_forall _ _) X c Hc) as Y. cbv beta in Y. rewrite <- E in Y. rewrite String.eqb_refl in Y. discriminate. }
  split; [exact H|]. intros st. now apply c76_unknown.
Qed.
