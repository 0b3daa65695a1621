(** MAVLink.send. *)
From Coq Require Import String Ascii List Arith NArith ZArith Bool Lia ZifyBool ZifyNat ZifyN.
From Verif.Model Require Import Py Dialect ProtocolMeta Struct Crc Mavlink.
From Verif.Spec Require Import Bytes Bits Header CrcSpec Frame.
From Verif.Proofs Require Import Base BitOpsP DialectP HeaderP HeaderMore StructP CrcP MavlinkP FieldsP PackP.
Import ListNotations.

Definition good (m : message) : Prop := In (m_class m) mavlink_classes /\ fits_all (m_class m) (m_fields m).

Lemma pack_decode_sent ts c fs seq sys comp : In c mavlink_classes -> fits_all c fs ->
  in_byte seq -> in_byte sys -> in_byte comp ->
  exists b d, message_pack (Msg c fs) seq sys comp = Ok b /\ is_bytes b /\ length b = 8 + wire_size c /\ frame_v1 c b /\
    decode ts b = Ok d /\ sent ts c fs (Z.to_N seq) (Z.to_N sys) (Z.to_N comp) d.
Proof.
  intros H Ft S1 S2 S3. destruct (pack_decode ts c fs seq sys comp H Ft S1 S2 S3) as (b & E & B & L & F6 & F & D).
  exists b. eexists. do 4 (split; auto). split; [exact D|]. repeat split.
Qed.

Lemma send_run ts sys comp : in_byte sys -> in_byte comp -> forall msgs s,
  Forall good msgs -> mav_sys s = sys -> mav_comp s = comp -> in_byte (mav_seq s) ->
  exists frames s', fold_res mav_send msgs s = Ok s' /\ length frames = length msgs /\
    mav_file s' = mav_file s ++ concat frames /\
    mav_seq s' = ((mav_seq s + Z.of_nat (length msgs)) mod 256)%Z /\
    mav_packets s' = (mav_packets s + Z.of_nat (length msgs))%Z /\
    mav_bytes s' = (mav_bytes s + Z.of_nat (length (concat frames)))%Z /\
    forall k, k < length msgs -> exists c fs d,
      nth k (map Some msgs) None = Some (Msg c fs) /\ frame_v1 c (nth k frames []) /\ is_bytes (nth k frames []) /\
      length (nth k frames []) = 8 + wire_size c /\
      message_pack (Msg c fs) ((mav_seq s + Z.of_nat k) mod 256) sys comp = Ok (nth k frames []) /\
      decode ts (nth k frames []) = Ok d /\
      sent ts c fs (Z.to_N ((mav_seq s + Z.of_nat k) mod 256)) (Z.to_N sys) (Z.to_N comp) d.
Proof.
  intros Bs Bc. induction msgs as [|m msgs IH]; intros s G Es Ec Bq.
  - exists [], s. simpl. rewrite app_nil_r. unfold in_byte in Bq. rewrite Z.add_0_r, Z.mod_small by lia.
    repeat split; auto; try lia.
  - inversion G as [|m0 l0 [G1 G2] G' E0]; subst m0 l0. destruct m as [c fs]. cbn [m_class m_fields] in *.
    destruct (pack_decode_sent ts c fs (mav_seq s) sys comp G1 G2 Bq Bs Bc) as (b & d & EP & B & L & F & D & SE).
    cbn [fold_res]. unfold mav_send at 1. rewrite Es, Ec, EP. cbn [bind].
    set (s1 := Mav _ _ _ _ _ _).
    destruct (IH s1) as (frames & s' & R & LF & FI & SQ & PK & BY & K); auto.
    { unfold s1, in_byte. cbn [mav_seq]. pose proof (Z.mod_pos_bound (mav_seq s + 1) 256). lia. }
    exists (b :: frames), s'. unfold bind. split; [exact R|]. split; [simpl; lia|].
    unfold s1 in FI, SQ, PK, BY. cbn [mav_file mav_seq mav_packets mav_bytes] in FI, SQ, PK, BY.
    split; [rewrite FI; simpl; rewrite app_assoc; reflexivity|].
    split; [rewrite SQ, Z.add_mod_idemp_l by lia; f_equal; simpl length; lia|].
    split; [rewrite PK; simpl length; lia|].
    split; [rewrite BY; simpl concat; rewrite app_length; lia|].
    intros [|k] Hk.
    + exists c, fs, d. unfold in_byte in Bq. cbn [nth map]. replace (mav_seq s + Z.of_nat 0)%Z with (mav_seq s) by lia.
      rewrite Z.mod_small by lia. repeat (split; auto).
    + destruct (K k ltac:(simpl in Hk; lia)) as (c' & fs' & d' & K1 & K2 & K3 & K4 & K5 & K6 & K7).
      exists c', fs', d'. cbn [nth map]. unfold s1 in K5, K7. cbn [mav_seq] in K5, K7.
      rewrite Z.add_mod_idemp_l in K5, K7 by lia.
      replace (mav_seq s + 1 + Z.of_nat k)%Z with (mav_seq s + Z.of_nat (S k))%Z in K5, K7 by lia.
      repeat (split; auto).
Qed.

Lemma send_all ts sys comp msgs : in_byte sys -> in_byte comp -> Forall good msgs ->
  exists frames s', fold_res mav_send msgs (mav_init sys comp) = Ok s' /\ length frames = length msgs /\
    mav_file s' = concat frames /\ mav_seq s' = (Z.of_nat (length msgs) mod 256)%Z /\
    mav_packets s' = Z.of_nat (length msgs) /\ mav_bytes s' = Z.of_nat (length (mav_file s')) /\
    forall k, k < length msgs -> exists c fs d,
      nth k (map Some msgs) None = Some (Msg c fs) /\
      decode ts (nth k frames []) = Ok d /\ sent ts c fs (N.of_nat (k mod 256)) (Z.to_N sys) (Z.to_N comp) d.
Proof.
  intros Bs Bc G. destruct (send_run ts sys comp Bs Bc msgs (mav_init sys comp) G eq_refl eq_refl) as (frames & s' & R & LF & FI & SQ & PK & BY & K).
  { unfold in_byte. simpl. lia. }
  exists frames, s'. simpl in FI, SQ, PK, BY. split; auto. split; auto. split; auto. split; auto. split; auto. split; [rewrite FI; auto|].
  intros k Hk. destruct (K k Hk) as (c & fs & d & K1 & _ & _ & _ & _ & K6 & K7). exists c, fs, d. split; auto. split; auto.
  replace (N.of_nat (k mod 256)) with (Z.to_N ((mav_seq (mav_init sys comp) + Z.of_nat k) mod 256)); auto.
  simpl mav_seq. rewrite Z.add_0_l. rewrite <- (Nat2Z.id (k mod 256)). rewrite Nat2Z.inj_mod. lia.
Qed.

(** Header values that do not fit a byte. *)
Lemma pack_bad_header m seq sys comp b : message_pack m seq sys comp = Ok b -> in_byte seq /\ in_byte sys /\ in_byte comp.
Proof.
  unfold message_pack. intros H. apply bind_ok in H. destruct H as (args & _ & H). apply bind_ok in H. destruct H as (pl & _ & H).
  unfold pack_frame in H. apply bind_ok in H. destruct H as (h & H & _).
  unfold header_pack, struct_pack in H. change (parse_fmt "<BBBBBB") with (Ok (repeat (1, "B"%char) 6)) in H. cbn [bind] in H.
  cbn [repeat pack_items pack_item fst snd pack_rep] in H.
  assert (P : forall z b, pack_one "B" (VInt z) = Ok b -> in_byte z).
  { intros z b0. unfold pack_one. cbn [char_size char_unsigned]. change (2 ^ (8 * Z.of_nat 1))%Z with 256%Z. unfold in_byte.
    destruct (_ && _)%bool eqn:E; [|discriminate]. lia. }
  repeat match goal with
  | H : bind (bind (pack_one ?c ?v) ?f) ?g = Ok _ |- _ =>
      apply bind_ok in H; destruct H as (? & ? & H)
  | H : bind (pack_one ?c ?v) ?f = Ok _ |- _ => apply bind_ok in H; destruct H as (? & ? & H); try apply P in H; cbn [bind fst snd] in *
  | H : bind (Ok _) _ = Ok _ |- _ => cbn [bind fst snd] in H
  | H : Ok _ = Ok _ |- _ => injection H as <-; cbn [fst snd] in *
  | H : bind ?x ?f = Ok _ |- _ => apply bind_ok in H; destruct H as (? & ? & H)
  | H : pack_one "B" _ = Ok _ |- _ => apply P in H
  end.
  auto.
Qed.
