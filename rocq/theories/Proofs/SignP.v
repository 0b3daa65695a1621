(** Signed frames. *)
From Coq Require Import String Ascii List NArith ZArith Arith Bool Lia.
From Verif.Model Require Import Py Dialect ProtocolMeta Struct Crc Mavlink Signing.
From Verif.Spec Require Import Bytes Bits Header CrcSpec Frame SignSpec.
From Verif.Proofs Require Import Base DialectP StructP MavlinkP FieldsP PackP SendP MavlinkMore.
Import ListNotations.
Local Open Scope list_scope.
Local Notation length := List.length.

Lemma same_bytes_eq a b : same_bytes a b = true <-> a = b.
Proof.
  revert b. induction a as [|x a IH]; intros [|y b]; cbn; try (split; congruence).
  rewrite andb_true_iff, N.eqb_eq, IH. split; [intros [-> ->]; reflexivity|]. intros [= -> ->]. auto.
Qed.
Lemma stream_eqb_eq a b : stream_eqb a b = true <-> a = b.
Proof.
  destruct a as [[a1 a2] a3], b as [[b1 b2] b3]. cbn. rewrite !andb_true_iff, !N.eqb_eq. split; [intros [[-> ->] ->]; reflexivity|].
  intros [= -> -> ->]. auto.
Qed.
Lemma get_set_same (d : list ((N * N * N) * Z)) k v : dict_get stream_eqb (dict_set stream_eqb d k v) k = Some v.
Proof.
  induction d as [|[k' v'] d IH]; cbn.
  - rewrite (proj2 (stream_eqb_eq k k) eq_refl). reflexivity.
  - destruct (stream_eqb k k') eqn:E; cbn; [rewrite (proj2 (stream_eqb_eq k k) eq_refl); reflexivity|]. rewrite E. exact IH.
Qed.
Lemma get_set_other (d : list ((N * N * N) * Z)) k k2 v : k2 <> k -> dict_get stream_eqb (dict_set stream_eqb d k v) k2 = dict_get stream_eqb d k2.
Proof.
  intros H. assert (E : stream_eqb k2 k = false) by (destruct (stream_eqb k2 k) eqn:E; [apply stream_eqb_eq in E; contradiction|reflexivity]).
  induction d as [|[k' v'] d IH]; cbn; [rewrite E; reflexivity|].
  destruct (stream_eqb k k') eqn:E'; cbn; [|destruct (stream_eqb k2 k'); auto].
  apply stream_eqb_eq in E'. subst k'. rewrite E. reflexivity.
Qed.

Section Signed.
Variable sha256 : bytes -> bytes.
Variable ts : bytes -> list N.

(** The length of the signature. *)
Definition siglen (b : bytes) : nat := if N.eqb (nth 0 b 0%N) 254 then 0 else if N.eqb (N.land (nth 2 b 0%N) 1) 0 then 0 else 13.

Lemma land1_bit0 x : N.eqb (N.land x 1) 0 = negb (N.testbit x 0).
Proof.
  change 1%N with (N.ones 1). rewrite N.land_ones. change (2 ^ 1)%N with 2%N. rewrite <- N.bit0_mod. destruct (N.testbit x 0); reflexivity.
Qed.
Lemma siglen_cases b : (siglen b = 13 /\ has_signature b) \/ (siglen b = 0 /\ ~ has_signature b).
Proof.
  unfold siglen, has_signature. rewrite land1_bit0. destruct (N.eqb_spec (nth 0 b 0%N) 254) as [E|E]; [right; tauto|].
  destruct (N.testbit (nth 2 b 0%N) 0); cbn; [left; auto|right]. split; [reflexivity|]. intros [_ H]. discriminate.
Qed.

Definition outcome_of (b : bytes) (d : decoded) (x : signing * bool * bool) : signing * res received :=
  let '(sg, ok, accept) := x in
  (sg, if accept then Ok (Received d ok (if ok then Some (nth (length b - 13) b 0%N) else None) (slice b 6 (length b - (2 + siglen b)))) else Err MAVError).

Lemma body_signed sg b hl sl magic mlen inc com seq sys comp msgId : sl = siglen b ->
  decode_signed_body sha256 ts sg b hl sl magic mlen inc com seq sys comp msgId =
  match decode_body ts b hl sl magic mlen inc com seq sys comp msgId with
  | Err e => (sg, Err e)
  | Ok d => outcome_of b d (judge_signature sha256 sg b sl sys comp msgId)
  end.
Proof.
  intros Es. pose proof (decode_body_spec ts b hl sl magic mlen inc com seq sys comp msgId) as Sp.
  unfold decode_signed_body, decode_body in *.
  destruct (negb (N.eqb magic 254 || N.eqb magic 253)); [reflexivity|]. destruct (negb (Z.eqb _ _)); [reflexivity|].
  destruct (get_class msgId) as [c|] eqn:EC; [|reflexivity]. cbv zeta in *. destruct (negb (N.eqb (le_val _) _)); [reflexivity|].
  apply get_class_spec in EC. pose proof EC as [I _].
  destruct (judge_signature sha256 sg b sl sys comp msgId) as [[sg' ok] accept] eqn:EJ.
  pose proof (fun k => decode_tail ts c (slice b hl (length b - (2 + sl))) I k) as T. cbv zeta in T.
  rewrite (T (fun fs => Ok (Decoded msgId mlen seq sys comp inc com (le_val (firstn 2 (skipn (length b - (2 + sl)) b))) c fs))).
  unfold outcome_of. destruct accept; cbn [negb]; [|reflexivity]. f_equal.
  clear Sp T EJ. pose proof (class_facts_in _ I) as F. unfold decoded_fields, calcsize, struct_unpack.
  rewrite (cf_unpacker _ F). destruct (cf_items _ F) as (items & n & E1 & _). rewrite E1. cbn [bind]. cbv zeta.
  set (body := slice b hl (length b - (2 + sl))).
  assert (LM : length (firstn (items_size items) (body ++ repeat 0%N (items_size items - length body))) = items_size items).
  { rewrite firstn_length, app_length, repeat_length. lia. }
  rewrite LM, Nat.eqb_refl. cbn [bind]. rewrite reorder_ok; auto.
  2:{ rewrite length_unpack_items, (class_lengths c items I E1). reflexivity. }
  cbn [bind]. rewrite <- Es. reflexivity.
Qed.

Lemma decode_signed_spec sg b :
  decode_signed sha256 ts sg b =
  match decode ts b with
  | Err e => (sg, Err e)
  | Ok d => outcome_of b d (judge_signature sha256 sg b (siglen b) (d_sys d) (d_comp d) (d_msgId d))
  end.
Proof.
  destruct b as [|b0 b]; [reflexivity|]. unfold decode_signed, decode. change stx with 254%N.
  destruct (N.eqb_spec b0 254) as [E|E].
  - destruct (Nat.ltb _ _); [reflexivity|]. rewrite body_signed by (unfold siglen; cbn [nth]; rewrite E; reflexivity).
    destruct (decode_body_spec ts (b0 :: b) 6 0 b0 (nth 1 (b0 :: b) 0%N) 0 0 (nth 2 (b0 :: b) 0%N) (nth 3 (b0 :: b) 0%N) (nth 4 (b0 :: b) 0%N) (nth 5 (b0 :: b) 0%N))
      as [(c & _ & ->)|(_ & ->)]; [|reflexivity]. cbn [d_sys d_comp d_msgId].
    unfold siglen. cbn [nth]. rewrite E. reflexivity.
  - destruct (Nat.ltb _ _); [reflexivity|]. cbv zeta.
    assert (Hs : (if (N.land (nth 2 (b0 :: b) 0) 1 =? 0)%N then 0 else 13) = siglen (b0 :: b)).
    { unfold siglen. cbn [nth]. rewrite (proj2 (N.eqb_neq _ _) E). reflexivity. }
    rewrite Hs. rewrite body_signed by reflexivity.
    destruct (decode_body_spec ts (b0 :: b) 10 (siglen (b0 :: b)) b0 (nth 1 (b0 :: b) 0%N) (nth 2 (b0 :: b) 0%N) (nth 3 (b0 :: b) 0%N)
       (nth 4 (b0 :: b) 0%N) (nth 5 (b0 :: b) 0%N) (nth 6 (b0 :: b) 0%N)
       (nth 7 (b0 :: b) 0 + 256 * nth 8 (b0 :: b) 0 + 65536 * nth 9 (b0 :: b) 0)%N) as [(c & _ & ->)|(_ & ->)]; reflexivity.
Qed.

(** An accepted frame with a signature: where its parts are. *)
Lemma signed_parts b d : is_bytes b -> decode ts b = Ok d -> has_signature b ->
  25 <= length b /\ d_sys d = nth 5 b 0%N /\ d_comp d = nth 6 b 0%N /\ d_msgId d = (nth 7 b 0 + 256 * nth 8 b 0 + 65536 * nth 9 b 0)%N.
Proof.
  intros B E [H0 H2]. destruct (decode_not_v1 ts b B) as [(c & d' & F & E' & Hi & Hq & Hs & Hc & _)|(_ & E')]; [intros ->; cbn in E; discriminate|exact H0| |congruence].
  rewrite E in E'. injection E' as <-. split; [|auto]. destruct F as [_ (body & lo & hi & sig & -> & Ls & Hl & _)].
  rewrite H2 in Ls. cbn [length]. rewrite !app_length, Ls. cbn. lia.
Qed.

Lemma slice_from_end b k n : k <= length b -> n <= k -> slice b (length b - k) (length b - (k - n)) = from_end b k n.
Proof. intros H1 H2. unfold slice, from_end. f_equal. lia. Qed.

(** The changes of the state. *)
Definition stamped (sg : signing) (b : bytes) : signing :=
  match recorded sg (stream_of b) with
  | Some _ => sg
  | None => Signing (sg_key sg) (sg_timestamp sg) (sg_link sg) (sg_outgoing sg) (sg_allow sg) (dict_set stream_eqb (sg_streams sg) (stream_of b) (stamp b))
              (sg_sig sg) (sg_badsig sg) (sg_goodsig sg) (sg_unsigned sg) (sg_reject sg)
  end.
Definition advanced (sg : signing) (b : bytes) : signing :=
  Signing (sg_key sg) (Z.max (sg_timestamp sg) (stamp b)) (sg_link sg) (sg_outgoing sg) (sg_allow sg) (sg_streams sg)
          (sg_sig sg) (sg_badsig sg) (sg_goodsig sg) (sg_unsigned sg) (sg_reject sg).

Lemma check_spec sg key b sys comp : 25 <= length b -> sys = nth 5 b 0%N -> comp = nth 6 b 0%N ->
  (fresh sg b /\ authentic sha256 key b /\ check_signature sha256 sg key b sys comp = (advanced (stamped sg b) b, true)) \/
  (fresh sg b /\ ~ authentic sha256 key b /\ check_signature sha256 sg key b sys comp = (stamped sg b, false)) \/
  (~ fresh sg b /\ check_signature sha256 sg key b sys comp = (sg, false)).
Proof.
  intros L -> ->. unfold check_signature. cbv zeta.
  assert (Sl : slice b (length b - 12) (length b - 6) = from_end b 12 6) by (apply (slice_from_end b 12 6); lia).
  rewrite Sl, <- le_number_val. fold (stamp b). fold (stream_of b).
  replace (skipn (length b - 6) b) with (from_end b 6 6).
  2:{ unfold from_end. apply firstn_all2. rewrite skipn_length. lia. }
  unfold fresh, stamped. fold (recorded sg (stream_of b)). change (6000 * 1000)%Z with 6000000%Z.
  assert (V : (authentic sha256 key b /\ same_bytes (firstn 6 (sha256 (key ++ firstn (length b - 6) b))) (from_end b 6 6) = true) \/
              (~ authentic sha256 key b /\ same_bytes (firstn 6 (sha256 (key ++ firstn (length b - 6) b))) (from_end b 6 6) = false)).
  { unfold authentic. destruct (same_bytes _ _) eqn:E; [left|right]; (split; [|reflexivity]).
    - apply same_bytes_eq in E. congruence.
    - intros H. symmetry in H. apply same_bytes_eq in H. congruence. }
  destruct (recorded sg (stream_of b)) as [old|].
  - destruct (Z.leb_spec (stamp b) old) as [H|H]; [right; right; split; [lia|reflexivity]|].
    destruct V as [[V ->]|[V ->]]; [left|right; left]; (split; [lia|]; split; [exact V|reflexivity]).
  - destruct (Z.ltb_spec (stamp b + 6000000) (sg_timestamp sg)) as [H|H]; [right; right; split; [lia|reflexivity]|].
    destruct V as [[V ->]|[V ->]]; [left|right; left]; (split; [lia|]; split; [exact V|reflexivity]).
Qed.

Lemma stamped_records sg b : records sg (stamped sg b) b.
Proof.
  intros s. unfold stamped. destruct (recorded sg (stream_of b)) as [t|] eqn:E.
  - destruct (recorded sg s) as [u|] eqn:Es; [reflexivity|]. destruct (stream_eqb s (stream_of b)) eqn:Eq; [|reflexivity].
    apply stream_eqb_eq in Eq. congruence.
  - unfold recorded. cbn [sg_streams]. destruct (stream_eqb s (stream_of b)) eqn:Eq.
    + apply stream_eqb_eq in Eq. subst s. rewrite get_set_same. unfold recorded in E. rewrite E. reflexivity.
    + rewrite get_set_other. 2:{ intros ->. rewrite (proj2 (stream_eqb_eq _ _) eq_refl) in Eq. discriminate. }
      destruct (dict_get _ _ _); reflexivity.
Qed.
Lemma stamped_same sg b : same_settings sg (stamped sg b) /\ sg_timestamp (stamped sg b) = sg_timestamp sg /\ counted sg (stamped sg b) 0 0 0 0 0.
Proof. unfold stamped, same_settings, counted. destruct (recorded sg (stream_of b)); cbn; rewrite !Nat.add_0_r; auto 15. Qed.

(** What one frame does, by cases. *)
Lemma signed_cases sg b : is_bytes b ->
  let sg' := fst (decode_signed sha256 ts sg b) in let r := snd (decode_signed sha256 ts sg b) in
  same_settings sg sg' /\
  ((exists e, decode ts b = Err e /\ r = Err e /\ sg' = sg) \/
   exists d, decode ts b = Ok d /\
     let answer signed := Ok (Received d signed (if signed then Some (nth (length b - 13) b 0%N) else None) (slice b 6 (length b - (2 + siglen b)))) in
     ((sg_key sg = None /\ r = answer false /\ sg_timestamp sg' = sg_timestamp sg /\ same_records sg sg' /\
         ((has_signature b /\ counted sg sg' 1 0 0 0 0) \/ (~ has_signature b /\ counted sg sg' 0 0 0 0 0))) \/
      (proven sha256 sg b /\ r = answer true /\ sg_timestamp sg' = Z.max (sg_timestamp sg) (stamp b) /\ records sg sg' b /\ counted sg sg' 1 0 1 0 0) \/
      (sg_key sg <> None /\ ~ proven sha256 sg b /\ r = (if (match sg_allow sg with Some f => f (d_msgId d) | None => false end) then answer false else Err MAVError) /\
         sg_timestamp sg' = sg_timestamp sg /\
         ((has_signature b /\ fresh sg b /\ records sg sg' b /\ counted sg sg' 1 1 0 (fst (asked sg (d_msgId d))) (snd (asked sg (d_msgId d)))) \/
          (has_signature b /\ ~ fresh sg b /\ same_records sg sg' /\ counted sg sg' 1 1 0 (fst (asked sg (d_msgId d))) (snd (asked sg (d_msgId d)))) \/
          (~ has_signature b /\ same_records sg sg' /\ counted sg sg' 0 0 0 (fst (asked sg (d_msgId d))) (snd (asked sg (d_msgId d)))))))).
Proof.
  intros B. cbv zeta. rewrite decode_signed_spec. destruct (decode ts b) as [d|e] eqn:E.
  2:{ cbn. split; [repeat split|]. left. exists e. auto. }
  destruct (siglen_cases b) as [[Es Hs]|[Es Hs]].
  - destruct (signed_parts b d B E Hs) as (L & Ps & Pc & Pi).
    unfold judge_signature. rewrite Es. cbn [Nat.eqb].
    set (sg1 := count sg 1 0 0 0 0).
    assert (R1 : forall s, recorded sg1 s = recorded sg s) by reflexivity.
    assert (F1 : fresh sg1 b <-> fresh sg b) by (unfold fresh; rewrite R1; reflexivity).
    change (sg_key sg1) with (sg_key sg). destruct (sg_key sg) as [key|] eqn:Ek.
    + destruct (check_spec sg1 key b (d_sys d) (d_comp d) L Ps Pc) as [(Fr & Au & ->)|[(Fr & Au & ->)|(Fr & ->)]].
      * destruct (stamped_same sg1 b) as ((S1 & S2 & S3 & S4) & S5 & (C1 & C2 & C3 & C4 & C5)).
        pose proof (stamped_records sg1 b) as Rc. unfold outcome_of. cbn [fst snd]. split.
        { unfold same_settings. cbn [count advanced sg_key sg_link sg_outgoing sg_allow]. rewrite S1, S2, S3, S4. cbn. auto. }
        right. exists d. split; [reflexivity|]. right. left. split; [exists key; tauto|]. split; [rewrite Es; reflexivity|].
        cbn [count advanced sg_timestamp]. rewrite S5. split; [reflexivity|]. split; [exact Rc|].
        unfold counted. cbn. rewrite C1, C2, C3, C4, C5. unfold sg1. cbn. lia.
      * destruct (stamped_same sg1 b) as ((S1 & S2 & S3 & S4) & S5 & (C1 & C2 & C3 & C4 & C5)).
        pose proof (stamped_records sg1 b) as Rc.
        assert (Np : ~ proven sha256 sg b). { intros (k & Hk & _ & _ & Ha). rewrite Ek in Hk. injection Hk as <-. contradiction. }
        unfold ask_callback. cbn [count sg_allow]. rewrite S4. change (sg_allow sg1) with (sg_allow sg).
        unfold asked. destruct (sg_allow sg) as [f|] eqn:Ea.
        -- destruct (f (d_msgId d)) eqn:Ef; unfold outcome_of; cbn [fst snd]; (split; [unfold same_settings; cbn; rewrite S1, S2, S3, S4, Ek, Ea; auto|]);
             right; exists d; rewrite ?Ef; (split; [reflexivity|]); right; right; (split; [discriminate|]); (split; [exact Np|]); (split; [rewrite ?Es; reflexivity|]);
             (split; [exact S5|]); left; (split; [exact Hs|]); (split; [tauto|]); (split; [exact Rc|]); unfold counted; cbn; rewrite C1, C2, C3, C4, C5; unfold sg1; cbn; lia.
        -- unfold outcome_of; cbn [fst snd]; (split; [unfold same_settings; cbn; rewrite S1, S2, S3, S4, Ek, Ea; auto|]);
             right; exists d; rewrite ?Ef; (split; [reflexivity|]); right; right; (split; [discriminate|]); (split; [exact Np|]); (split; [rewrite ?Es; reflexivity|]);
             (split; [exact S5|]); left; (split; [exact Hs|]); (split; [tauto|]); (split; [exact Rc|]); unfold counted; cbn; rewrite C1, C2, C3, C4, C5; unfold sg1; cbn; lia.
      * assert (Np : ~ proven sha256 sg b) by (intros (k & Hk & _ & Hf & Ha); tauto).
        assert (Fr' : ~ fresh sg b) by tauto.
        unfold ask_callback. cbn [count sg_allow]. change (sg_allow sg1) with (sg_allow sg).
        unfold asked. destruct (sg_allow sg) as [f|] eqn:Ea.
        -- destruct (f (d_msgId d)) eqn:Ef; unfold outcome_of; cbn [fst snd]; (split; [unfold same_settings; cbn; rewrite Ek, Ea; auto|]);
             right; exists d; rewrite ?Ef; (split; [reflexivity|]); right; right; (split; [discriminate|]); (split; [exact Np|]); (split; [rewrite ?Es; reflexivity|]);
             (split; [reflexivity|]); right; left; (split; [exact Hs|]); (split; [exact Fr'|]); (split; [intros s; reflexivity|]); unfold counted; cbn; lia.
        -- unfold outcome_of; cbn [fst snd]; (split; [unfold same_settings; cbn; rewrite Ek, Ea; auto|]);
             right; exists d; rewrite ?Ef; (split; [reflexivity|]); right; right; (split; [discriminate|]); (split; [exact Np|]); (split; [rewrite ?Es; reflexivity|]);
             (split; [reflexivity|]); right; left; (split; [exact Hs|]); (split; [exact Fr'|]); (split; [intros s; reflexivity|]); unfold counted; cbn; lia.
    + unfold outcome_of. cbn [fst snd]. split; [unfold same_settings; cbn; rewrite Ek; auto|]. right. exists d. split; [reflexivity|]. left.
      split; [reflexivity|]. split; [rewrite Es; reflexivity|]. split; [reflexivity|]. split; [intros s; reflexivity|]. left. split; [exact Hs|].
      unfold counted. cbn. lia.
  - unfold judge_signature. rewrite Es. cbn [Nat.eqb]. destruct (sg_key sg) as [key|] eqn:Ek.
    + assert (Np : ~ proven sha256 sg b) by (intros (k & Hk & Hh & _); contradiction).
      unfold ask_callback, asked. destruct (sg_allow sg) as [f|] eqn:Ea.
      * destruct (f (d_msgId d)) eqn:Ef; unfold outcome_of; cbn [fst snd]; (split; [unfold same_settings; cbn; rewrite ?Ek, ?Ea; auto|]);
             right; exists d; rewrite ?Ef; (split; [reflexivity|]); right; right; (split; [discriminate|]); (split; [exact Np|]); (split; [rewrite ?Es; reflexivity|]);
             (split; [reflexivity|]); right; right; (split; [exact Hs|]); (split; [intros s; reflexivity|]); unfold counted; cbn; lia.
      * unfold outcome_of; cbn [fst snd]; (split; [unfold same_settings; cbn; rewrite ?Ek, ?Ea; auto|]);
             right; exists d; rewrite ?Ef; (split; [reflexivity|]); right; right; (split; [discriminate|]); (split; [exact Np|]); (split; [rewrite ?Es; reflexivity|]);
             (split; [reflexivity|]); right; right; (split; [exact Hs|]); (split; [intros s; reflexivity|]); unfold counted; cbn; lia.
    + unfold outcome_of. cbn [fst snd]. split; [unfold same_settings; cbn; rewrite Ek; auto|]. right. exists d. split; [reflexivity|]. left.
      split; [reflexivity|]. split; [rewrite Es; reflexivity|]. split; [reflexivity|]. split; [intros s; reflexivity|]. right. split; [exact Hs|].
      unfold counted. cbn. lia.
Qed.
End Signed.

Section History.
Variable sha256 : bytes -> bytes.
Variable ts : bytes -> list N.

Lemma frame_settings sg b : is_bytes b -> same_settings sg (fst (decode_signed sha256 ts sg b)).
Proof. intros B. apply (signed_cases sha256 ts sg b B). Qed.

Lemma frame_records sg b s t : is_bytes b -> recorded sg s = Some t -> recorded (fst (decode_signed sha256 ts sg b)) s = Some t.
Proof.
  intros B H. destruct (signed_cases sha256 ts sg b B) as (_ & [(e & _ & _ & ->)|(d & _ & [(_ & _ & _ & R & _)|[(_ & _ & _ & R & _)|(_ & _ & _ & _ & [(_ & _ & R & _)|[(_ & _ & R & _)|(_ & R & _)]])]])]);
    [exact H|rewrite (R s)..]; rewrite ?H; reflexivity.
Qed.

Lemma frames_records bs : forall sg s t, Forall is_bytes bs -> recorded sg s = Some t -> recorded (after_frames sha256 ts sg bs) s = Some t.
Proof.
  induction bs as [|b bs IH]; intros sg s t B H; [exact H|]. inversion B; subst. cbn. apply IH; [assumption|]. apply frame_records; assumption.
Qed.
Lemma frames_settings bs : forall sg, Forall is_bytes bs -> same_settings sg (after_frames sha256 ts sg bs).
Proof.
  induction bs as [|b bs IH]; intros sg B; [repeat split|]. inversion B; subst. cbn.
  destruct (IH (fst (decode_signed sha256 ts sg b)) H2) as (A1 & A2 & A3 & A4). destruct (frame_settings sg b H1) as (B1 & B2 & B3 & B4).
  unfold same_settings, after_frames in *. rewrite A1, A2, A3, A4. auto.
Qed.

Lemma frames_timestamp bs : forall sg, Forall is_bytes bs -> (sg_timestamp sg <= sg_timestamp (after_frames sha256 ts sg bs))%Z.
Proof.
  induction bs as [|b bs IH]; intros sg B; [cbn; lia|]. inversion B; subst. cbn. specialize (IH (fst (decode_signed sha256 ts sg b)) H2).
  unfold after_frames in IH. etransitivity; [|exact IH].
  destruct (signed_cases sha256 ts sg b H1) as (_ & [(e & _ & _ & ->)|(d & _ & [(_ & _ & E & _)|[(_ & _ & E & _)|(_ & _ & _ & E & _)]])]);
    [|rewrite E..]; lia.
Qed.

Lemma stamp_bound b : is_bytes b -> (stamp b < 2 ^ 48)%Z.
Proof.
  intros B. unfold stamp. rewrite le_number_val.
  assert (B' : is_bytes (from_end b 12 6)).
  { unfold from_end. apply is_bytes_firstn. unfold is_bytes in *. rewrite Forall_forall in *. intros x Hx. apply B.
    rewrite <- (firstn_skipn (length b - 12) b). apply in_or_app. right. exact Hx. }
  pose proof (le_val_bound _ B') as Hb.
  assert (Hl : length (from_end b 12 6) <= 6) by (unfold from_end; apply firstn_le_length).
  assert (Hp : (256 ^ N.of_nat (length (from_end b 12 6)) <= 256 ^ 6)%N) by (apply N.pow_le_mono_r; lia).
  change (256 ^ 6)%N with 281474976710656%N in Hp. change (2 ^ 48)%Z with 281474976710656%Z. lia.
Qed.
End History.
