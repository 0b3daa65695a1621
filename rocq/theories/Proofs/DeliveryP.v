(** Delivery of messages through code words. *)
From Coq Require Import String Ascii List NArith ZArith Arith Bool Lia Sorting.Sorted.
From Verif.Model Require Import Py Dialect ProtocolMeta MsgHeader Struct Mavlink Segmentation DecoderBase MsgCreator Delivery.
From Verif.Spec Require Import Bytes Bits Header CrcSpec Frame Segment TelemetrySpec DeliverySpec.
From Verif.Proofs Require Import Base DialectP SegmentP SegStream SegMore BitOpsP ValuesP PackP EntropyDecP TelemetryP.
Import ListNotations.

(** ** A frame in front of other bytes *)
Section Front.
Variables (accepts : bytes -> Prop) (f g : bytes).
Hypothesis C : complete_frame accepts f.

Lemma c_len : 8 <= length f.
Proof. destruct C as (_ & L & _). lia. Qed.
Lemma ann_front : announced (f ++ g) 0 + 8 = length f.
Proof. pose proof c_len. destruct C as (_ & L & _). unfold announced. rewrite app_nth1 by lia. cbn [plus]. lia. Qed.
Lemma ann_back k : announced (f ++ g) (length f + k) = announced g k.
Proof. unfold announced. rewrite app_nth2 by lia. do 2 f_equal. lia. Qed.
Lemma end_front : frame_end (f ++ g) 0 = length f.
Proof. pose proof ann_front. unfold frame_end. lia. Qed.
Lemma end_back k : frame_end (f ++ g) (length f + k) = length f + frame_end g k.
Proof. unfold frame_end. rewrite ann_back. lia. Qed.
Lemma skip_back k : skipn (length f + k) (f ++ g) = skipn k g.
Proof. rewrite skipn_app, skipn_all2 by lia. cbn [app]. f_equal. lia. Qed.
Lemma at_back k i : frame_at accepts (f ++ g) (length f + k) i <-> frame_at accepts g k i.
Proof.
  unfold frame_at, header_at, frame_bytes. rewrite skip_back, ann_back, app_length. rewrite app_nth2 by lia.
  replace (length f + k + 5 - length f) with (k + 5) by lia. split; intros ((H1 & H2) & H3 & H4); repeat split; auto; lia.
Qed.
Lemma at_front : frame_at accepts (f ++ g) 0 (nth 5 f 0%N).
Proof.
  pose proof c_len. pose proof ann_front. destruct C as (V & L & A). unfold frame_at, header_at, frame_bytes. cbn [skipn]. rewrite app_length. split; [split; [lia|]|split].
  - rewrite firstn_app. replace (6 - length f) with 0 by lia. rewrite firstn_O, app_nil_r. exact V.
  - cbn [plus]. rewrite app_nth1 by lia. reflexivity.
  - replace (6 + announced (f ++ g) 0 + 2) with (length f) by lia. rewrite firstn_app, Nat.sub_diag, firstn_all, firstn_O, app_nil_r. exact A.
Qed.

Lemma in_moved n k i (s : structure) : In (k, i) (moved n s) <-> exists k', k = n + k' /\ In (k', i) s.
Proof.
  unfold moved. rewrite in_map_iff. split.
  - intros ([k' i'] & Q & H). injection Q as <- <-. eauto.
  - intros (k' & -> & H). exists (k', i). auto.
Qed.

Lemma segments_front s : segments accepts g s -> segments accepts (f ++ g) ((0, nth 5 f 0%N) :: moved (length f) s).
Proof.
  pose proof c_len as L8. pose proof end_front as E0. intros (S1 & S2 & S3). unfold segments, segments_upto. rewrite app_length. split; [|split].
  - intros k i [Q|H].
    + injection Q as <- <-. split; [lia|apply at_front].
    + apply in_moved in H as (k' & -> & H). destruct (S1 _ _ H). split; [lia|]. apply at_back. assumption.
  - constructor.
    + clear - S2. unfold moved. induction S2 as [|x t St IH Fx]; cbn [map]; constructor; auto. rewrite Forall_map. eapply Forall_impl; [|exact Fx].
      intros y Hy. cbn [fst] in *. rewrite end_back. lia.
    + apply Forall_forall. intros [k i] H. apply in_moved in H as (k' & -> & H). cbn [fst]. rewrite E0. lia.
  - intros k i Hk Fk. destruct (Nat.eq_dec k 0) as [->|N0].
    + left. left. destruct Fk as (_ & <- & _). cbn [plus]. rewrite app_nth1 by lia. reflexivity.
    + destruct (Nat.lt_ge_cases k (length f)) as [H|H].
      * right. exists 0, (nth 5 f 0%N). split; [left; reflexivity|]. rewrite E0. lia.
      * replace k with (length f + (k - length f)) in * by lia. set (k' := k - length f) in *. apply at_back in Fk.
        destruct (S3 k' i) as [I|(k2 & i2 & I & R)]; [lia|exact Fk| |].
        -- left. right. apply in_moved. exists k'. auto.
        -- right. exists (length f + k2), i2. split; [right; apply in_moved; exists k2; auto|]. rewrite end_back. lia.
Qed.

Section Parts.
Variable s : structure.
Let s' := (0, nth 5 f 0%N) :: moved (length f) s.
Lemma header_back j : in_header (f ++ g) s' (length f + j) <-> in_header g s j.
Proof.
  pose proof c_len. unfold in_header, s'. split.
  - intros (k & i & [Q|H'] & R); [injection Q as <- <-; lia|]. apply in_moved in H' as (k' & -> & H'). exists k', i. split; [exact H'|lia].
  - intros (k & i & I & R). exists (length f + k), i. split; [right; apply in_moved; eauto|lia].
Qed.
Lemma payload_back j : in_payload (f ++ g) s' (length f + j) <-> in_payload g s j.
Proof.
  pose proof c_len. pose proof ann_front. unfold in_payload, s'. split.
  - intros (k & i & [Q|H'] & R); [injection Q as <- <-; lia|]. apply in_moved in H' as (k' & -> & H'). rewrite ann_back in R. exists k', i. split; [exact H'|lia].
  - intros (k & i & I & R). exists (length f + k), i. split; [right; apply in_moved; eauto|rewrite ann_back; lia].
Qed.
Lemma checksum_back j : in_checksum (f ++ g) s' (length f + j) <-> in_checksum g s j.
Proof.
  pose proof c_len. pose proof ann_front. unfold in_checksum, s'. split.
  - intros (k & i & [Q|H'] & R); [injection Q as <- <-; lia|]. apply in_moved in H' as (k' & -> & H'). rewrite ann_back in R. exists k', i. split; [exact H'|lia].
  - intros (k & i & I & R). exists (length f + k), i. split; [right; apply in_moved; eauto|rewrite ann_back; lia].
Qed.
Lemma covered_back j : covered (f ++ g) s' (length f + j) <-> covered g s j.
Proof.
  pose proof end_front. unfold covered, s'. split.
  - intros (k & i & [Q|H'] & R); [injection Q as <- <-; lia|]. apply in_moved in H' as (k' & -> & H'). rewrite end_back in R. exists k', i. split; [exact H'|lia].
  - intros (k & i & I & R). exists (length f + k), i. split; [right; apply in_moved; eauto|rewrite end_back; lia].
Qed.
Lemma covered_front j : j < length f -> covered (f ++ g) s' j.
Proof. intro H. exists 0, (nth 5 f 0%N). split; [left; reflexivity|]. rewrite end_front. lia. Qed.

Lemma parts_front p pg : classifies (f ++ g) s' p -> classifies g s pg -> exists pf, p = pf ++ pg /\ length pf = length f /\ ~ In UNKNOWN pf.
Proof.
  intros (L & K) (Lg & Kg). rewrite app_length in *. exists (firstn (length f) p). split; [|split].
  - rewrite <- (firstn_skipn (length f) p) at 1. f_equal. apply nth_ext_eq with (d := UNKNOWN); [rewrite skipn_length; lia|].
    rewrite skipn_length. intros j Hj. rewrite nth_skipn. destruct (K (length f + j) ltac:(lia)) as (K1 & K2 & K3 & K4). destruct (Kg j ltac:(lia)) as (G1 & G2 & G3 & G4).
    rewrite header_back in K1. rewrite payload_back in K2. rewrite checksum_back in K3. rewrite covered_back in K4.
    destruct (nth (length f + j) p UNKNOWN) eqn:E; symmetry.
    + apply G1, K1. reflexivity.
    + apply G2, K2. reflexivity.
    + apply G3, K3. reflexivity.
    + apply G4, K4. reflexivity.
  - rewrite firstn_length. lia.
  - intro I. apply (In_nth _ _ UNKNOWN) in I as (j & Hj & E). rewrite firstn_length in Hj. rewrite nth_firstn in E by lia.
    destruct (K j ltac:(lia)) as (_ & _ & _ & K4). apply K4 in E. apply E, covered_front. lia.
Qed.

Lemma valid_front v vg : validates (f ++ g) s' v -> validates g s vg -> v = repeat 1%Z (8 * length f) ++ vg.
Proof.
  intros (L & K) (Lg & Kg). rewrite app_length in *. apply nth_ext_eq with (d := 0%Z); [rewrite app_length, repeat_length; lia|].
  intros q Hq. pose proof (Nat.div_mod q 8 ltac:(lia)) as DM. pose proof (Nat.mod_upper_bound q 8 ltac:(lia)) as UB.
  set (j := q / 8) in *. set (r := q mod 8) in *. destruct (Nat.lt_ge_cases j (length f)) as [H|H].
  - rewrite app_nth1 by (rewrite repeat_length; lia). assert (HR : forall n m, m < n -> nth m (repeat 1%Z n) 0%Z = 1%Z).
    { induction n as [|n IH]; intros [|m] Hm; cbn; try lia; auto. apply IH. lia. }
    rewrite HR by lia. rewrite DM. destruct (K j r ltac:(lia) UB) as [K1 _]. apply K1, covered_front. exact H.
  - rewrite app_nth2 by (rewrite repeat_length; lia). rewrite repeat_length.
    replace (q - 8 * length f) with (8 * (j - length f) + r) by lia. rewrite DM. set (j' := j - length f). replace j with (length f + j') in * by lia.
    destruct (K (length f + j') r ltac:(lia) UB) as [K1 K2]. destruct (Kg j' r ltac:(lia) UB) as [G1 G2]. rewrite covered_back in K1, K2.
    destruct (covered_dec g s j') as [Cv|Cv]; [transitivity 1%Z|transitivity 0%Z]; try (apply K1; exact Cv); try (apply K2; exact Cv); symmetry; [apply G1|apply G2]; exact Cv.
Qed.
End Parts.
End Front.

(** Frames, then anything. *)
Lemma frames_then text : forall fl g p v s, Forall packed_plain fl -> is_bytes g -> segment_buffer (decode text) g = Ok (p, v, s) ->
  exists pf, segment_buffer (decode text) (concat fl ++ g) =
    Ok (pf ++ p, repeat 1%Z (8 * length (concat fl)) ++ v, good_starts 0 (map Good fl) ++ moved (length (concat fl)) s) /\
    length pf = length (concat fl) /\ ~ In UNKNOWN pf.
Proof.
  assert (M0 : forall s, moved 0 s = s) by (intro s; unfold moved; erewrite map_ext; [apply map_id|intros []; reflexivity]).
  assert (Mm : forall a b s, moved a (moved b s) = moved (a + b) s).
  { intros a b s. unfold moved. rewrite map_map. apply map_ext. intros [k i]. cbn [fst snd]. f_equal. lia. }
  assert (Gs : forall fl a p0, good_starts (a + p0) (map Good fl) = moved a (good_starts p0 (map Good fl))).
  { induction fl as [|f fl IH]; intros a p0; [reflexivity|]. cbn [map good_starts moved fst snd]. f_equal. rewrite <- Nat.add_assoc. apply IH. }
  induction fl as [|f fl IH]; intros g p v s F B E.
  - exists []. cbn [concat app map good_starts length]. rewrite Nat.mul_0_r. cbn [repeat app]. rewrite M0. auto.
  - inversion F as [|? ? F1 F2]; subst. destruct (packed_complete f F1) as [Bf Cf]. destruct (IH g p v s F2 B E) as (pf & E1 & L1 & U1).
    assert (Bg : is_bytes (concat fl ++ g)).
    { apply Forall_app. split; [|exact B]. clear - F2. induction F2 as [|x t Hx Ht IHt]; [constructor|]. cbn [concat]. apply Forall_app. split; [apply (packed_complete x Hx)|exact IHt]. }
    assert (Bfg : is_bytes (f ++ concat fl ++ g)) by (apply Forall_app; split; assumption).
    destruct (segment_decode_total text (f ++ concat fl ++ g) Bfg) as (p' & v' & s' & E').
    pose proof E1 as D1. apply segment_decode_iff in D1; [|exact Bg]. destruct D1 as (S1 & C1 & V1).
    pose proof E' as D'. apply segment_decode_iff in D'; [|exact Bfg]. destruct D' as (S' & C' & V').
    assert (s' = (0, nth 5 f 0%N) :: moved (length f) (good_starts 0 (map Good fl) ++ moved (length (concat fl)) s)).
    { eapply upto_unique; [exact S'|]. apply segments_front; assumption. }
    subst s'. destruct (parts_front _ f (concat fl ++ g) Cf _ _ _ C' C1) as (pf' & -> & L2 & U2). pose proof (valid_front _ f (concat fl ++ g) Cf _ _ _ V' V1) as ->.
    exists (pf' ++ pf). cbn [concat map good_starts]. rewrite <- app_assoc, E'. split; [|split].
    + do 2 f_equal; [f_equal|].
      * rewrite <- app_assoc. reflexivity.
      * rewrite app_assoc, <- repeat_app. do 2 f_equal. rewrite app_length. lia.
      * cbn [app plus]. f_equal. unfold moved at 1. rewrite map_app. f_equal.
        -- symmetry. transitivity (good_starts (length f + 0) (map Good fl)); [f_equal; lia|apply Gs].
        -- fold (moved (length f) (moved (length (concat fl)) s)). rewrite Mm, app_length. reflexivity.
    + rewrite !app_length. lia.
    + rewrite in_app_iff. tauto.
Qed.

(** ** Few bytes *)
Lemma plen_one i : plen i 1 -> i = 7%N.
Proof.
  intro H. destruct (plen_bounds _ _ H) as (Hi & _). apply payload_length_spec in H.
  assert (T : forallb (fun i => match payload_length i with Some 1 => N.eqb i 7 | _ => true end) (map N.of_nat (seq 0 256)) = true) by (vm_compute; reflexivity).
  rewrite forallb_forall in T. specialize (T i). rewrite H in T. apply N.eqb_eq, T. rewrite <- (N2Nat.id i). apply in_map, in_seq. lia.
Qed.
Lemma short_frame g k i : is_bytes g -> length g <= 9 -> frame_at (fun f => exists c, frame_v1 c f) g k i -> length g = 9 /\ k = 0 /\ i = 7%N /\ like_auth_key g.
Proof.
  intros B L ((Hk & V) & Hi & c & Fc). pose proof (frame_v1_length (fun b => b) c _ Fc) as Lf. unfold frame_bytes in Lf. rewrite firstn_length, skipn_length in Lf.
  remember (firstn 6 (skipn k g)) as h eqn:Eh. destruct V as [n q s cc id Pl]. destruct (plen_bounds _ _ Pl) as (B1 & B2 & B3).
  assert (N1 : forall j, j < 6 -> nth (k + j) g 0%N = nth j [254%N; N.of_nat n; q; s; cc; id] 0%N).
  { intros j Hj. rewrite Eh, nth_firstn by exact Hj. rewrite nth_skipn. reflexivity. }
  assert (A : announced g k = n) by (unfold announced; rewrite (N1 1 ltac:(lia)); cbn [nth]; apply Nat2N.id).
  assert (N1' : nth 1 (firstn (6 + announced g k + 2) (skipn k g)) 0%N = N.of_nat n).
  { rewrite nth_firstn by lia. rewrite nth_skipn. rewrite (N1 1 ltac:(lia)). reflexivity. }
  rewrite N1', Nat2N.id, A in Lf. assert (n = 1 /\ k = 0 /\ length g = 9) as (-> & -> & L9) by lia. rewrite (plen_one _ Pl) in *.
  assert (Fb : frame_bytes g 0 = g). { unfold frame_bytes. rewrite A. cbn [skipn]. apply firstn_all2. lia. } rewrite Fb in Fc.
  split; [exact L9|]. split; [reflexivity|]. split; [rewrite <- Hi; rewrite (N1 5 ltac:(lia)); reflexivity|].
  do 9 (destruct g as [|? g]; [cbn in L9; lia|]). destruct g; [|cbn in L9; lia]. cbn [firstn skipn] in Eh. change (N.of_nat 1) with 1%N in Eh. injection Eh as <- <- <- <- <- <-.
  do 6 eexists. exists c. split; [reflexivity|]. split; [|exact Fc]. destruct Fc as [M _]. exact M.
Qed.

Lemma few_bytes text g p v s : is_bytes g -> length g <= 9 -> segment_buffer (decode text) g = Ok (p, v, s) ->
  (like_auth_key g /\ s = [(0, 7%N)]) \/ (~ like_auth_key g /\ s = [] /\ p = repeat UNKNOWN (length g) /\ v = repeat 0%Z (8 * length g)).
Proof.
  intros B L E. pose proof E as D. apply segment_decode_iff in D; [|exact B]. destruct D as ((S1 & S2 & S3) & (Lp & Cl) & (Lv & Va)).
  assert (T : forall k i, frame_at (fun f => exists c, frame_v1 c f) g k i -> k = 0 /\ i = 7%N) by (intros k i H; destruct (short_frame g k i B L H) as (_ & A1 & A2 & _); auto).
  assert (K : like_auth_key g -> In (0, 7%N) s).
  { intros (q & sy & cc & x & lo & hi & m & Eg & M & Fm). destruct (S3 0 7%N) as [I|(k & i & I & R)]; [rewrite Eg; cbn [length]; lia| |exact I|lia].
    assert (An : announced g 0 = 1) by (rewrite Eg; reflexivity).
    split; [split|split].
    - rewrite Eg. cbn [length]. lia.
    - rewrite Eg. cbn [skipn firstn]. change 1%N with (N.of_nat 1). constructor. apply payload_length_spec. vm_compute. reflexivity.
    - rewrite Eg. reflexivity.
    - exists m. unfold frame_bytes. rewrite An. cbn [skipn]. rewrite firstn_all2; [exact Fm|lia]. }
  destruct s as [|[k i] s].
  - right. split; [intro H; apply (K H)|]. split; [reflexivity|]. split.
    + apply nth_ext_eq with (d := UNKNOWN); [rewrite repeat_length; exact Lp|]. intros j Hj. rewrite nth_repeat. apply Cl; [lia|]. intros (k & i & [] & _).
    + apply nth_ext_eq with (d := 0%Z); [rewrite repeat_length; exact Lv|]. intros q Hq. rewrite nth_repeat. rewrite (Nat.div_mod q 8) by lia.
      apply Va; [apply Nat.div_lt_upper_bound; lia|apply Nat.mod_upper_bound; lia|]. intros (k & i & [] & _).
  - destruct (S1 k i (or_introl eq_refl)) as [_ F1]. destruct (short_frame g k i B L F1) as (L9 & -> & -> & Ak). left. split; [exact Ak|]. f_equal.
    destruct s as [|[k2 i2] s]; [reflexivity|]. exfalso. destruct (S1 k2 i2) as [H _]; [right; left; reflexivity|]. inversion S2 as [|? ? _ Fa]; subst. inversion Fa as [|? ? Fb _]; subst.
    cbn [fst] in Fb. destruct (S1 k2 i2) as [_ F2]; [right; left; reflexivity|]. apply T in F2 as [-> _]. unfold frame_end in Fb. lia.
Qed.

(** ** Bits and bytes *)
Lemma on_b2z l : map on (map Z.b2z l) = l.
Proof. rewrite map_map. erewrite map_ext; [apply map_id|]. intros []; reflexivity. Qed.
Lemma tobytes_bytes l : is_bytes (tobytes l).
Proof. apply packbits_bytes. Qed.
Lemma bits_inj : forall a b, is_bytes a -> is_bytes b -> bytes_bits a = bytes_bits b -> a = b.
Proof.
  induction a as [|x a IH]; intros [|y b] Ha Hb E; try reflexivity; try discriminate. inversion Ha; inversion Hb; subst.
  unfold bytes_bits in E. cbn [flat_map] in E. apply app_inv_len in E as [E1 E2]; [|reflexivity].
  f_equal; [|apply IH; assumption]. rewrite <- (bits_value_byte x), <- (bits_value_byte y) by assumption. rewrite E1. reflexivity.
Qed.

Lemma tobytes_bits l : exists pad, pad < 8 /\ bytes_bits (tobytes l) = l ++ repeat false pad.
Proof. destruct (pack_bits (map Z.b2z l)) as (pad & H & E). exists pad. split; [exact H|]. rewrite on_b2z in E. exact E. Qed.
Lemma tobytes_app b l : is_bytes b -> tobytes (bytes_bits b ++ l) = b ++ tobytes l.
Proof.
  intro B. apply bits_inj; [apply tobytes_bytes|apply Forall_app; split; [exact B|apply tobytes_bytes]|].
  destruct (tobytes_bits (bytes_bits b ++ l)) as (p1 & H1 & E1). destruct (tobytes_bits l) as (p2 & H2 & E2). unfold bytes_bits in *. rewrite flat_map_app. rewrite E1, E2, <- app_assoc. do 3 f_equal.
  apply (f_equal (@length bool)) in E1, E2. rewrite flat_map_byte_bits, !app_length, flat_map_byte_bits, repeat_length in E1. rewrite flat_map_byte_bits, app_length, repeat_length in E2. lia.
Qed.
Lemma tobytes_exact b : is_bytes b -> tobytes (bytes_bits b) = b.
Proof. intro B. rewrite <- (app_nil_r (bytes_bits b)), tobytes_app by exact B. apply app_nil_r. Qed.
Lemma tobytes_length l : length (tobytes l) = (length l + 7) / 8.
Proof.
  destruct (tobytes_bits l) as (p & H & E). apply (f_equal (@length bool)) in E. rewrite length_bytes_bits, app_length, repeat_length in E.
  apply (Nat.div_unique _ _ _ (7 - p)); lia.
Qed.

(** ** The parts of a buffer *)
Lemma packed_bytes fl : Forall packed_plain fl -> is_bytes (concat fl).
Proof. intro F. induction F as [|x t Hx Ht IHt]; [constructor|]. cbn [concat]. apply Forall_app. split; [apply (packed_complete x Hx)|exact IHt]. Qed.

Definition the_parts (f1 f2 f3 f4 f5 : bytes) (a e : nat) : list bytes :=
  map snd (filter (fun m => Nat.leb a (fst m) && Nat.ltb (fst m) e)%bool [(0, f1); (52, f2); (72, f3); (108, f4); (135, f5)]).

Lemma part_of n i a e L f1 f2 f3 f4 f5 : length f1 = 52 -> length f2 = 20 -> length f3 = 36 -> length f4 = 27 -> length f5 = 18 ->
  nth 5 f1 0%N = 33%N -> nth 5 f2 0%N = 234%N -> nth 5 f3 0%N = 30%N -> nth 5 f4 0%N = 212%N -> nth 5 f5 0%N = 218%N ->
  nth_error (word_layout n) i = Some (a, e, L) ->
  let fl := the_parts f1 f2 f3 f4 f5 a e in
  slice (f1 ++ f2 ++ f3 ++ f4 ++ f5) a e = concat fl /\ good_starts 0 (map Good fl) = messages_between a e /\ length (concat fl) = e - a /\
  incl fl [f1; f2; f3; f4; f5] /\ e <= 153 /\ a <= e.
Proof.
  intros L1 L2 L3 L4 L5 I1 I2 I3 I4 I5 H fl.
  assert (S : forall A B C a e, f1 ++ f2 ++ f3 ++ f4 ++ f5 = A ++ B ++ C -> length A = a -> a + length B = e -> slice (f1 ++ f2 ++ f3 ++ f4 ++ f5) a e = B).
  { intros A B C' a0 e0 -> <- <-. apply slice_app_mid. }
  assert (Sub : incl fl [f1; f2; f3; f4; f5]). { unfold fl, the_parts. intros x Hx. apply in_map_iff in Hx as ([k y] & <- & Hy). apply filter_In in Hy as [Hy _]. cbn in Hy. cbn. intuition congruence. }
  destruct n as [|[|[|[|n]]]]; try (destruct i; discriminate H).
  - destruct i as [|i]; [|destruct i; discriminate H]. injection H as <- <- <-. cbn [the_parts filter map snd fst Nat.leb Nat.ltb andb] in fl. subst fl. cbn [concat map good_starts]. rewrite app_nil_r.
    split; [apply (S [] _ []); rewrite ?app_nil_r; try reflexivity; rewrite ?app_length; lia|]. split; [rewrite I1, I2, I3, I4, I5, L1, L2, L3, L4; reflexivity|]. split; [rewrite !app_length; lia|]. split; [exact Sub|lia].
  - destruct i as [|[|i]]; [| |destruct i; discriminate H]; injection H as <- <- <-; cbn [the_parts filter map snd fst Nat.leb Nat.ltb andb] in fl; subst fl; cbn [concat map good_starts]; rewrite app_nil_r.
    + split; [apply (S [] _ (f3 ++ f4 ++ f5)); rewrite <- ?app_assoc; try reflexivity; rewrite ?app_length; cbn [length]; lia|]. split; [rewrite I1, I2, L1; reflexivity|]. split; [rewrite !app_length; lia|]. split; [exact Sub|lia].
    + split; [apply (S (f1 ++ f2) _ []); rewrite ?app_nil_r, <- ?app_assoc; try reflexivity; rewrite ?app_length; lia|]. split; [rewrite I3, I4, I5, L3, L4; reflexivity|]. split; [rewrite !app_length; lia|]. split; [exact Sub|lia].
  - destruct i as [|[|[|i]]]; [| | |destruct i; discriminate H]; injection H as <- <- <-; cbn [the_parts filter map snd fst Nat.leb Nat.ltb andb] in fl; subst fl; cbn [concat map good_starts]; rewrite app_nil_r.
    + split; [apply (S [] _ (f2 ++ f3 ++ f4 ++ f5)); rewrite <- ?app_assoc; try reflexivity; rewrite ?app_length; cbn [length]; lia|]. split; [rewrite I1; reflexivity|]. split; [rewrite ?app_length; lia|]. split; [exact Sub|lia].
    + split; [apply (S f1 _ (f4 ++ f5)); rewrite <- ?app_assoc; try reflexivity; rewrite ?app_length; lia|]. split; [rewrite I2, I3, L2; reflexivity|]. split; [rewrite !app_length; lia|]. split; [exact Sub|lia].
    + split; [apply (S (f1 ++ f2 ++ f3) _ []); rewrite ?app_nil_r, <- ?app_assoc; try reflexivity; rewrite ?app_length; lia|]. split; [rewrite I4, I5, L4; reflexivity|]. split; [rewrite !app_length; lia|]. split; [exact Sub|lia].
Qed.

(** The words, one after the other. *)
Lemma slice_bits b a e : slice (bytes_bits b) (8 * a) (8 * e) = bytes_bits (slice b a e).
Proof. apply flat_slice. Qed.
Lemma info_words_layout random n b : length b = 153 -> (forall c l, length (random c l) = l) -> In n [1; 2; 3] ->
  info_words random n (code_length n) (bytes_bits b) =
    Ok (map (fun cw => match cw with (c, (a, e, L)) => bytes_bits (slice b a e) ++ random c L end) (combine (seq 0 n) (word_layout n))) \/
  (n = 2 /\ info_words random n (code_length n) (bytes_bits b) = Ok [bytes_bits (slice b 0 72) ++ random 0 72; bytes_bits (slice b 72 153)]).
Proof.
  intros Lb R Hn. assert (Lbits : length (bytes_bits b) = 1224) by (rewrite length_bytes_bits, Lb; reflexivity).
  assert (Whole : bytes_bits (slice b 0 153) = bytes_bits b). { f_equal. unfold slice. cbn [skipn]. apply firstn_all2. lia. }
  assert (Tail : forall a, 8 * a <= 1224 -> skipn (8 * a) (bytes_bits b) = bytes_bits (slice b a 153)).
  { intros a Ha. rewrite flat_skipn. f_equal. unfold slice. symmetry. apply firstn_all2. rewrite skipn_length. lia. }
  assert (Head : forall a, firstn (8 * a) (bytes_bits b) = bytes_bits (slice b 0 a)).
  { intros a. rewrite flat_firstn. f_equal. unfold slice. cbn [skipn]. f_equal. lia. }
  destruct Hn as [<- | [<- | [<- | []]]].
  - left. cbn [info_words code_length word_layout combine seq map]. unfold fill_up. rewrite Lbits, Whole. reflexivity.
  - right. split; [reflexivity|]. cbn [info_words code_length]. unfold fill_up. change (firstn 576) with (@firstn bool (8 * 72)). change (skipn 576) with (@skipn bool (8 * 72)). rewrite Head, Tail by lia. reflexivity.
  - left. cbn [info_words code_length word_layout combine seq map]. unfold fill_up. change (firstn 416) with (@firstn bool (8 * 52)). change (slice (bytes_bits b) 416 864) with (slice (bytes_bits b) (8 * 52) (8 * 108)). change (skipn 864) with (@skipn bool (8 * 108)). rewrite Head, Tail, slice_bits by lia. reflexivity.
Qed.

Lemma nth_word random n b ws i a e L : length b = 153 -> (forall c l, length (random c l) = l) ->
  info_words random n (code_length n) (bytes_bits b) = Ok ws -> nth_error (word_layout n) i = Some (a, e, L) ->
  exists w, nth_error ws i = Some w /\ w = bytes_bits (slice b a e) ++ random i L.
Proof.
  intros Lb R E H. assert (Hn : In n [1; 2; 3]) by (destruct n as [|[|[|[|n]]]]; cbn; auto; destruct i; discriminate H).
  assert (R0 : random 1 0 = []) by (apply length_zero_iff_nil, R).
  destruct (info_words_layout random n b Lb R Hn) as [Q|[-> Q]]; rewrite Q in E; apply (f_equal (fun r => match r with Ok x => x | _ => [] end)) in E; cbv beta iota in E; subst ws.
  - destruct Hn as [<- | [<- | [<- | []]]]; cbn [word_layout] in *; do 3 (destruct i as [|i]; [first [discriminate H | injection H as <- <- <-; eexists; split; reflexivity]|]); destruct i; discriminate H.
  - do 2 (destruct i as [|i]; [cbn in H; injection H as <- <- <-; eexists; split; [reflexivity|rewrite ?R0, ?app_nil_r; reflexivity]|]). destruct i; discriminate H.
Qed.

Lemma frames_of (text : bytes -> list N) r q t b q' : in_byte q -> usable_all r t -> telemetry r q t = Ok (b, q') ->
  exists f1 f2 f3 f4 f5, b = f1 ++ f2 ++ f3 ++ f4 ++ f5 /\ Forall packed_plain [f1; f2; f3; f4; f5] /\
    length f1 = 52 /\ length f2 = 20 /\ length f3 = 36 /\ length f4 = 27 /\ length f5 = 18 /\
    nth 5 f1 0%N = 33%N /\ nth 5 f2 0%N = 234%N /\ nth 5 f3 0%N = 30%N /\ nth 5 f4 0%N = 212%N /\ nth 5 f5 0%N = 218%N.
Proof.
  intros Bq U T. destruct (telemetry_frames text r q t Bq U) as (f1 & f2 & f3 & f4 & f5 & E & (B1 & L1 & I1 & (c1 & fs1 & P1) & _) & (B2 & L2 & I2 & (c2 & fs2 & P2) & _) & (B3 & L3 & I3 & (c3 & fs3 & P3) & _) & (B4 & L4 & I4 & (c4 & fs4 & P4) & _) & (B5 & L5 & I5 & (c5 & fs5 & P5) & _)).
  rewrite T in E. injection E as -> _. exists f1, f2, f3, f4, f5. split; [reflexivity|]. split; [|auto 12].
  repeat apply Forall_cons; try apply Forall_nil; do 3 eexists; exists 1%Z, 1%Z; eassumption.
Qed.

Lemma received_word text r q t b q' random n ws i a e L : in_byte q -> usable_all r t -> telemetry r q t = Ok (b, q') ->
  (forall c l, length (random c l) = l) -> info_words random n (code_length n) (bytes_bits b) = Ok ws -> nth_error (word_layout n) i = Some (a, e, L) ->
  exists w pf pg vg sg, nth_error ws i = Some w /\ w = bytes_bits (slice b a e) ++ random i L /\
    segment_buffer (decode text) (tobytes (random i L)) = Ok (pg, vg, sg) /\
    received (decode text) w = Ok (pf ++ pg, repeat 1%Z (8 * (e - a)) ++ vg, messages_between a e ++ moved (e - a) sg) /\
    length pf = e - a /\ ~ In UNKNOWN pf /\ tobytes w = slice b a e ++ tobytes (random i L).
Proof.
  intros Bq U T R E H. destruct (frames_of text r q t b q' Bq U T) as (f1 & f2 & f3 & f4 & f5 & Eb & P & L1 & L2 & L3 & L4 & L5 & I1 & I2 & I3 & I4 & I5).
  assert (Lb : length b = 153) by (rewrite Eb, !app_length; lia). destruct (nth_word random n b ws i a e L Lb R E H) as (w & Hw & Ew).
  destruct (part_of n i a e L f1 f2 f3 f4 f5 L1 L2 L3 L4 L5 I1 I2 I3 I4 I5 H) as (Sl & Gs & Lc & Sub & _). cbn zeta in *. rewrite <- Eb in Sl. set (fl := the_parts f1 f2 f3 f4 f5 a e) in *.
  assert (Pf : Forall packed_plain fl). { apply Forall_forall. intros x Hx. rewrite Forall_forall in P. apply P, Sub, Hx. }
  assert (Tw : tobytes w = slice b a e ++ tobytes (random i L)). { rewrite Ew. apply tobytes_app. rewrite Sl. apply packed_bytes. exact Pf. }
  destruct (segment_decode_total text (tobytes (random i L)) (tobytes_bytes _)) as (pg & vg & sg & Eg).
  destruct (frames_then text fl (tobytes (random i L)) pg vg sg Pf (tobytes_bytes _) Eg) as (pf & Er & Lp & Up). rewrite <- Sl, Gs in Er. rewrite Sl, Lc in Er. rewrite Lc in Lp.
  exists w, pf, pg, vg, sg. split; [exact Hw|]. split; [exact Ew|]. split; [exact Eg|]. split; [|auto]. unfold received. rewrite Tw, Sl. exact Er.
Qed.

Lemma structure_bytes text r q t b q' n i a e L : in_byte q -> usable_all r t -> telemetry r q t = Ok (b, q') -> nth_error (word_layout n) i = Some (a, e, L) ->
  structure_of (decode text) (bytes_bits (slice b a e)) = Ok (messages_between a e).
Proof.
  intros Bq U T H. destruct (frames_of text r q t b q' Bq U T) as (f1 & f2 & f3 & f4 & f5 & Eb & P & L1 & L2 & L3 & L4 & L5 & I1 & I2 & I3 & I4 & I5).
  destruct (part_of n i a e L f1 f2 f3 f4 f5 L1 L2 L3 L4 L5 I1 I2 I3 I4 I5 H) as (Sl & Gs & Lc & Sub & _). cbn zeta in *. rewrite <- Eb in Sl. set (fl := the_parts f1 f2 f3 f4 f5 a e) in *.
  assert (Pf : Forall packed_plain fl). { apply Forall_forall. intros x Hx. rewrite Forall_forall in P. apply P, Sub, Hx. }
  unfold structure_of. rewrite Sl, tobytes_exact by (apply packed_bytes; exact Pf).
  destruct (segment_decode_total text [] ltac:(constructor)) as (pg & vg & sg & Eg).
  destruct (frames_then text fl [] pg vg sg Pf ltac:(constructor) Eg) as (pf & Er & _). rewrite app_nil_r in Er. rewrite Er. cbn [bind]. rewrite Gs.
  assert (sg = []) as ->. { destruct (few_bytes text [] pg vg sg ltac:(constructor) ltac:(cbn; lia) Eg) as [[(q0 & s0 & c0 & x0 & lo & hi & m & Q & _) _]|(_ & -> & _)]; [discriminate Q|reflexivity]. }
  cbn [moved map]. rewrite app_nil_r. reflexivity.
Qed.

Lemma known_word text r q t b q' n : in_byte q -> usable_all r t -> telemetry r q t = Ok (b, q') -> In n [1; 2; 3] ->
  known_structures (decode text) n (bytes_bits b) = Ok (map (fun w => match w with (a, e, _) => messages_between a e end) (word_layout n)).
Proof.
  intros Bq U T Hn. pose proof (frames_of text r q t b q' Bq U T) as (f1 & f2 & f3 & f4 & f5 & Eb & _ & L1 & L2 & L3 & L4 & L5 & _).
  assert (Lb : length b = 153) by (rewrite Eb, !app_length; lia). clear Eb f1 f2 f3 f4 f5 L1 L2 L3 L4 L5.
  assert (Whole : bytes_bits b = bytes_bits (slice b 0 153)). { f_equal. unfold slice. cbn [skipn]. symmetry. apply firstn_all2. lia. }
  assert (Tail : forall a, skipn (8 * a) (bytes_bits b) = bytes_bits (slice b a 153)).
  { intros a. rewrite flat_skipn. f_equal. unfold slice. symmetry. apply firstn_all2. rewrite skipn_length. lia. }
  assert (Head : forall a, firstn (8 * a) (bytes_bits b) = bytes_bits (slice b 0 a)).
  { intros a. rewrite flat_firstn. f_equal. unfold slice. cbn [skipn]. f_equal. lia. }
  pose proof (fun n i a e L => structure_bytes text r q t b q' n i a e L Bq U T) as SB.
  destruct Hn as [<- | [<- | [<- | []]]]; unfold known_structures.
  - rewrite Whole, (SB 1 0 _ _ _ eq_refl). reflexivity.
  - change (firstn 576) with (@firstn bool (8 * 72)). change (skipn 576) with (@skipn bool (8 * 72)). rewrite Head, Tail, (SB 2 0 _ _ _ eq_refl), (SB 2 1 _ _ _ eq_refl). reflexivity.
  - change (firstn 416) with (@firstn bool (8 * 52)). change (slice (bytes_bits b) 416 864) with (slice (bytes_bits b) (8 * 52) (8 * 108)). change (skipn 864) with (@skipn bool (8 * 108)). rewrite Head, Tail, slice_bits, (SB 3 0 _ _ _ eq_refl), (SB 3 1 _ _ _ eq_refl), (SB 3 2 _ _ _ eq_refl). reflexivity.
Qed.

(** Every message is whole in one of the words. *)
Definition holds_whole (n i start stop : nat) : bool :=
  match nth_error (word_layout n) i with Some (a, e, _) => (Nat.leb a start && Nat.leb stop e)%bool | None => false end.
Lemma skipn_plus {A} : forall n m (l : list A), skipn n (skipn m l) = skipn (m + n) l.
Proof. intros n m. induction m as [|m IH]; intros [|x l]; cbn [skipn plus]; auto. destruct n; reflexivity. Qed.
Lemma slice_within {A} (l g : list A) a e i j : a <= i -> j <= e -> e <= length l -> slice (slice l a e ++ g) (i - a) (j - a) = slice l i j.
Proof.
  intros H1 H2 H3. unfold slice. destruct (Nat.le_gt_cases j i) as [H|H]; [replace (j - i) with 0 by lia; replace (j - a - (i - a)) with 0 by lia; reflexivity|].
  rewrite skipn_app, firstn_length, skipn_length. replace (i - a - Nat.min (e - a) (length l - a)) with 0 by lia. rewrite firstn_app, skipn_length, firstn_length, skipn_length.
  replace (j - a - (i - a) - (Nat.min (e - a) (length l - a) - (i - a))) with 0 by lia. rewrite firstn_O, app_nil_r.
  rewrite skipn_firstn_comm, firstn_firstn, skipn_plus. f_equal; [lia|f_equal; lia].
Qed.
