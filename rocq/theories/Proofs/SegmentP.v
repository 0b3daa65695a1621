(** Proofs about the segmentation loop. *)
From Coq Require Import List NArith ZArith Bool Lia Arith Sorting.Sorted.
From Verif.Model Require Import Py Dialect ProtocolMeta MsgHeader Segmentation.
From Verif.Spec Require Import Bytes Header Segment.
From Verif.Proofs Require Import Base DialectP HeaderP.
Import ListNotations.

Section Seg.
Context {D : Type}.
Variable parser : bytes -> res D.
Variable b : bytes.
Hypothesis B : is_bytes b.

Definition acc (x : bytes) : Prop := exists d, parser x = Ok d.

Lemma slice_hdr k : slice b k (k + header_len) = firstn 6 (skipn k b).
Proof. unfold slice. f_equal. change header_len with 6. lia. Qed.

Lemma nth_hdr k j : j < 6 -> nth j (firstn 6 (skipn k b)) 0%N = nth (k + j) b 0%N.
Proof. intros. rewrite nth_firstn by auto. apply nth_skipn. Qed.

Lemma hdr_parse k : header_at b k ->
  is_valid_header (firstn 6 (skipn k b)) = true /\
  from_buffer (firstn 6 (skipn k b)) None = Ok (FH (firstn 6 (skipn k b))).
Proof.
  intros [L V]. split; [apply is_valid_header_spec; auto|].
  apply from_buffer_valid; auto.
  - apply is_bytes_firstn, is_bytes_skipn; auto.
  - rewrite firstn_length, skipn_length. lia.
Qed.

Lemma frame_slice k : slice b k (k + announced b k + protocol_overhead) = frame_bytes b k.
Proof. unfold slice, frame_bytes. f_equal. change protocol_overhead with 8. lia. Qed.

(* what one iteration does *)
Lemma segment_at_known st k : is_unknown (nth k (fst (fst st)) UNKNOWN) = false -> segment_at parser b st k = Ok st.
Proof. destruct st as [[p v] s]. unfold segment_at; simpl. intros ->. reflexivity. Qed.

Lemma segment_at_nohdr st k : k + 8 <= length b -> ~ header_at b k -> segment_at parser b st k = Ok st.
Proof.
  destruct st as [[p v] s]. unfold segment_at. intros L H. destruct (negb _); auto.
  rewrite slice_hdr. destruct (is_valid_header _) eqn:E; auto.
  apply is_valid_header_spec in E. exfalso. apply H. split; auto.
Qed.

Lemma segment_at_hdr p v s k : is_unknown (nth k p UNKNOWN) = true -> header_at b k ->
  segment_at parser b (p, v, s) k =
  match parser (frame_bytes b k) with
  | Err MAVError => Ok (p, v, s)
  | Err e => Err e
  | Ok _ => Ok (fill (fill (fill p k (k + 6) HEADER) (k + 6) (k + 6 + announced b k) PAYLOAD)
                     (k + 6 + announced b k) (k + 6 + announced b k + 2) CHECKSUM,
                fill v (k * 8) ((k + length (frame_bytes b k)) * 8) 1%Z,
                dict_set Nat.eqb s k (nth (k + 5) b 0%N))
  end.
Proof.
  intros U H. unfold segment_at. rewrite U. cbn [negb]. cbv zeta. rewrite slice_hdr.
  destruct (hdr_parse k H) as [-> ->]. cbn [bind].
  replace (N.to_nat (fh_length (FH (firstn 6 (skipn k b))))) with (announced b k)
    by (unfold fh_length, announced; cbn [fh_buffer]; rewrite nth_hdr by lia; reflexivity).
  replace (fh_msg_id (FH (firstn 6 (skipn k b)))) with (nth (k + 5) b 0%N)
    by (unfold fh_msg_id; cbn [fh_buffer]; rewrite nth_hdr by lia; reflexivity).
  rewrite frame_slice. change header_len with 6. change protocol_overhead with 8.
  replace (k + 8 + announced b k) with (k + 6 + announced b k + 2) by lia.
  reflexivity.
Qed.

Definition state_ok (limit : nat) (st : seg_result) : Prop :=
  let '(p, v, s) := st in
  segments_upto limit acc b s /\ classifies b s p /\ validates b s v.

Lemma frame_end_gt k : k < frame_end b k.
Proof using. clear parser. unfold frame_end; lia. Qed.

Lemma covered_dec s j : {covered b s j} + {~ covered b s j}.
Proof using. clear parser.
  destruct (existsb (fun x => Nat.leb (fst x) j && Nat.ltb j (frame_end b (fst x)))%bool s) eqn:E.
  - left. apply existsb_exists in E. destruct E as ([k i] & I & H). apply andb_true_iff in H. destruct H as [H1 H2].
    apply Nat.leb_le in H1. apply Nat.ltb_lt in H2. exists k, i. auto.
  - right. intros (k & i & I & H). assert (X : existsb (fun x => Nat.leb (fst x) j && Nat.ltb j (frame_end b (fst x)))%bool s = true).
    { apply existsb_exists. exists (k, i). split; auto. apply andb_true_iff; split; [apply Nat.leb_le|apply Nat.ltb_lt]; simpl; lia. }
    congruence.
Qed.

Lemma sorted_app s k i : StronglySorted (fun x y => frame_end b (fst x) <= fst y) s ->
  (forall k' i', In (k', i') s -> frame_end b k' <= k) ->
  StronglySorted (fun x y : nat * N => frame_end b (fst x) <= fst y) (s ++ [(k, i)]).
Proof using. clear parser.
  induction 1 as [|[a x] s Hs IH HF]; intros Hk; simpl.
  - repeat constructor.
  - constructor.
    + apply IH. intros. eapply Hk. right; eauto.
    + apply Forall_app. split; auto. constructor; auto. simpl. eapply Hk. left; eauto.
Qed.

(* two listed frames that share a position are the same *)
Lemma sorted_disjoint s k i k' i' j : StronglySorted (fun x y : nat * N => frame_end b (fst x) <= fst y) s ->
  In (k, i) s -> In (k', i') s -> k <= j < frame_end b k -> k' <= j < frame_end b k' -> k = k' /\ i = i'.
Proof using. clear parser.
  induction 1 as [|[a x] s Hs IH HF]; intros H1 H2 J1 J2; [destruct H1|].
  rewrite Forall_forall in HF.
  destruct H1 as [E1|H1]; destruct H2 as [E2|H2].
  - split; congruence.
  - injection E1 as -> ->. specialize (HF _ H2). simpl in HF. lia.
  - injection E2 as -> ->. specialize (HF _ H1). simpl in HF. lia.
  - auto.
Qed.

Lemma covered_app s k i j : covered b (s ++ [(k, i)]) j <-> covered b s j \/ k <= j < frame_end b k.
Proof using. clear parser.
  unfold covered. split.
  - intros (k' & i' & I & H). apply in_app_iff in I. destruct I as [I|[I|[]]]; [left; eauto|].
    injection I as <- <-. auto.
  - intros [(k' & i' & I & H)|H].
    + exists k', i'. split; auto. apply in_app_iff; auto.
    + exists k, i. split; auto. apply in_app_iff; simpl; auto.
Qed.
Lemma in_last s (k : nat) (i : N) x : In x (s ++ [(k, i)]) <-> In x s \/ x = (k, i).
Proof using. clear parser. rewrite in_app_iff. simpl. intuition congruence. Qed.

Lemma length_frame_bytes k : k <= length b -> length (frame_bytes b k) = Nat.min (frame_end b k - k) (length b - k).
Proof using. clear parser. intros. unfold frame_bytes, frame_end. rewrite firstn_length, skipn_length. lia. Qed.

Lemma step_ok k st st' : k + 8 <= length b -> state_ok k st -> segment_at parser b st k = Ok st' -> state_ok (S k) st'.
Proof.
  intros L. destruct st as [[p v] s]. intros (S1 & C & V) E.
  destruct S1 as (SA & SB & SC). destruct C as (CL & CC). destruct V as (VL & VV).
  destruct (CC k ltac:(lia)) as (_ & _ & _ & CU).
  assert (W : forall st'', st'' = (p, v, s) -> (forall i, frame_at acc b k i -> covered b s k) -> state_ok (S k) st'').
  { intros st'' -> HC. unfold state_ok. split; [|split; [split; auto|split; auto]]. split; [|split]; auto.
    - intros k' i' I. destruct (SA _ _ I). split; auto.
    - intros k' i' Hk' F. destruct (Nat.eq_dec k' k) as [->|].
      + right. destruct (HC _ F) as (k' & x & I & R). exists k', x. split; auto.
        destruct (SA _ _ I). lia.
      + apply SC; auto. lia. }
  destruct (covered_dec s k) as [Cov|NC].
  { rewrite segment_at_known in E; [injection E as <-; auto|].
    simpl. destruct (nth k p UNKNOWN) eqn:P; auto. tauto. }
  apply CU in NC as U. 
  assert (Hd : header_at b k \/ ~ header_at b k).
  { destruct (is_valid_header (firstn 6 (skipn k b))) eqn:HV.
    - left. split; auto. apply is_valid_header_spec; auto.
    - right. intros [_ X]. apply is_valid_header_spec in X. congruence. }
  destruct Hd as [Hd|Hd].
  2:{ rewrite segment_at_nohdr in E by auto. injection E as <-. apply W; auto. intros i [F _]. contradiction. }
  rewrite segment_at_hdr in E; auto; [|rewrite U; reflexivity].
  destruct (parser (frame_bytes b k)) as [d|e] eqn:PE.
  2:{ destruct e; try discriminate. injection E as <-. apply W; auto. intros i (_ & _ & [d X]). congruence. }
  assert (Hends : forall k' i', In (k', i') s -> frame_end b k' <= k).
  { intros k' i' I. destruct (SA _ _ I) as [K _].
    destruct (Nat.le_gt_cases (frame_end b k') k); auto. exfalso. apply NC. exists k', i'. split; auto. lia. }
  assert (Fresh : ~ In k (map fst s)).
  { rewrite in_map_iff. intros ([k' i'] & X & I). simpl in X; subst k'. specialize (Hends _ _ I). pose proof (frame_end_gt k). lia. }
  rewrite (dict_set_fresh _ nateqb_spec) in E by auto. injection E as <-.
  set (i := nth (k + 5) b 0%N).
  assert (Fr : frame_at acc b k i) by (split; auto; split; auto; exists d; auto).
  unfold state_ok. split; [|split].
  - split; [|split].
    + intros k' i' I. apply in_last in I. destruct I as [I|I].
      * destruct (SA _ _ I). auto.
      * injection I as -> ->. auto.
    + apply sorted_app; auto.
    + intros k' i' Hk' F. destruct (Nat.eq_dec k' k) as [->|].
      * left. apply in_last. right. destruct F as (_ & <- & _). reflexivity.
      * destruct (SC k' i' ltac:(lia) F) as [I|(k2 & i2 & I & R)].
        -- left. apply in_last; auto.
        -- right. exists k2, i2. split; auto. apply in_last; auto.
  - split; [rewrite !length_fill; auto|].
    intros j Hj. rewrite !nth_fill, !length_fill, CL.
    destruct (CC j Hj) as (Q1 & Q2 & Q3 & Q4).
    rewrite covered_app. unfold in_header, in_payload, in_checksum in *.
    assert (AH : (exists k0 i0, In (k0, i0) (s ++ [(k, i)]) /\ k0 <= j < k0 + 6) <->
                 (exists k0 i0, In (k0, i0) s /\ k0 <= j < k0 + 6) \/ k <= j < k + 6).
    { split.
      - intros (k0 & i0 & I & R). apply in_last in I. destruct I as [I|I]; [left; eauto|]. injection I as -> ->. auto.
      - intros [(k0 & i0 & I & R)|R]; [exists k0, i0|exists k, i]; (split; [apply in_last|]; auto). }
    assert (AP : (exists k0 i0, In (k0, i0) (s ++ [(k, i)]) /\ k0 + 6 <= j < k0 + 6 + announced b k0) <->
                 (exists k0 i0, In (k0, i0) s /\ k0 + 6 <= j < k0 + 6 + announced b k0) \/ k + 6 <= j < k + 6 + announced b k).
    { split.
      - intros (k0 & i0 & I & R). apply in_last in I. destruct I as [I|I]; [left; eauto|]. injection I as -> ->. auto.
      - intros [(k0 & i0 & I & R)|R]; [exists k0, i0|exists k, i]; (split; [apply in_last|]; auto). }
    assert (AC : (exists k0 i0, In (k0, i0) (s ++ [(k, i)]) /\ k0 + 6 + announced b k0 <= j < k0 + 6 + announced b k0 + 2) <->
                 (exists k0 i0, In (k0, i0) s /\ k0 + 6 + announced b k0 <= j < k0 + 6 + announced b k0 + 2)
                 \/ k + 6 + announced b k <= j < k + 6 + announced b k + 2).
    { split.
      - intros (k0 & i0 & I & R). apply in_last in I. destruct I as [I|I]; [left; eauto|]. injection I as -> ->. auto.
      - intros [(k0 & i0 & I & R)|R]; [exists k0, i0|exists k, i]; (split; [apply in_last|]; auto). }
    rewrite AH, AP, AC. clear AH AP AC.
    assert (NB : k <= j -> ~ covered b s j).
    { intros Hkj (k0 & i0 & I & R). specialize (Hends _ _ I). lia. }
    assert (NH : k <= j -> ~ (exists k0 i0, In (k0, i0) s /\ k0 <= j < k0 + 6)).
    { intros Hkj (k0 & i0 & I & R). specialize (Hends _ _ I). unfold frame_end in Hends. lia. }
    assert (NP : k <= j -> ~ (exists k0 i0, In (k0, i0) s /\ k0 + 6 <= j < k0 + 6 + announced b k0)).
    { intros Hkj (k0 & i0 & I & R). specialize (Hends _ _ I). unfold frame_end in Hends. lia. }
    assert (NK : k <= j -> ~ (exists k0 i0, In (k0, i0) s /\ k0 + 6 + announced b k0 <= j < k0 + 6 + announced b k0 + 2)).
    { intros Hkj (k0 & i0 & I & R). specialize (Hends _ _ I). unfold frame_end in Hends. lia. }
    assert (JL : (j <? length b) = true) by (apply Nat.ltb_lt; auto).
    rewrite JL, !andb_true_r.
    destruct (Nat.lt_ge_cases j k) as [Hlt|Hge].
    + replace (k + 6 + announced b k <=? j) with false by (symmetry; apply Nat.leb_gt; lia).
      replace (k + 6 <=? j) with false by (symmetry; apply Nat.leb_gt; lia).
      replace (k <=? j) with false by (symmetry; apply Nat.leb_gt; lia). cbn [andb].
      rewrite Q1, Q2, Q3, Q4. intuition (try lia).
    + specialize (NB Hge). specialize (NH Hge). specialize (NP Hge). specialize (NK Hge).
      assert (PU : nth j p UNKNOWN = UNKNOWN) by tauto. unfold frame_end.
      destruct (Nat.leb_spec (k + 6 + announced b k) j), (Nat.ltb_spec j (k + 6 + announced b k + 2)),
               (Nat.leb_spec (k + 6) j), (Nat.ltb_spec j (k + 6 + announced b k)),
               (Nat.leb_spec k j), (Nat.ltb_spec j (k + 6)); cbn [andb]; try lia; rewrite ?PU;
      repeat split; intros X; try discriminate; try tauto; try (exfalso; clear -X H H0 H1 H2 H3 H4 NB NH NP NK; intuition lia);
      try (right; lia); try reflexivity; try (intros [Y|Y]; [tauto|lia]); try (exfalso; apply X; right; lia); try (destruct X; [tauto|lia]).
  - split; [rewrite length_fill; auto|].
    intros j r Hj Hr. rewrite nth_fill, VL. destruct (VV j r Hj Hr) as (Q1 & Q2).
    rewrite covered_app. rewrite length_frame_bytes by lia.
    destruct (Nat.leb_spec (k * 8) (8 * j + r)), (Nat.ltb_spec (8 * j + r) ((k + Nat.min (frame_end b k - k) (length b - k)) * 8)),
      (Nat.ltb_spec (8 * j + r) (8 * length b)); cbn [andb]; try lia.
    all: assert (~ k <= j < frame_end b k) by (intros X; pose proof (frame_end_gt k); lia); rewrite Q1, Q2; tauto.
Qed.

Lemma init_ok : state_ok 0 (repeat UNKNOWN (length b), repeat 0%Z (length b * 8), []).
Proof.
  unfold state_ok. split; [|split].
  - split; [|split]; try (intros; simpl in *; tauto || lia). constructor.
  - split; [apply repeat_length|]. intros j Hj. rewrite nth_repeat. 
    unfold in_header, in_payload, in_checksum, covered.
    repeat split; intros X; try discriminate; try (destruct X as (? & ? & [] & _)); auto.
    intros (? & ? & [] & _).
  - split; [rewrite repeat_length; lia|]. intros j r Hj Hr. rewrite nth_repeat. unfold covered.
    repeat split; intros X; try discriminate; try (destruct X as (? & ? & [] & _)); auto.
    intros (? & ? & [] & _).
Qed.

(* the loop: either it ran to the end or an uncovered position raised *)
Definition raises_at (s : structure) (k : nat) (e : exn) : Prop :=
  header_at b k /\ ~ covered b s k /\ parser (frame_bytes b k) = Err e /\ e <> MAVError.

Lemma step_err k st e : k + 8 <= length b -> state_ok k st -> segment_at parser b st k = Err e -> raises_at (snd st) k e.
Proof.
  intros L. destruct st as [[p v] s]. intros (S1 & (CL & CC) & V) E.
  destruct (CC k ltac:(lia)) as (_ & _ & _ & CU).
  destruct (is_unknown (nth k p UNKNOWN)) eqn:U; [|rewrite segment_at_known in E by auto; discriminate].
  assert (Hd : header_at b k).
  { destruct (is_valid_header (firstn 6 (skipn k b))) eqn:HV.
    - split; auto. apply is_valid_header_spec; auto.
    - exfalso. rewrite segment_at_nohdr in E; auto; [discriminate|]. intros [_ X]. apply is_valid_header_spec in X. congruence. }
  rewrite segment_at_hdr in E by auto.
  split; auto. split; [|].
  - apply CU. destruct (nth k p UNKNOWN); auto; discriminate.
  - destruct (parser (frame_bytes b k)) as [d|e0]; [discriminate|]. destruct e0; try discriminate; injection E as <-; split; auto; discriminate.
Qed.

Lemma step_raises k p v s e : k + 8 <= length b -> state_ok k (p, v, s) -> raises_at s k e ->
  segment_at parser b (p, v, s) k = Err e.
Proof.
  intros L (S1 & (CL & CC) & V) (Hd & NC & PE & NM).
  destruct (CC k ltac:(lia)) as (_ & _ & _ & CU).
  rewrite segment_at_hdr; auto; [|rewrite (proj2 CU NC); reflexivity].
  rewrite PE. destruct e; auto. congruence.
Qed.

Lemma loop_spec m : m <= length b + 1 - 8 ->
  match fold_res (segment_at parser b) (seq 0 m) (repeat UNKNOWN (length b), repeat 0%Z (length b * 8), []) with
  | Ok st => state_ok m st /\ (forall k e, k < m -> ~ raises_at (snd st) k e)
  | Err e => exists k s, k < m /\ segments_upto k acc b s /\ raises_at s k e /\ (forall k' e', k' < k -> ~ raises_at s k' e')
  end.
Proof.
  induction m as [|m IH]; intros L.
  - simpl. split; [apply init_ok|intros; lia].
  - rewrite seq_S, fold_res_app. specialize (IH ltac:(lia)). destruct (fold_res _ (seq 0 m) _) as [st|e] eqn:E.
    + cbn [bind fold_res]. rewrite Nat.add_0_l. destruct IH as [IH NR]. destruct (segment_at parser b st m) as [st'|e] eqn:E'.
      * cbn [bind]. pose proof (step_ok m st st' ltac:(lia) IH E') as OK. split; auto.
        intros k e Hk R.
        destruct st as [[p v] s]. destruct st' as [[p' v'] s']. cbn [snd] in *.
        assert (Sub : forall x, In x s -> In x s').
        { destruct IH as ((A1 & _) & _).
          assert (HH : s' = s \/ exists j, s' = dict_set Nat.eqb s m j).
          { unfold segment_at in E'. destruct (negb _); [injection E'; auto|]. destruct (is_valid_header _); [|injection E'; auto].
            destruct (from_buffer _ _); [|discriminate]. cbn [bind] in E'. destruct (parser _) as [d|[]]; try discriminate.
            - injection E' as <- <- <-. right. eexists; reflexivity.
            - injection E'; auto. }
          destruct HH as [->|[j ->]]; auto. intros x I.
          rewrite (dict_set_fresh _ nateqb_spec); [apply in_last; auto|].
          rewrite in_map_iff. intros ([k4 i4] & X & I4). simpl in X. subst. destruct (A1 _ _ I4). lia. }
        destruct R as (Hd & NC & PE & NM).
        assert (NC' : ~ covered b s k).
        { intros (k' & i' & I & RR). apply NC. exists k', i'. split; auto. }
        destruct (Nat.eq_dec k m) as [->|].
        -- rewrite (step_raises m p v s e) in E'; auto; [discriminate|lia|]. split; auto.
        -- apply (NR k e); [lia|]. split; auto.
      * cbn [bind]. exists m, (snd st). split; [lia|]. split; [|split; [apply step_err; auto; lia|auto]].
        destruct st as [[p v] s]. apply IH.
    + cbn [bind]. destruct IH as (k & s & Hk & R). exists k, s. split; [lia|auto].
Qed.

(* uniqueness *)
Lemma upto_filter {accepts} l l' s : l' <= l -> segments_upto l accepts b s ->
  segments_upto l' accepts b (filter (fun x => fst x <? l') s).
Proof using. clear parser.
  intros L (A1 & A2 & A3). split; [|split].
  - intros k i I. apply filter_In in I. destruct I as [I H]. apply Nat.ltb_lt in H. destruct (A1 _ _ I). auto.
  - clear A1 A3. induction A2 as [|a s Hs IH HF]; simpl; [constructor|].
    destruct (fst a <? l'); auto. constructor; auto. rewrite Forall_forall in *. intros x I. apply filter_In in I. apply HF, I.
  - intros k i Hk F. destruct (A3 k i ltac:(lia) F) as [I|(k' & i' & I & R)].
    + left. apply filter_In. split; auto. apply Nat.ltb_lt; auto.
    + right. exists k', i'. split; auto. apply filter_In. split; auto. apply Nat.ltb_lt. simpl. lia.
Qed.

Lemma upto_in {accepts} l s s' : segments_upto l accepts b s -> segments_upto l accepts b s' -> forall k i, In (k, i) s -> In (k, i) s'.
Proof using. clear parser.
  intros (A1 & A2 & A3) (B1 & B2 & B3).
  assert (G : forall n k i, k < n -> (In (k, i) s -> In (k, i) s') /\ (In (k, i) s' -> In (k, i) s)).
  { induction n as [|n IH]; intros k i Hk; [lia|]. split; intros I.
    - destruct (A1 _ _ I) as [K F]. destruct (B3 k i K F) as [X|(k' & i' & I' & R)]; auto.
      apply IH in I'; [|lia]. destruct (sorted_disjoint s k i k' i' k A2 I I'); try lia. pose proof (frame_end_gt k); lia.
    - destruct (B1 _ _ I) as [K F]. destruct (A3 k i K F) as [X|(k' & i' & I' & R)]; auto.
      apply IH in I'; [|lia]. destruct (sorted_disjoint s' k i k' i' k B2 I I'); try lia. pose proof (frame_end_gt k); lia. }
  intros k i. apply (G (S k)). lia.
Qed.

Lemma sorted_ext (s s' : structure) : StronglySorted (fun x y => frame_end b (fst x) <= fst y) s ->
  StronglySorted (fun x y => frame_end b (fst x) <= fst y) s' -> (forall x, In x s <-> In x s') -> s = s'.
Proof using. clear parser.
  intros H. revert s'. induction H as [|a s Hs IH HF]; intros s' H' E.
  - destruct s' as [|x s']; auto. exfalso. apply (proj2 (E x)). left; auto.
  - destruct H' as [|a' s' Hs' HF'].
    + exfalso. apply (proj1 (E a)). left; auto.
    + rewrite Forall_forall in *.
      assert (a = a').
      { destruct (proj1 (E a) (or_introl eq_refl)) as [X|X]; auto.
        destruct (proj2 (E a') (or_introl eq_refl)) as [Y|Y]; auto.
        apply HF' in X. apply HF in Y. pose proof (frame_end_gt (fst a)). pose proof (frame_end_gt (fst a')). lia. }
      subst a'. f_equal. apply IH; auto. intros x. split; intros I.
      * destruct (proj1 (E x) (or_intror I)) as [X|X]; auto. subst x. apply HF in I. pose proof (frame_end_gt (fst a)). lia.
      * destruct (proj2 (E x) (or_intror I)) as [X|X]; auto. subst x. apply HF' in I. pose proof (frame_end_gt (fst a)). lia.
Qed.

Lemma upto_unique {accepts} l s s' : segments_upto l accepts b s -> segments_upto l accepts b s' -> s = s'.
Proof using. clear parser.
  intros H H'. apply sorted_ext; [apply H|apply H'|].
  intros [k i]. split; eapply upto_in; eauto.
Qed.

Lemma upto_full s : segments_upto (length b + 1 - 8) acc b s <-> segments acc b s.
Proof.
  unfold segments, segments_upto. split; intros (A1 & A2 & A3); (split; [|split; auto]).
  - intros k i I. destruct (A1 _ _ I). split; auto. lia.
  - intros k i Hk F. apply A3; auto. destruct F as ((L & _) & _). lia.
  - intros k i I. destruct (A1 _ _ I) as [Hk F]. split; auto. destruct F as ((L & _) & _). lia.
  - intros k i Hk F. apply A3; auto. lia.
Qed.

(* a position that raises with respect to the frames before it does so with respect to any longer segmentation *)
Lemma raises_mono l s s' k e : k < l -> segments_upto k acc b s -> segments_upto l acc b s' ->
  raises_at s k e -> raises_at s' k e.
Proof.
  intros Hk H H' (Hd & NC & PE & NM). split; auto. split; [|auto].
  intros (k' & i' & I & R). destruct (proj1 H' _ _ I) as [_ F].
  destruct (Nat.eq_dec k' k) as [->|].
  - destruct F as (_ & _ & [d X]). congruence.
  - apply NC. rewrite (@upto_unique acc k s (filter (fun x => fst x <? k) s')); auto.
    + exists k', i'. split; auto. apply filter_In. split; auto. apply Nat.ltb_lt. simpl. lia.
    + apply upto_filter with l; auto. lia.
Qed.

Lemma classifies_unique s p p' : classifies b s p -> classifies b s p' -> p = p'.
Proof using. clear parser.
  intros (L & H) (L' & H'). apply nth_ext_eq with (d := UNKNOWN); [lia|]. intros j Hj. rewrite L in Hj.
  destruct (H j Hj) as (A1 & A2 & A3 & A4). destruct (H' j Hj) as (B1 & B2 & B3 & B4).
  destruct (nth j p UNKNOWN) eqn:E; destruct (nth j p' UNKNOWN) eqn:E'; auto; exfalso; intuition congruence.
Qed.

Lemma validates_unique s v v' : validates b s v -> validates b s v' -> v = v'.
Proof using. clear parser.
  intros (L & H) (L' & H'). apply nth_ext_eq with (d := 0%Z); [lia|]. intros j Hj. rewrite L in Hj.
  assert (X : j = 8 * (j / 8) + j mod 8) by (apply Nat.div_mod; lia).
  assert (Y : j mod 8 < 8) by (apply Nat.mod_upper_bound; lia). 
  assert (Z : j / 8 < length b) by (apply Nat.div_lt_upper_bound; lia).
  rewrite X. destruct (H _ _ Z Y) as (A1 & A2). destruct (H' _ _ Z Y) as (B1 & B2).
  destruct (covered_dec s (j / 8)); intuition congruence.
Qed.

Lemma segment_ok_iff p v s : segment_buffer parser b = Ok (p, v, s) <->
  segments acc b s /\ classifies b s p /\ validates b s v /\ (forall k e, header_at b k -> parser (frame_bytes b k) = Err e -> e <> MAVError -> covered b s k).
Proof.
  unfold segment_buffer. change protocol_overhead with 8.
  pose proof (loop_spec (length b + 1 - 8) (le_n _)) as LS. destruct (fold_res _ _ _) as [[[p' v'] s']|e].
  - destruct LS as ((A1 & A2 & A3) & NR). cbn [snd] in NR. split.
    + intros E. injection E as -> -> ->. rewrite <- upto_full. split; [exact A1|]. split; [exact A2|]. split; [exact A3|].
      intros k e Hd PE NM. destruct (covered_dec s k); auto. exfalso. apply (NR k e); [destruct Hd; lia|]. split; auto.
    + intros (B1 & B2 & B3 & _). rewrite <- upto_full in B1.
      assert (s' = s) by (eapply upto_unique; eauto). subst.
      rewrite (classifies_unique _ _ _ A2 B2), (validates_unique _ _ _ A3 B3). reflexivity.
  - split; [discriminate|]. intros (B1 & B2 & B3 & B4). exfalso.
    destruct LS as (k & s' & Hk & A1 & R & _). rewrite <- upto_full in B1.
    apply (raises_mono _ _ _ _ _ Hk A1 B1) in R. destruct R as (Hd & NC & PE & NM). apply NC. eapply B4; eauto.
Qed.

Lemma segment_err_iff e : segment_buffer parser b = Err e <->
  exists k s, segments_upto k acc b s /\ header_at b k /\ ~ covered b s k /\ parser (frame_bytes b k) = Err e /\ e <> MAVError /\ (forall k' e', k' < k -> header_at b k' -> parser (frame_bytes b k') = Err e' -> e' <> MAVError -> covered b s k').
Proof.
  unfold segment_buffer. change protocol_overhead with 8.
  pose proof (loop_spec (length b + 1 - 8) (le_n _)) as LS. destruct (fold_res _ _ _) as [[[p' v'] s']|e0].
  - split; [discriminate|]. intros (k & s & A1 & Hd & NC & PE & NM & _). exfalso.
    destruct LS as ((B1 & B2 & B3) & NR). assert (Hk : k < length b + 1 - 8) by (destruct Hd; lia).
    apply (NR k e Hk). cbn [snd]. apply (raises_mono _ _ _ _ _ Hk A1 B1). split; auto.
  - destruct LS as (k0 & s0 & Hk0 & B1 & R0 & M0). split.
    + intros E. injection E as <-. destruct R0 as (Hd & NC & PE & NM).
      exists k0, s0. repeat (split; auto).
      intros k' e' Hk' Hd' PE' NM'. destruct (covered_dec s0 k'); auto. exfalso. apply (M0 k' e' Hk'). split; auto.
    + intros (k & s & A1 & Hd & NC & PE & NM & Mn).
      destruct (lt_eq_lt_dec k k0) as [[H|H]|H].
      * exfalso. apply (M0 k e H). apply (raises_mono k0 s s0 k e H A1 B1). split; auto.
      * subst k0. destruct R0 as (_ & _ & PE0 & _). congruence.
      * exfalso. pose proof (raises_mono _ _ _ _ _ H B1 A1 R0) as (Hd0 & NC0 & PE0 & NM0). apply NC0. eapply Mn; eauto.
Qed.
End Seg.
