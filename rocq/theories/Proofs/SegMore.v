(** Packed streams, array messages, registration. *)
From Coq Require Import String Ascii List NArith ZArith Bool Lia Arith Sorting.Sorted.
From Verif.Model Require Import Py Dialect ProtocolMeta MsgHeader Struct Mavlink Segmentation.
From Verif.Spec Require Import Bytes Bits Header CrcSpec Frame Segment.
From Verif.Proofs Require Import Base DialectP HeaderP CrcP StructP MavlinkP FieldsP PackP SendP MavlinkMore SegmentP SegStream.
Import ListNotations.

Lemma wire_plen c : In c mavlink_classes -> exists n, plen (mc_id c) n /\ n <= wire_size c /\ (n = wire_size c <-> no_arrays c).
Proof.
  intros H. pose proof (class_facts_in _ H) as F. destruct (wire_facts_in c H) as (items & W).
  destruct (cf_items _ F) as (items' & k & P & _ & _ & T & _ & L & _ & NA & _).
  rewrite (wf_parse _ _ W) in P. injection P as ->. rewrite (wf_size _ _ W) in L, NA.
  exists k. split; [|auto]. exists c. split; [split; auto|auto].
Qed.

Lemma packed_facts c fs q sys comp f : In c mavlink_classes -> fits_all c fs ->
  message_pack (Msg c fs) q sys comp = Ok f ->
  is_bytes f /\ length f = 8 + wire_size c /\ frame_v1 c f /\
  firstn 6 f = [254; N.of_nat (wire_size c); Z.to_N q; Z.to_N sys; Z.to_N comp; mc_id c]%N.
Proof.
  intros H Ft P. destruct (pack_bad_header _ _ _ _ _ P) as (B1 & B2 & B3).
  destruct (pack_decode (fun b => b) c fs q sys comp H Ft B1 B2 B3) as (b & E & B & L & F6 & F & _).
  rewrite P in E. injection E as ->. auto.
Qed.

Definition packed_plain (f : bytes) : Prop :=
  exists c fs q sys comp, In c mavlink_classes /\ no_arrays c /\ fits_all c fs /\ message_pack (Msg c fs) q sys comp = Ok f.

Lemma packed_complete f : packed_plain f -> is_bytes f /\ complete_frame (fun f => exists c, frame_v1 c f) f.
Proof.
  intros (c & fs & q & sys & comp & H & NA & Ft & P). destruct (packed_facts _ _ _ _ _ _ H Ft P) as (B & L & F & F6).
  split; auto. split; [|split; [|eauto]].
  - rewrite F6. destruct (wire_plen c H) as (n & PL & _ & E). apply E in NA. subst n. constructor. auto.
  - apply (frame_v1_length (fun b => b) c). auto.
Qed.

Lemma good_starts_map fl : forall p, 
  length (good_starts p (map Good fl)) = length fl /\
  forall m, m < length fl -> nth m (good_starts p (map Good fl)) (0, 0%N) =
    (p + length (concat (firstn m fl)), nth 5 (nth m fl []) 0%N).
Proof.
  induction fl as [|f fl IH]; intros p; simpl.
  - split; auto. intros; lia.
  - destruct (IH (p + length f)) as [L N]. split; [lia|]. intros [|m] Hm; simpl; [f_equal; lia|].
    rewrite N by lia. rewrite app_length. f_equal. lia.
Qed.

Lemma stream_map_good fl : stream (map Good fl) = concat fl.
Proof. unfold stream. rewrite map_map. simpl. rewrite map_id. reflexivity. Qed.

Lemma no_junk fl j : ~ in_junk (map Good fl) j.
Proof.
  intros (l1 & g & l2 & E & _). apply (f_equal (@In chunk (Junk g))) in E.
  assert (X : In (Junk g) (map Good fl)) by (rewrite E; apply in_app_iff; right; left; auto).
  apply in_map_iff in X. destruct X as (f & X & _). discriminate.
Qed.

Lemma stream_recovered text fl : Forall packed_plain fl ->
  exists p v s, segment_buffer (decode text) (concat fl) = Ok (p, v, s) /\
    length s = length fl /\
    (forall m, m < length fl -> nth m s (0, 0%N) = (length (concat (firstn m fl)), nth 5 (nth m fl []) 0%N)) /\
    length p = length (concat fl) /\ ~ In UNKNOWN p /\ v = repeat 1%Z (8 * length (concat fl)) /\
    bad_buffer_idx (concat fl) p = Ok None /\ bad_buffer_parts (concat fl) p = Ok [].
Proof.
  intros G. rewrite Forall_forall in G.
  destruct (resync text (map Good fl)) as (p & v & E & Lp & Lv & K).
  - rewrite stream_map_good. apply Forall_forall. intros x I. apply in_concat in I. destruct I as (f & I & Ix).
    apply G, packed_complete in I. destruct I as [B _]. unfold is_bytes in B. rewrite Forall_forall in B. auto.
  - intros f I. apply in_map_iff in I. destruct I as (f' & X & I). injection X as ->. apply packed_complete, G; auto.
  - intros j i X. exfalso. eapply no_junk; eauto.
  - rewrite stream_map_good in *. exists p, v, (good_starts 0 (map Good fl)).
    destruct (good_starts_map fl 0) as [L N]. split; auto. split; auto. split; [exact N|]. split; auto.
    assert (NU : ~ In UNKNOWN p).
    { intros I. apply (In_nth _ _ UNKNOWN) in I. destruct I as (j & Hj & U). rewrite Lp in Hj.
      apply (proj1 (K j Hj)) in U. eapply no_junk; eauto. }
    split; auto. split.
    + apply nth_ext_eq with (d := 0%Z); [rewrite repeat_length; auto|]. intros j Hj. rewrite Lv in Hj.
      rewrite nth_indep with (d' := 1%Z) (l := repeat 1%Z _) by (rewrite repeat_length; auto). rewrite nth_repeat.
      assert (X : j = 8 * (j / 8) + j mod 8) by (apply Nat.div_mod; lia).
      assert (Y : j mod 8 < 8) by (apply Nat.mod_upper_bound; lia). 
      assert (Z : j / 8 < length (concat fl)) by (apply Nat.div_lt_upper_bound; lia).
      rewrite X. apply (K _ Z); auto. apply no_junk.
    + rewrite bad_buffer_parts_spec. rewrite (proj1 (bad_buffer_idx_spec (concat fl) p) NU). auto.
Qed.

Lemma send_recovered text sys comp msgs : in_byte sys -> in_byte comp ->
  Forall (fun m => In (m_class m) mavlink_classes /\ no_arrays (m_class m) /\ fits_all (m_class m) (m_fields m)) msgs ->
  exists st p v s, fold_res mav_send msgs (mav_init sys comp) = Ok st /\
    segment_buffer (decode text) (mav_file st) = Ok (p, v, s) /\
    map snd s = map (fun m => mc_id (m_class m)) msgs /\ ~ In UNKNOWN p /\ bad_buffer_idx (mav_file st) p = Ok None.
Proof.
  intros Bs Bc G. rewrite Forall_forall in G.
  assert (G' : Forall good msgs) by (apply Forall_forall; intros m I; destruct (G m I) as (? & ? & ?); split; auto).
  destruct (send_run text sys comp Bs Bc msgs (mav_init sys comp) G' eq_refl eq_refl ltac:(unfold in_byte; simpl; lia))
    as (frames & st & E & LF & FI & _ & _ & _ & K).
  simpl in FI.
  assert (PP : Forall packed_plain frames).
  { apply Forall_forall. intros f I. apply (In_nth _ _ []) in I. destruct I as (k & Hk & <-). rewrite LF in Hk.
    destruct (K k Hk) as (c & fs & d & Em & _ & _ & _ & P & _).
    assert (I : In (Msg c fs) msgs).
    { assert (X : In (Some (Msg c fs)) (map Some msgs)) by (rewrite <- Em; apply nth_In; rewrite map_length; auto).
      apply in_map_iff in X. destruct X as (m & X & I). injection X as ->. auto. }
    destruct (G _ I) as (A1 & A2 & A3). exists c, fs. eexists _, _, _. repeat (split; eauto). }
  destruct (stream_recovered text frames PP) as (p & v & s & Sg & Ls & Ns & Lp & NU & _ & BI & _).
  exists st, p, v, s. rewrite FI. split; auto. split; auto. split; [|split; auto].
  apply nth_ext_eq with (d := 0%N); [rewrite !map_length; transitivity (length frames); [exact Ls|exact LF]|]. intros k Hk. rewrite map_length in Hk.
  rewrite (nth_map_lt snd s k 0%N (0, 0%N)) by auto. rewrite Ns by (eapply Nat.lt_le_trans; [exact Hk|apply Nat.eq_le_incl; exact Ls]). cbn [snd].
  destruct (K k ltac:(rewrite <- LF; eapply Nat.lt_le_trans; [exact Hk|apply Nat.eq_le_incl; exact Ls])) as (c & fs & d & Em & F & _ & _ & P & _).
  assert (X : nth k (map (fun m => mc_id (m_class m)) msgs) 0%N = mc_id c).
  { assert (Y : nth k (map (fun m => mc_id (m_class m)) msgs) 0%N =
        match nth k (map Some msgs) None with Some m => mc_id (m_class m) | None => 0%N end).
    { assert (H : k < length msgs) by (rewrite <- LF; eapply Nat.lt_le_trans; [exact Hk|apply Nat.eq_le_incl; exact Ls]). clear -H. revert k H. induction msgs; intros [|k] H; simpl in *; try lia; auto. apply IHmsgs; lia. }
    rewrite Y, Em. reflexivity. }
  rewrite X. destruct F as ((_ & FE) & _). symmetry. exact FE.
Qed.

Lemma array_never {D} (parser : bytes -> res D) c fs q sys comp f pre post p v s :
  In c mavlink_classes -> ~ no_arrays c -> fits_all c fs -> message_pack (Msg c fs) q sys comp = Ok f ->
  is_bytes pre -> is_bytes post -> segment_buffer parser (pre ++ f ++ post) = Ok (p, v, s) ->
  forall i, ~ In (length pre, i) s.
Proof.
  intros H NA Ft P B1 B2 E i I. destruct (packed_facts _ _ _ _ _ _ H Ft P) as (B & L & F & F6).
  assert (BB : is_bytes (pre ++ f ++ post)) by (rewrite !is_bytes_app; auto).
  apply segment_ok_iff in E; auto. destruct E as ((S1 & _) & _). destruct (S1 _ _ I) as (_ & (_ & V) & _).
  assert (X6 : firstn 6 (skipn (length pre) (pre ++ f ++ post)) = firstn 6 f).
  { rewrite skipn_app, skipn_all, Nat.sub_diag. change (firstn 6 (f ++ post) = firstn 6 f). rewrite firstn_app.
    replace (6 - length f) with 0 by lia. apply app_nil_r. }
  rewrite X6, F6 in V.
  inversion V as [n q' s' c' i' PL E1]. apply NA.
  destruct (wire_plen c H) as (n' & PL' & _ & X). apply X.
  assert (n = n') by (eapply plen_fun; eauto). apply Nat2N.inj in E1. lia.
Qed.

(** Registration. *)
Lemma from_buffer_carries b k : is_bytes b ->
  (length b < k + 6 -> from_buffer (slice b k (k + header_len)) None = Err HeaderLength) /\
  (k + 6 <= length b -> (exists c, is_msg (nth (k + 5) b 0%N) c) ->
     exists h, from_buffer (slice b k (k + header_len)) None = Ok h /\ fh_msg_id h = nth (k + 5) b 0%N) /\
  (k + 6 <= length b -> (~ exists c, is_msg (nth (k + 5) b 0%N) c) ->
     from_buffer (slice b k (k + header_len)) None = Err NonExistentMsdId).
Proof.
  intros B. rewrite (slice_hdr (fun _ => Ok tt)) by auto.
  assert (N5 : forall j, j < 6 -> nth j (firstn 6 (skipn k b)) 0%N = nth (k + j) b 0%N) by (intros; apply nth_hdr; auto).
  assert (L : length (firstn 6 (skipn k b)) = Nat.min 6 (length b - k)) by (rewrite firstn_length, skipn_length; auto).
  pose proof (is_bytes_nth (k + 2) B) as X2. pose proof (is_bytes_nth (k + 3) B) as X3. pose proof (is_bytes_nth (k + 4) B) as X4.
  pose proof (is_bytes_nth (k + 5) B) as X5.
  split; [|split].
  - intros H. apply from_buffer_length. lia.
  - intros H [c M]. unfold from_buffer. rewrite L. replace (Nat.min 6 (length b - k)) with 6 by lia. cbn [Nat.eqb negb header_len].
    rewrite !N5 by lia. destruct M as [M1 M2].
    destruct (wire_plen c M1) as (n & PL & _). rewrite M2 in PL.
    destruct (frame_header_init _ _ _ _) as [h|e] eqn:E.
    + apply frame_header_ok in E. destruct E as (_ & _ & _ & _ & m & _ & E). exists h. split; auto.
      unfold fh_msg_id. rewrite E. cbn [nth]. lia.
    + exfalso. apply frame_header_err in E. unfold in_byte in E. destruct E as [(_ & E)|(_ & _ & _ & _ & _ & E)].
      * apply E. lia.
      * apply E. exists n. rewrite N2Z.id. auto.
  - intros H M. unfold from_buffer. rewrite L. replace (Nat.min 6 (length b - k)) with 6 by lia. cbn [Nat.eqb negb header_len].
    rewrite !N5 by lia.
    destruct (frame_header_init _ _ _ _) as [h|e] eqn:E.
    + exfalso. apply frame_header_ok in E. destruct E as (_ & _ & _ & _ & m & (c & M1 & _) & _). rewrite N2Z.id in M1. eauto.
    + apply frame_header_err in E. unfold in_byte in E. destruct E as [(_ & E)|(-> & _)]; auto. exfalso. apply E. lia.
Qed.

Lemma is_msg_dec i : (exists c, is_msg i c) \/ ~ exists c, is_msg i c.
Proof.
  destruct (get_class i) as [c|] eqn:E.
  - left. exists c. apply get_class_spec. auto.
  - right. intros [c H]. apply get_class_spec in H. congruence.
Qed.

Lemma adheres_spec s b : is_bytes b ->
  (adheres_loop s b = Ok true /\ forall k i, In (k, i) s -> carries b k i) \/
  (exists pre k i post e, s = pre ++ (k, i) :: post /\ (forall k' i', In (k', i') pre -> carries b k' i') /\ offence b k i e /\
     (adheres_loop s b = match e with ValueError => Ok false | _ => Err e end)).
Proof.
  intros B. induction s as [|[k i] s IH].
  - left. split; auto. intros k i [].
  - destruct (from_buffer_carries b k B) as (A1 & A2 & A3).
    destruct (Nat.lt_ge_cases (length b) (k + 6)) as [L|L].
    { right. exists [], k, i, s, HeaderLength. split; auto. split; [intros ? ? []|]. split; [constructor; auto|].
      cbn [adheres_loop]. rewrite A1 by auto. reflexivity. }
    destruct (is_msg_dec (nth (k + 5) b 0%N)) as [M|M].
    2:{ right. exists [], k, i, s, NonExistentMsdId. split; auto. split; [intros ? ? []|]. split; [constructor; auto|].
      cbn [adheres_loop]. rewrite A3 by auto. reflexivity. }
    destruct (A2 L M) as (h & E & Eh). cbn [adheres_loop]. rewrite E. cbn [bind]. rewrite Eh.
    destruct (N.eqb_spec (nth (k + 5) b 0%N) i) as [X|X]; cbn [negb].
    + destruct IH as [(IH1 & IH2)|(pre & k' & i' & post & e & -> & IH1 & IH2 & IH3)].
      * left. split; auto. intros k' i' [Y|Y]; auto. injection Y as <- <-. split; auto. split; auto. rewrite <- X; auto.
      * right. exists ((k, i) :: pre), k', i', post, e. split; auto. split; [|auto].
        intros k2 i2 [Y|Y]; auto. injection Y as <- <-. split; auto. split; auto. rewrite <- X; auto.
    + right. exists [], k, i, s, ValueError. split; auto. split; [intros ? ? []|]. split; [constructor; auto|]. reflexivity.
Qed.

Lemma offence_not b k i e : offence b k i e -> ~ carries b k i.
Proof.
  intros [L|L M|L M N] (C1 & C2 & C3); [lia| |contradiction]. apply M. rewrite C2. auto.
Qed.

Lemma offence_fun b k i e e' : offence b k i e -> offence b k i e' -> e = e'.
Proof. intros [] []; auto; try lia; try contradiction. Qed.

Lemma register_ok a b a' : is_bytes b ->
  (register_buffer a b = (a', Ok tt) <->
   (forall k i, In (k, i) (bs_structure a) -> carries b k i) /\
   a' = BStr (bs_structure a) (bs_count a + 1) (bs_received a ++ [b])).
Proof.
  intros B. unfold register_buffer, adheres_to_structure.
  destruct (adheres_spec (bs_structure a) b B) as [(E & C)|(pre & k & i & post & e & Es & C & O & E)]; rewrite E.
  - split; [intros X; injection X as <-; auto|]. intros [_ ->]. reflexivity.
  - split.
    + destruct O; discriminate.
    + intros [X _]. exfalso. eapply offence_not; eauto. apply X. rewrite Es. apply in_app_iff; right; left; auto.
Qed.

Lemma register_err a b a' e : is_bytes b ->
  (register_buffer a b = (a', Err e) <->
   a' = a /\ exists pre k i post, bs_structure a = pre ++ (k, i) :: post /\
     (forall k' i', In (k', i') pre -> carries b k' i') /\ offence b k i e).
Proof.
  intros B. unfold register_buffer, adheres_to_structure.
  destruct (adheres_spec (bs_structure a) b B) as [(E & C)|(pre & k & i & post & e' & Es & C & O & E)]; rewrite E.
  - split; [discriminate|]. intros (_ & pre & k & i & post & Es & _ & O). exfalso. eapply offence_not; eauto. apply C.
    rewrite Es. apply in_app_iff; right; left; auto.
  - assert (X : match (match e' with ValueError => Ok false | _ => Err e' end) with
       | Ok true => (BStr (bs_structure a) (bs_count a + 1) (bs_received a ++ [b]), Ok tt)
       | Ok false => (a, Err ValueError) | Err e0 => (a, Err e0) end = (a, Err e')) by (destruct O; reflexivity).
    rewrite X. split.
    + intros Y. injection Y as <- <-. split; auto. exists pre, k, i, post. auto.
    + intros (-> & pre' & k' & i' & post' & Es' & C' & O'). f_equal. f_equal.
      assert (k = k' /\ i = i').
      { rewrite Es in Es'. clear -Es' C C' O O'. revert pre' Es' C'. induction pre as [|x pre IH]; intros pre' Es' C'.
        - destruct pre' as [|x' pre']; injection Es' as; subst; auto.
          exfalso. eapply offence_not; [exact O|]. apply C'. left; auto.
        - destruct pre' as [|x' pre'].
          + injection Es' as -> _. exfalso. eapply offence_not; [exact O'|]. apply C. left; auto.
          + injection Es' as -> Es'. apply (IH (fun k i I => C k i (or_intror I)) pre' Es'). intros k2 i2 I. apply C'. right; auto. }
      destruct H as [-> ->]. eapply offence_fun; eauto.
Qed.

Lemma register_structure a b : bs_structure (fst (register_buffer a b)) = bs_structure a.
Proof. unfold register_buffer. destruct (adheres_to_structure a b) as [[|]|]; reflexivity. Qed.

Lemma register_history s bs : Forall is_bytes bs ->
  let a := fold_left (fun a b => fst (register_buffer a b)) bs (bs_init s) in
  bs_structure a = s /\ bs_count a = length (bs_received a) /\
  exists keep : bytes -> bool, bs_received a = filter keep bs /\
    forall b, In b bs -> (keep b = true <-> forall k i, In (k, i) s -> carries b k i).
Proof.
  intros B a.
  assert (G : forall bs a0, Forall is_bytes bs -> bs_count a0 = length (bs_received a0) ->
    let a := fold_left (fun a b => fst (register_buffer a b)) bs a0 in
    bs_structure a = bs_structure a0 /\ bs_count a = length (bs_received a) /\
    bs_received a = bs_received a0 ++ filter (fun b => match adheres_loop (bs_structure a0) b with Ok true => true | _ => false end) bs).
  { clear. induction bs as [|b bs IH]; intros a0 B C; simpl.
    - rewrite app_nil_r. auto.
    - inversion B; subst. destruct (IH (fst (register_buffer a0 b)) H2) as (S1 & S2 & S3).
      + unfold register_buffer. destruct (adheres_to_structure a0 b) as [[|]|]; simpl; auto. rewrite app_length. simpl. lia.
      + rewrite register_structure in *. split; auto. split; auto. rewrite S3.
        unfold register_buffer, adheres_to_structure. destruct (adheres_loop (bs_structure a0) b) as [[|]|]; simpl; auto.
        rewrite <- app_assoc. reflexivity. }
  destruct (G bs (bs_init s) B eq_refl) as (S1 & S2 & S3). split; auto. split; auto. eexists. split; [exact S3|].
  intros b I. rewrite Forall_forall in B. specialize (B _ I). cbn [bs_structure bs_init].
  destruct (adheres_spec s b B) as [(E & C)|(pre & k & i & post & e & Es & C & O & E)]; rewrite E.
  - tauto.
  - split; [destruct O; discriminate|]. intros X. exfalso. eapply offence_not; eauto. apply X. rewrite Es. apply in_app_iff; right; left; auto.
Qed.

Lemma bs_eqb_spec a b : NoDup (map fst (bs_structure a)) -> NoDup (map fst (bs_structure b)) ->
  (bs_eqb a b = true <-> forall k i, In (k, i) (bs_structure a) <-> In (k, i) (bs_structure b)).
Proof.
  intros NA NB. unfold bs_eqb, dict_eqb. rewrite andb_true_iff, forallb_forall, Nat.eqb_eq. split.
  - intros [L F] k i.
    assert (Sub : forall k i, In (k, i) (bs_structure a) -> In (k, i) (bs_structure b)).
    { intros k0 i0 I. specialize (F _ I). cbn [fst snd] in F. destruct (dict_get Nat.eqb (bs_structure b) k0) as [v|] eqn:E; [|discriminate].
      apply N.eqb_eq in F. subst v. apply (dict_get_in _ nateqb_spec) in E. auto. }
    split; auto. intros I.
    assert (X : incl (bs_structure b) (bs_structure a)).
    { apply NoDup_length_incl; [eapply NoDup_map_inv; eauto|lia|]. intros [k0 i0] I0. auto. }
    apply X; auto.
  - intros E. split.
    + apply Nat.le_antisymm; apply NoDup_incl_length; try (eapply NoDup_map_inv; eauto); intros [k i] I; apply E; auto.
    + intros [k i] I. cbn [fst snd]. apply E in I. rewrite (dict_in_get _ nateqb_spec _ _ _ NB I). apply N.eqb_refl.
Qed.

Lemma segment_complete {D} (parser : bytes -> res D) b p v s k i : is_bytes b -> segment_buffer parser b = Ok (p, v, s) ->
  frame_at (fun f => exists d, parser f = Ok d) b k i ->
  In (k, i) s \/ exists k' i', In (k', i') s /\ k' < k < frame_end b k'.
Proof.
  intros B E F. apply segment_ok_iff in E; auto. destruct E as ((_ & _ & C) & _). apply C; auto.
  destruct F as ((L & _) & _). lia.
Qed.

Lemma segment_parts {D} (parser : bytes -> res D) b p v s : is_bytes b -> segment_buffer parser b = Ok (p, v, s) ->
  classifies b s p /\ validates b s v.
Proof. intros B E. apply segment_ok_iff in E; auto. tauto. Qed.

Lemma resync_no_marker text l : is_bytes (stream l) ->
  (forall f, In (Good f) l -> complete_frame (fun f => exists c, frame_v1 c f) f) ->
  (forall g, In (Junk g) l -> ~ In 254%N g) ->
  exists p v, segment_buffer (decode text) (stream l) = Ok (p, v, good_starts 0 l) /\ length p = length (stream l) /\
    forall j, j < length (stream l) -> (nth j p UNKNOWN = UNKNOWN <-> in_junk l j).
Proof.
  intros B G J. destruct (resync text l B G) as (p & v & E & L & _ & K).
  - intros j i (l1 & g & l2 & El & R) (H & _). apply (valid_header_254 text) in H. apply (J g).
    + rewrite El. apply in_app_iff; right; left; auto.
    + rewrite <- H, El, stream_app, stream_cons. rewrite app_nth2 by lia. cbn [chunk_bytes]. rewrite app_nth1 by lia.
      apply nth_In. lia.
  - exists p, v. split; auto. split; auto. intros j Hj. apply (K j Hj).
Qed.
