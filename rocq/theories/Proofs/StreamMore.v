(** The receiving loop, and streams of packed messages. *)
From Coq Require Import String Ascii List NArith ZArith Arith Bool Lia.
From Verif.Model Require Import Py Dialect Struct Mavlink Parser.
From Verif.Spec Require Import Bytes Bits Header CrcSpec Frame StreamSpec.
From Verif.Proofs Require Import Base DialectP MavlinkP FieldsP SendP MavlinkMore StreamP.
Import ListNotations.
Local Open Scope list_scope.
Local Notation length := List.length.

Definition v1_stream (s : bytes) : Prop := forall l r, cut s l r -> Forall (fun x => ~ is_v2_frame x) l /\ nth 0 r 0%N <> 253%N.

Lemma v1_noise b s : ~ marker b -> v1_stream (b :: s) -> v1_stream s.
Proof.
  intros Hm H l r C. destruct (H _ _ (cut_noise b s l r Hm C)) as [H1 H2]. inversion H1. auto.
Qed.
Lemma v1_frame f s : whole f -> v1_stream (f ++ s) -> v1_stream s /\ nth 0 f 0%N <> 253%N.
Proof.
  intros Hw H. split.
  - intros l r C. destruct (H _ _ (cut_frame f s l r Hw C)) as [H1 H2]. inversion H1. auto.
  - destruct (cut_total s) as (l & r & C). destruct (H _ _ (cut_frame f s l r Hw C)) as [H1 H2]. inversion H1 as [|? ? Hx _]; subst.
    destruct Hw as (m & len & fl & t & -> & Hm & _). cbn [nth]. intros ->. apply Hx. exact I.
Qed.

Lemma whole_8 f : whole f -> 8 <= length f.
Proof. intros (m & l & g & t & -> & _ & ->). apply frame_size_min. Qed.

Section Poll.
Context {D M : Type}.
Variable decode : D -> bytes -> D * res M.

(** Between two rounds of the loop. *)
Definition timely (p : parser D) : Prop :=
  sound p /\ buf_len p < p_expected p /\
  (p_expected p = 8 \/ exists magic len flags t, pending p = magic :: len :: flags :: t /\ marker magic /\ p_expected p = frame_size magic len flags).

Lemma self_looks (p : parser D) : sound p -> looks p (pending p) (p_robust p) (p_decoder p) (p_packets p) (p_bytes p) (p_errors p).
Proof. intros H. repeat split; try reflexivity; apply H. Qed.

Lemma poll_step (p : parser D) s :
  timely p -> is_bytes (pending p ++ s) -> v1_stream (pending p ++ s) ->
  let k := bytes_needed p in let p' := fst (parse_char decode p (firstn k s)) in
  timely p' /\ is_bytes (pending p' ++ skipn k s) /\ v1_stream (pending p' ++ skipn k s).
Proof.
  intros (S0 & Hl & Hx) B V. cbv zeta. unfold bytes_needed. rewrite (proj2 (Nat.leb_gt _ _) Hl).
  set (k := p_expected p - buf_len p). set (c := firstn k s).
  pose proof (self_looks p S0) as L.
  assert (Hc : length (pending p ++ c) <= p_expected p).
  { rewrite app_length, pending_length. unfold c. rewrite firstn_length. unfold k. lia. }
  assert (Es : pending p ++ s = (pending p ++ c) ++ skipn k s).
  { rewrite <- app_assoc. unfold c. rewrite firstn_skipn. reflexivity. }
  rewrite Es in B, V. unfold is_bytes in *. pose proof B as B'. apply Forall_app in B'. destruct B' as [B1 B2].
  destruct (unfinished_or_frame (pending p ++ c)) as [(b & t & E & Hm)|[U|(f & t & E & Hw)]].
  - destruct (char_noise decode p c _ _ _ _ _ _ b t L E Hm) as (p' & -> & L' & _ & X'). cbn [fst].
    destruct L' as (S' & P' & _).
    assert (H8 : p_expected p = 8).
    { destruct Hx as [Hx|(m & len & fl & u & Eu & Hm' & _)]; [exact Hx|]. rewrite Eu in E. injection E as <- _. contradiction. }
    assert (H8' : p_expected p' = 8) by (rewrite X'; destruct (p_robust p); auto).
    rewrite P'. rewrite E in *. split; [|split].
    + split; [exact S'|]. split; [|left; exact H8']. rewrite <- pending_length, P', H8'. cbn [length] in Hc. lia.
    + cbn in B. inversion B; assumption.
    + cbn in V. eapply v1_noise; eauto.
  - destruct (char_unfinished decode p c _ _ _ _ _ _ L U) as (p' & -> & L' & _ & X' & Y'). cbn [fst].
    destruct L' as (S' & P' & _). rewrite P'. split; [|split; [exact B|exact V]].
    split; [exact S'|]. rewrite <- pending_length, P'.
    destruct (le_lt_dec 3 (length (pending p ++ c))) as [H3|H3].
    + destruct (pending p ++ c) as [|m [|len [|fl u]]] eqn:Eu; cbn [length] in H3; try lia.
      rewrite (X' m len fl u eq_refl). destruct U as [U|(m' & t' & Et & Hm & Hlen)]; [discriminate|]. injection Et as <- <-.
      split; [exact (Hlen len fl u eq_refl)|]. right. exists m, len, fl, u. auto.
    + rewrite (Y' H3). split; [destruct S0; lia|]. destruct Hx as [Hx|(m & len & fl & u & Eu & _)]; [left; exact Hx|].
      rewrite Eu in H3. cbn in H3. lia.
  - rewrite E in B1, V, B, Hc. apply Forall_app in B1. destruct B1 as [Bf _].
    destruct (char_frame decode p c _ _ _ _ _ _ f t L E Hw Bf) as (p' & -> & L' & _ & X'). cbn [fst].
    destruct L' as (S' & P' & _).
    rewrite <- app_assoc in V, B. destruct (v1_frame _ _ Hw V) as [V' Hv].
    rewrite (proj2 (N.eqb_neq _ _) Hv) in X'.
    assert (Ht : t = []).
    { apply length_zero_iff_nil. rewrite app_length in Hc. pose proof (whole_8 f Hw) as H8.
      destruct Hx as [Hx|(m & len & fl & u & Eu & Hm' & Hx)]; [lia|].
      destruct Hw as (m2 & len2 & fl2 & u2 & -> & _ & Hs). rewrite Eu in E. injection E as <- <- <- _. lia. }
    rewrite P'. split; [|split].
    + split; [exact S'|]. split; [|left; exact X']. rewrite <- pending_length, P', X', Ht. cbn. lia.
    + apply Forall_app in B. apply B.
    + exact V'.
Qed.

Lemma poll_timely n : forall (p : parser D) s,
  timely p -> is_bytes (pending p ++ s) -> v1_stream (pending p ++ s) -> timely (fst (poll decode n p s)).
Proof.
  induction n as [|n IH]; intros p s T B V; [exact T|]. cbn [poll]. destruct (poll_step p s T B V) as (T' & B' & V'). apply IH; assumption.
Qed.

Lemma short_noise s l r : cut s l r -> length s < 8 -> Forall is_noise l.
Proof.
  induction 1 as [s U|b s l r Hm C IH|f s l r Hw C IH]; intros Hl; [constructor| |].
  - constructor; [exact I|]. apply IH. cbn in Hl. lia.
  - rewrite app_length in Hl. apply whole_8 in Hw. lia.
Qed.

Lemma timely_noise (p : parser D) l r : timely p -> cut (pending p) l r -> Forall is_noise l.
Proof.
  intros (S0 & Hl & Hx) C. rewrite <- pending_length in Hl. destruct Hx as [Hx|(m & len & fl & u & Eu & Hm & Hx)].
  - rewrite Hx in Hl. eapply short_noise; eauto.
  - assert (U : unfinished (pending p)).
    { right. exists m, (len :: fl :: u). split; [exact Eu|]. split; [exact Hm|]. intros ? ? ? [= <- <- <-]. rewrite <- Hx. exact Hl. }
    destruct (unfinished_cut _ _ _ U C) as [-> _]. constructor.
Qed.

Lemma new_timely robust (d : D) : timely (parser_new robust d).
Proof. split; [split; cbn; lia|]. split; [cbn; lia|left; reflexivity]. Qed.

Lemma char_sound (p : parser D) c : sound p -> is_bytes (pending p ++ c) ->
  sound (fst (parse_char decode p c)) /\ is_bytes (pending (fst (parse_char decode p c))).
Proof.
  intros S0 B. pose proof (self_looks p S0) as L.
  destruct (unfinished_or_frame (pending p ++ c)) as [(b & t & E & Hm)|[U|(f & t & E & Hw)]].
  - destruct (char_noise decode p c _ _ _ _ _ _ b t L E Hm) as (p' & -> & (S' & P' & _) & _). split; [exact S'|]. cbn [fst]. rewrite P'.
    rewrite E in B. inversion B; assumption.
  - destruct (char_unfinished decode p c _ _ _ _ _ _ L U) as (p' & -> & (S' & P' & _) & _). split; [exact S'|]. cbn [fst]. rewrite P'. exact B.
  - rewrite E in B. apply is_bytes_app in B. destruct B as [B1 B2].
    destruct (char_frame decode p c _ _ _ _ _ _ f t L E Hw B1) as (p' & -> & (S' & P' & _) & _). split; [exact S'|]. cbn [fst]. rewrite P'. exact B2.
Qed.

Lemma calls_sound cs : Forall is_bytes cs -> forall (p : parser D), sound p -> is_bytes (pending p) ->
  sound (fold_left (fun p c => fst (parse_char decode p c)) cs p).
Proof.
  induction 1 as [|c cs Hc H IH]; intros p S0 B; [exact S0|]. cbn [fold_left].
  destruct (char_sound p c S0) as [S1 B1]; [apply is_bytes_app; auto|]. apply IH; assumption.
Qed.

(** While a frame is being received, exactly its missing bytes are asked for. *)
Lemma timely_needed (p : parser D) c magic len flags t :
  sound p -> pending p ++ c = magic :: len :: flags :: t -> unfinished (pending p ++ c) ->
  bytes_needed (fst (parse_char decode p c)) = frame_size magic len flags - length (pending p ++ c).
Proof.
  intros S0 E U. pose proof (self_looks p S0) as L.
  destruct (char_unfinished decode p c _ _ _ _ _ _ L U) as (p' & -> & L' & _ & X' & _). cbn [fst].
  destruct L' as (S' & P' & _). unfold bytes_needed. rewrite <- pending_length, P', (X' _ _ _ _ E).
  destruct U as [U|(m' & t' & Et & Hm & Hlen)]; [rewrite U in E; discriminate|].
  rewrite E in Et. injection Et as <- <-. specialize (Hlen len flags t eq_refl).
  rewrite (proj2 (Nat.leb_gt _ _) Hlen). reflexivity.
Qed.
End Poll.

(** Packed messages. *)
Section Packed.
Variable text : bytes -> list N.

Lemma plain_mav : only_mav_errors (plain_decode text).
Proof.
  intros d f e B H E. cbn in E. destruct (decode_errors text f e B E) as [[-> _]|[_ ->]]; [contradiction|reflexivity].
Qed.

Lemma packed_whole x f : legit x -> message_pack (Msg (s_class x) (s_fields x)) (s_seq x) (s_sys x) (s_comp x) = Ok f ->
  whole f /\ is_bytes f /\ nth 0 f 0%N = 254%N /\ exists d, decode text f = Ok d /\ sent_as text x d.
Proof.
  intros (H1 & H2 & H3 & H4 & H5) E. destruct (pack_decode_sent text _ _ _ _ _ H1 H2 H3 H4 H5) as (b & d & E' & B & Hl & F & Dd & Se).
  rewrite E in E'. injection E' as <-.
  assert (H0 : nth 0 f 0%N = 254%N) by (destruct F as [_ (? & ? & ? & ? & -> & _)]; reflexivity).
  assert (Hlen : nth 1 f 0%N = N.of_nat (wire_size (s_class x))).
  { destruct F as [_ (body & lo & hi & sig & -> & Hs & Hh & Hn & _)]. rewrite Hn. f_equal.
    cbn [length] in Hl. rewrite !app_length in Hl. cbn [length] in Hl. lia. }
  split; [|split; [exact B|split; [exact H0|exists d; auto]]].
  destruct f as [|m [|len [|fl t]]]; cbn [length] in Hl; try lia. cbn [nth] in *. subst m len.
  exists 254%N, (N.of_nat (wire_size (s_class x))), fl, t. split; [reflexivity|]. split; [left; reflexivity|].
  unfold frame_size. replace (254 =? 254)%N with true by reflexivity. rewrite Nat2N.id. cbn [length]. lia.
Qed.

Lemma transmission_cut s l : transmission text s l ->
  is_bytes s /\ exists pieces, cut s pieces [] /\
    Forall2 (sent_as text) l (messages (snd (tolerant (plain_decode text) tt pieces))) /\
    (forall fl, Forall2 (sent_as text) l (messages (returned_items (snd (strict (plain_decode text) tt fl pieces))))).
Proof.
  induction 1 as [|x f s l Hx Hp T IH|b s l Hm Hb T IH|f s l Hw Hb Hd T IH].
  - split; [constructor|]. exists []. split; [constructor; left; reflexivity|]. split; [constructor|intros; constructor].
  - destruct (packed_whole x f Hx Hp) as (Hw & B & H0 & d & Ed & Se). destruct IH as (Bs & pieces & C & A1 & A2).
    split; [apply is_bytes_app; auto|]. exists (Frame f :: pieces). split; [constructor; assumption|].
    cbn [tolerant strict]. unfold outcome. rewrite H0. replace (254 =? 253)%N with false by reflexivity. cbn [andb plain_decode]. rewrite Ed. split.
    + destruct (tolerant (plain_decode text) tt pieces) as [d' rs]. cbn [snd messages flat_map app] in *. constructor; assumption.
    + intros fl. specialize (A2 false). destruct (strict (plain_decode text) tt false pieces) as [d' rs].
      cbn [snd messages returned_items flat_map app] in *. constructor; assumption.
  - destruct IH as (Bs & pieces & C & A1 & A2). split; [constructor; assumption|]. exists (Noise b :: pieces).
    split; [constructor; assumption|]. cbn [tolerant strict]. split.
    + destruct (tolerant (plain_decode text) tt pieces) as [d' rs]. exact A1.
    + intros fl. specialize (A2 true). destruct (strict (plain_decode text) tt true pieces) as [d' rs]. destruct fl; exact A2.
  - destruct IH as (Bs & pieces & C & A1 & A2). split; [apply is_bytes_app; auto|]. exists (Frame f :: pieces).
    split; [constructor; assumption|]. cbn [tolerant strict].
    assert (Ho : exists e, outcome (plain_decode text) tt f = (tt, Err e)).
    { unfold outcome. destruct (_ && _)%bool; [eexists; reflexivity|]. unfold plain_decode. destruct (decode text f) as [d|e] eqn:E; [|exists e; reflexivity].
      exfalso. exact (Hd d eq_refl). }
    destruct Ho as (e & ->). split.
    + destruct (tolerant (plain_decode text) tt pieces) as [d' rs]. exact A1.
    + intros fl. specialize (A2 false). destruct (strict (plain_decode text) tt false pieces) as [d' rs]. exact A2.
Qed.

Lemma clean_cut s l : clean_transmission s l ->
  is_bytes s /\ exists pieces ms, cut s pieces [] /\ accepted (plain_decode text) tt pieces ms /\ Forall2 (sent_as text) l ms.
Proof.
  induction 1 as [|x f s l Hx Hp T IH].
  - split; [constructor|]. exists [], []. split; [constructor; left; reflexivity|]. split; [exact I|constructor].
  - destruct (packed_whole x f Hx Hp) as (Hw & B & H0 & d & Ed & Se). destruct IH as (Bs & pieces & ms & C & A1 & A2).
    split; [apply is_bytes_app; auto|]. exists (Frame f :: pieces), (d :: ms). split; [constructor; assumption|]. split; [|constructor; assumption].
    cbn [accepted]. unfold outcome. rewrite H0. replace (254 =? 253)%N with false by reflexivity. cbn [andb plain_decode fst snd]. auto.
Qed.
End Packed.

Lemma returned_ok {A} (l : list A) : returned_items (map Ok l) = l.
Proof. induction l as [|x t IH]; [reflexivity|]. cbn. f_equal. exact IH. Qed.
Lemma Forall2_len {A B} (P : A -> B -> Prop) l l' : Forall2 P l l' -> length l = length l'.
Proof. induction 1; cbn; congruence. Qed.
