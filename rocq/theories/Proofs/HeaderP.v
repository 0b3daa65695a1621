(** Proofs about Model/MsgHeader.v. *)
From Coq Require Import String List NArith ZArith Bool Lia ZifyBool ZifyNat ZifyN.
From Verif.Model Require Import Py Dialect ProtocolMeta BitOps MsgHeader.
From Verif.Spec Require Import Bytes Bits Header.
From Verif.Proofs Require Import Base BitOpsP DialectP.
Import ListNotations.

Lemma payload_length_z_spec i n : payload_length_z i = Some n <-> (0 <= i)%Z /\ plen (Z.to_N i) n.
Proof.
  unfold payload_length_z. destruct (Z.ltb_spec i 0).
  - split; [discriminate|lia].
  - rewrite payload_length_spec. split; [auto|tauto].
Qed.

Lemma frame_header_ok m s c q h :
  frame_header_init m s c q = Ok h <->
  in_byte s /\ in_byte c /\ in_byte q /\ (0 <= m)%Z /\
  exists n, plen (Z.to_N m) n /\ fh_buffer h = [254%N; N.of_nat n; Z.to_N q; Z.to_N s; Z.to_N c; Z.to_N m].
Proof.
  unfold frame_header_init, in_byte.
  destruct (_ || _)%bool eqn:E.
  - split; [discriminate|]. lia.
  - destruct (payload_length_z m) as [n|] eqn:EP.
    + apply payload_length_z_spec in EP. destruct EP as [H1 H2]. split; intros H.
      * inv H. repeat split; try lia. exists n; auto.
      * destruct H as (_ & _ & _ & _ & n' & Hn & Hb).
        assert (n' = n) by (eapply plen_fun; eauto). subst. destruct h as [hb]; simpl in Hb. subst hb. reflexivity.
    + split.
      * intros H. destruct ((m <? 0) || (255 <? m))%Z%bool in H; discriminate H.
      * intros (_ & _ & _ & H1 & n & H2 & _).
        assert (payload_length_z m = Some n) by (apply payload_length_z_spec; auto). congruence.
Qed.

Lemma frame_header_err m s c q e :
  frame_header_init m s c q = Err e <->
  (e = NonUint8 /\ ~ (in_byte s /\ in_byte c /\ in_byte q /\ in_byte m)) \/
  (e = NonExistentMsdId /\ in_byte s /\ in_byte c /\ in_byte q /\ in_byte m /\ ~ exists n, plen (Z.to_N m) n).
Proof.
  unfold frame_header_init.
  assert (D : forall s c q,
     ((s <? 0) || (c <? 0) || (q <? 0) || (255 <? s) || (255 <? c) || (255 <? q))%Z%bool = false <->
     in_byte s /\ in_byte c /\ in_byte q) by (unfold in_byte; lia).
  destruct (_ || _)%bool eqn:E.
  - assert (~ (in_byte s /\ in_byte c /\ in_byte q)) by (rewrite <- D; congruence).
    split; intros H0; [inv H0; left; tauto|]. destruct H0 as [[-> _]|]; [auto|tauto].
  - apply D in E.
    destruct (payload_length_z m) as [n|] eqn:EP.
    + apply payload_length_z_spec in EP. destruct EP as [H1 H2]. pose proof (plen_bounds _ _ H2).
      split; [discriminate|]. intros [[_ H0]|(_ & _ & _ & _ & _ & H0)].
      * destruct H0. clear D. unfold in_byte in *. lia.
      * destruct H0; eauto.
    + assert (N : forall n, ~ ((0 <= m)%Z /\ plen (Z.to_N m) n)) by
         (intros n Hn; apply payload_length_z_spec in Hn; congruence).
      destruct (_ || _)%bool eqn:E2.
      * split; intros H0; [inv H0; left; split; auto; unfold in_byte; lia|].
        destruct H0 as [[-> _]|(_ & _ & _ & _ & Hm & _)]; auto. unfold in_byte in Hm; lia.
      * assert (Hm : in_byte m) by (unfold in_byte; lia).
        split; intros H0.
        -- inv H0. right. split; auto. split; [tauto|]. split; [tauto|]. split; [tauto|]. split; auto.
           intros (n & Hn). apply (N n). split; auto. unfold in_byte in Hm; lia.
        -- destruct H0 as [[_ H0]|[-> _]]; auto. tauto.
Qed.

Lemma is_valid_header_spec b : is_valid_header b = true <-> valid_header b.
Proof.
  unfold is_valid_header. change header_len with 6. change stx with 254%N.
  split.
  - destruct (Nat.eqb_spec (length b) 6) as [L|]; simpl; [|discriminate].
    destruct b as [|b0 [|b1 [|b2 [|b3 [|b4 [|b5 [|]]]]]]]; try discriminate. simpl nth.
    rewrite andb_true_iff. intros [H1 H2]. apply N.eqb_eq in H1.
    destruct (payload_length b5) as [n|] eqn:EP; [|discriminate]. apply N.eqb_eq in H2. subst.
    apply payload_length_spec in EP. constructor; auto.
  - intros H. inv H. simpl. apply payload_length_spec in H0. rewrite H0. rewrite N.eqb_refl. reflexivity.
Qed.

Lemma from_buffer_ok b f h :
  is_bytes b ->
  (from_buffer b f = Ok h <->
   length b = 6 /\ exists i n, (0 <= match f with Some m => m | None => Z.of_N (nth 5 b 0%N) end)%Z /\
     i = Z.to_N (match f with Some m => m | None => Z.of_N (nth 5 b 0%N) end) /\ plen i n /\
     fh_buffer h = [254%N; N.of_nat n; nth 2 b 0%N; nth 3 b 0%N; nth 4 b 0%N; i]).
Proof.
  intros B. unfold from_buffer. change header_len with 6.
  destruct (Nat.eqb_spec (length b) 6) as [L|L]; simpl.
  - rewrite frame_header_ok. unfold in_byte.
    pose proof (is_bytes_nth 2 B). pose proof (is_bytes_nth 3 B). pose proof (is_bytes_nth 4 B).
    rewrite !N2Z.id.
    split.
    + intros (_ & _ & _ & H3 & n & H4 & H5). split; auto. eexists; exists n; split; [|split; [|split]]; eauto.
    + intros (_ & i & n & H3 & -> & H4 & H5). repeat split; try lia. exists n; auto.
  - split; [discriminate|]. intros [H _]; lia.
Qed.

Lemma from_buffer_length b f : length b <> 6 -> from_buffer b f = Err HeaderLength.
Proof. intros L. unfold from_buffer. change header_len with 6. apply Nat.eqb_neq in L. rewrite L. reflexivity. Qed.

Lemma constructed_valid m s c q h :
  frame_header_init m s c q = Ok h -> valid_header (fh_buffer h) /\ is_bytes (fh_buffer h) /\
  from_buffer (fh_buffer h) None = Ok h.
Proof.
  intros H. apply frame_header_ok in H. destruct H as (Hs & Hc & Hq & Hm & n & Hn & Hb).
  pose proof (plen_bounds _ _ Hn). unfold in_byte in *.
  assert (B : is_bytes (fh_buffer h)).
  { rewrite Hb. unfold is_bytes. repeat apply Forall_cons; [lia..|apply Forall_nil]. }
  repeat split; auto.
  - rewrite Hb. constructor; auto.
  - apply from_buffer_ok; auto. rewrite Hb. split; auto. exists (Z.to_N m), n. simpl nth.
    rewrite N2Z.id. repeat split; auto. lia.
Qed.

Lemma from_buffer_valid b : is_bytes b -> length b = 6 -> (from_buffer b None = Ok (FH b) <-> valid_header b).
Proof.
  intros B L. rewrite from_buffer_ok by auto.
  destruct b as [|b0 [|b1 [|b2 [|b3 [|b4 [|b5 [|]]]]]]]; try discriminate. simpl nth. simpl fh_buffer.
  rewrite N2Z.id. split.
  - intros (_ & i & n & _ & -> & P & E). inv E. constructor; auto.
  - intros H. inv H. split; auto. exists b5, n. repeat split; auto. lia.
Qed.

(** Distances. *)
Lemma byte_diffs_diffs a b : length a = length b -> byte_diffs a b = diffs (bytes_bits a) (bytes_bits b).
Proof.
  intros L. unfold diffs, byte_diffs. rewrite length_bytes_bits. apply filter_ext_in_len.
  intros i Hi. apply in_seq in Hi. rewrite !nth_bytes_bits by lia. reflexivity.
Qed.

Lemma testbit_of_N a i : N.testbit a (N.of_nat i) = Z.testbit (Z.of_N a) (Z.of_nat i).
Proof. rewrite <- Z.testbit_of_N. f_equal. lia. Qed.

Lemma byte_diffs_cons a b x y :
  length x = length y -> byte_diffs (a :: x) (b :: y) = int_diffs 8 (Z.of_N a) (Z.of_N b) + byte_diffs x y.
Proof.
  intros L. rewrite !byte_diffs_diffs by (simpl; auto).
  unfold bytes_bits. cbn [flat_map]. fold (bytes_bits x) (bytes_bits y).
  unfold byte_bits. cbn [map app]. rewrite !diffs_cons.
  unfold int_diffs. cbn [seq]. rewrite !filter_cons_len. simpl (filter _ []). simpl (length []).
  rewrite <- !testbit_of_N.
  change (N.of_nat 0) with 0%N; change (N.of_nat 1) with 1%N; change (N.of_nat 2) with 2%N; change (N.of_nat 3) with 3%N;
  change (N.of_nat 4) with 4%N; change (N.of_nat 5) with 5%N; change (N.of_nat 6) with 6%N; change (N.of_nat 7) with 7%N.
  assert (X : forall u v : bool, negb (eqb u v) = xorb u v) by (intros [] []; reflexivity).
  rewrite !X. lia.
Qed.

Lemma byte_diffs_nil : byte_diffs [] [] = 0.
Proof. reflexivity. Qed.

Lemma int_diffs_refl n a : int_diffs n a a = 0.
Proof.
  unfold int_diffs. rewrite filter_ext_in_len with (g := fun _ => false).
  - induction (seq 0 n); simpl; auto.
  - intros x _. rewrite Bool.eqb_reflx. reflexivity.
Qed.

Lemma int_diffs_sym n a b : int_diffs n a b = int_diffs n b a.
Proof.
  unfold int_diffs. apply filter_ext_in_len. intros i _. destruct (Z.testbit a _), (Z.testbit b _); reflexivity.
Qed.

Lemma int_diffs_zero a b : (a < 256)%N -> (b < 256)%N -> int_diffs 8 (Z.of_N a) (Z.of_N b) = 0 -> a = b.
Proof.
  intros Ha Hb H. 
  assert (E : byte_diffs [a] [b] = 0) by (rewrite byte_diffs_cons by auto; rewrite H; reflexivity).
  rewrite byte_diffs_diffs in E by auto. apply diffs_zero in E; [|reflexivity].
  apply N.bits_inj_iff. intros i.
  destruct (N.lt_ge_cases i 8) as [Hi|Hi].
  - unfold bytes_bits, byte_bits in E. cbn [flat_map map app] in E. injection E; intros.
    assert (C : (i = 0 \/ i = 1 \/ i = 2 \/ i = 3 \/ i = 4 \/ i = 5 \/ i = 6 \/ i = 7)%N) by (clear -Hi; lia).
    repeat (destruct C as [->|C]; [assumption|]). subst; assumption.
  - assert (T : forall a, (a < 256)%N -> N.testbit a i = false).
    { intros z Hz. destruct (N.eq_dec z 0) as [->|]; [apply N.bits_0|].
      apply N.bits_above_log2. assert (N.log2 z < 8)%N; [|clear -Hi H0; lia]. apply N.log2_lt_pow2; [clear -n; lia|]. exact Hz. }
    rewrite !T by auto. reflexivity.
Qed.

(** One candidate: its distance, and whether max_len admits it. *)
Definition cand (b1 b5 : N) (e : N * nat) : nat :=
  int_diffs 8 (Z.of_nat (snd e)) (Z.of_N b1) + int_diffs 8 (Z.of_N (fst e)) (Z.of_N b5).
Definition admits (max_len : option Z) (n : nat) : Prop :=
  match max_len with None => True | Some m => (Z.of_nat n <= m)%Z end.
Definition small (e : N * nat) : Prop := (fst e < 256)%N /\ snd e < 256.

Lemma admits_dec m n : {admits m n} + {~ admits m n}.
Proof. destruct m as [m|]; simpl; [|auto]. destruct (Z_le_dec (Z.of_nat n) m); auto. Qed.

Lemma closest_step b1 b5 ml e t st :
  (b1 < 256)%N -> (b5 < 256)%N -> small e ->
  closest_loop (e :: t) (Z.of_N b1) (Z.of_N b5) ml st =
  let st' := if ((Z.of_nat (cand b1 b5 e) <? fst st)%Z && if admits_dec ml (snd e) then true else false)%bool
             then (Z.of_nat (cand b1 b5 e), Z.of_N (fst e)) else st in
  if Nat.eqb (cand b1 b5 e) 0 then Ok st' else closest_loop t (Z.of_N b1) (Z.of_N b5) ml st'.
Proof.
  intros H1 H5 [S1 S2]. destruct e as [i n], st as [md ch]; simpl in S1, S2.
  cbn [closest_loop].
  rewrite !hamming_ints by (simpl; lia). cbn [bind fst snd]. cbv zeta.
  fold (cand b1 b5 (i, n)).
  replace (Z.of_nat (int_diffs 8 (Z.of_nat n) (Z.of_N b1)) + Z.of_nat (int_diffs 8 (Z.of_N i) (Z.of_N b5)))%Z
    with (Z.of_nat (cand b1 b5 (i, n))) by (unfold cand; simpl fst; simpl snd; lia).
  replace (match ml with Some m => (Z.of_nat n <=? m)%Z | None => true end)
    with (if admits_dec ml n then true else false)
    by (destruct (admits_dec ml n) as [A|A]; destruct ml; simpl in A; try tauto; lia).
  replace (Z.of_nat (cand b1 b5 (i, n)) =? 0)%Z with (Nat.eqb (cand b1 b5 (i, n)) 0) by lia.
  destruct (_ && _)%bool; reflexivity.
Qed.

Lemma closest_loop_spec b1 b5 ml tab md ch :
  (b1 < 256)%N -> (b5 < 256)%N -> Forall small tab -> (0 < md)%Z ->
  (forall e, In e tab -> cand b1 b5 e = 0 -> admits ml (snd e)) ->
  (closest_loop tab (Z.of_N b1) (Z.of_N b5) ml (md, ch) = Ok (md, ch) /\
   forall e, In e tab -> admits ml (snd e) -> (md <= Z.of_nat (cand b1 b5 e))%Z) \/
  (exists pre e post, tab = pre ++ e :: post /\ admits ml (snd e) /\
     closest_loop tab (Z.of_N b1) (Z.of_N b5) ml (md, ch) = Ok (Z.of_nat (cand b1 b5 e), Z.of_N (fst e)) /\
     (Z.of_nat (cand b1 b5 e) < md)%Z /\
     (forall e', In e' pre -> admits ml (snd e') -> cand b1 b5 e < cand b1 b5 e') /\
     (forall e', In e' post -> admits ml (snd e') -> cand b1 b5 e <= cand b1 b5 e')).
Proof.
  intros H1 H5. revert md ch. induction tab as [|e t IH]; intros md ch S M X.
  - left. split; auto. simpl; tauto.
  - inv S. rewrite closest_step by auto. cbn [fst snd]. cbv zeta.
    destruct (Nat.eqb_spec (cand b1 b5 e) 0) as [E0|E0].
    + assert (A : admits ml (snd e)) by (apply X; simpl; auto).
      destruct (admits_dec ml (snd e)); [|tauto].
      replace (_ && _)%bool with true by lia.
      right. exists [], e, t. repeat split; auto; try lia. intros e' [].
    + assert (X' : forall e, In e t -> cand b1 b5 e = 0 -> admits ml (snd e)) by (intros; apply X; simpl; auto).
      destruct (admits_dec ml (snd e)) as [A|A].
      * rewrite andb_true_r. destruct (Z.ltb_spec (Z.of_nat (cand b1 b5 e)) md) as [L|L].
        -- destruct (IH (Z.of_nat (cand b1 b5 e)) (Z.of_N (fst e)) H3 ltac:(lia) X') as [[IH1 IH2]|IH'].
           ++ right. exists [], e, t. split; [reflexivity|]. split; [auto|]. split; [auto|]. split; [auto|]. split.
              ** intros e' [].
              ** intros e' I A'. specialize (IH2 _ I A'). lia.
           ++ destruct IH' as (pre & e2 & post & -> & A2 & R & L2 & P1 & P2).
              right. exists (e :: pre), e2, post. repeat split; auto; try lia.
              intros e' [<-|I] A'; [lia|auto].
        -- destruct (IH md ch H3 M X') as [[IH1 IH2]|IH'].
           ++ left. split; auto. intros e' [<-|I] A'; [lia|auto].
           ++ destruct IH' as (pre & e2 & post & -> & A2 & R & L2 & P1 & P2).
              right. exists (e :: pre), e2, post. repeat split; auto; try lia.
              intros e' [<-|I] A'; [lia|auto].
      * rewrite andb_false_r. destruct (IH md ch H3 M X') as [[IH1 IH2]|IH'].
        -- left. split; auto. intros e' [<-|I] A'; [tauto|auto].
        -- destruct IH' as (pre & e2 & post & -> & A2 & R & L2 & P1 & P2).
           right. exists (e :: pre), e2, post. repeat split; auto; try lia.
           intros e' [<-|I] A'; [tauto|auto].
Qed.

(** An over-long exact match ends the search: what follows it in the table is never looked at. *)
Lemma closest_loop_stop b1 b5 ml pre e post st :
  (b1 < 256)%N -> (b5 < 256)%N -> Forall small (pre ++ e :: post) ->
  cand b1 b5 e = 0 -> ~ admits ml (snd e) -> (forall e', In e' pre -> cand b1 b5 e' <> 0) ->
  closest_loop (pre ++ e :: post) (Z.of_N b1) (Z.of_N b5) ml st = closest_loop pre (Z.of_N b1) (Z.of_N b5) ml st.
Proof.
  intros H1 H5. revert st. induction pre as [|a pre IH]; intros st S C A N; simpl app; inv S.
  - rewrite closest_step by auto. cbv zeta. rewrite C. destruct (admits_dec ml (snd e)); [tauto|].
    rewrite andb_false_r. simpl. destruct st; reflexivity.
  - rewrite !closest_step by auto. cbv zeta.
    destruct (Nat.eqb_spec (cand b1 b5 a) 0) as [E|E]; [destruct (N a); simpl; auto|].
    apply IH; auto. intros; apply N; simpl; auto.
Qed.

(** The table of (id, payload length). *)
Lemma table_small : Forall small msgs_payload_length.
Proof.
  apply Forall_forall. intros [i n] H. unfold small; simpl.
  assert (P : payload_length i = Some n).
  { unfold payload_length. apply (dict_get_iff N.eqb Neqb_spec); auto.
    unfold msgs_payload_length. rewrite map_map. exact table_ids_nodup. }
  apply payload_length_spec in P. apply plen_bounds in P. lia.
Qed.

Lemma table_plen i n : In (i, n) msgs_payload_length <-> plen i n.
Proof.
  rewrite <- payload_length_spec. unfold payload_length. rewrite (dict_get_iff N.eqb Neqb_spec); [tauto|].
  unfold msgs_payload_length. rewrite map_map. exact table_ids_nodup.
Qed.

Definition entry (c : msg_class) : N * nat := (mc_key c, match msg_len c with Ok n => n | Err _ => 0 end).

Lemma table_entries : msgs_payload_length = map entry mavlink_classes.
Proof. reflexivity. Qed.

Lemma entry_plen c : In c mavlink_classes -> fst (entry c) = mc_id c /\ type_sum (mc_fieldtypes c) (snd (entry c)).
Proof.
  intros H. pose proof (class_facts_in _ H) as F. unfold entry; simpl. split; [apply cf_key; auto|].
  destruct (cf_items _ F) as (items & k & _ & _ & _ & T & E & _). rewrite E; auto.
Qed.

Lemma six b : length b = 6 ->
  b = [nth 0 b 0%N; nth 1 b 0%N; nth 2 b 0%N; nth 3 b 0%N; nth 4 b 0%N; nth 5 b 0%N].
Proof. destruct b as [|b0 [|b1 [|b2 [|b3 [|b4 [|b5 [|]]]]]]]; try discriminate. reflexivity. Qed.

Definition dstx (b : bytes) : nat := int_diffs 8 254 (Z.of_N (nth 0 b 0%N)).

(** Distance of [b] to a valid header, split into start marker, table entry and the three free bytes. *)
Lemma header_distance b n q s c i :
  length b = 6 ->
  byte_diffs b [254%N; N.of_nat n; q; s; c; i] =
  dstx b + cand (nth 1 b 0%N) (nth 5 b 0%N) (i, n) + byte_diffs [nth 2 b 0%N; nth 3 b 0%N; nth 4 b 0%N] [q; s; c].
Proof.
  intros L. rewrite (six b L) at 1. rewrite !byte_diffs_cons by reflexivity. rewrite byte_diffs_nil.
  unfold dstx, cand; simpl fst; simpl snd. change (Z.of_N 254) with 254%Z. rewrite nat_N_Z.
  rewrite (int_diffs_sym 8 (Z.of_N (nth 0 b 0%N))), (int_diffs_sym 8 (Z.of_N (nth 1 b 0%N))), (int_diffs_sym 8 (Z.of_N (nth 5 b 0%N))).
  lia.
Qed.

Lemma byte_diffs_refl b : byte_diffs b b = 0.
Proof. rewrite byte_diffs_diffs by auto. apply diffs_refl. Qed.

Lemma split_map {A B} (f : A -> B) l pre e post :
  map f l = pre ++ e :: post -> exists p c q, l = p ++ c :: q /\ map f p = pre /\ f c = e /\ map f q = post.
Proof.
  revert l; induction pre as [|a pre IH]; intros l H.
  - destruct l as [|c q]; [discriminate|]. simpl in H. inv H. exists [], c, q. auto.
  - destruct l as [|c q]; [discriminate|]. simpl in H. inv H.
    destruct (IH _ H2) as (p & c' & q' & -> & <- & <- & <-). exists (c :: p), c', q'. auto.
Qed.

(** [h] is a valid header of message [c] *)
Definition header_of (c : msg_class) (h : bytes) : Prop := valid_header h /\ nth 5 h 0%N = mc_id c.

Lemma header_of_inv c h : In c mavlink_classes -> header_of c h ->
  exists q s p, h = [254%N; N.of_nat (snd (entry c)); q; s; p; mc_id c].
Proof.
  intros I [V E]. inv V. simpl in E. subst. exists q, s, c0. repeat f_equal.
  destruct (entry_plen c I) as [_ T]. eapply plen_fun; eauto. exists c; repeat split; auto.
Qed.

Lemma header_of_make c q s p : In c mavlink_classes -> header_of c [254%N; N.of_nat (snd (entry c)); q; s; p; mc_id c].
Proof.
  intros I. split; auto. constructor. exists c. split; [split; auto|]. apply entry_plen; auto.
Qed.

Lemma h2vh_unfold b ml : is_bytes b -> length b = 6 ->
  hamming_distance_2_valid_header b ml =
  bind (closest_loop msgs_payload_length (Z.of_N (nth 1 b 0%N)) (Z.of_N (nth 5 b 0%N)) ml (17%Z, (-1)%Z))
       (fun r => Ok ((Z.of_nat (dstx b) + fst r)%Z, snd r)).
Proof.
  intros B L. unfold hamming_distance_2_valid_header. change header_len with 6. rewrite L. simpl negb. cbv iota.
  change (Z.of_N stx) with 254%Z. pose proof (is_bytes_nth 0 B).
  rewrite hamming_ints by (simpl; lia). reflexivity.
Qed.

Lemma int_diffs_le n a b : int_diffs n a b <= n.
Proof. unfold int_diffs. rewrite <- (seq_length n 0) at 2. apply filter_length_le. Qed.

Lemma cand_le b1 b5 e : cand b1 b5 e <= 16.
Proof. unfold cand. pose proof (int_diffs_le 8 (Z.of_nat (snd e)) (Z.of_N b1)).
       pose proof (int_diffs_le 8 (Z.of_N (fst e)) (Z.of_N b5)). lia. Qed.

(** General result of the search over a prefix [tab] of the dialect. *)
Lemma search_spec b ml tab rest :
  is_bytes b -> length b = 6 -> mavlink_classes = tab ++ rest ->
  (forall c, In c tab -> ~ admits ml (snd (entry c)) -> cand (nth 1 b 0%N) (nth 5 b 0%N) (entry c) <> 0) ->
  let r := bind (closest_loop (map entry tab) (Z.of_N (nth 1 b 0%N)) (Z.of_N (nth 5 b 0%N)) ml (17%Z, (-1)%Z))
       (fun r => Ok ((Z.of_nat (dstx b) + fst r)%Z, snd r)) in
  (r = Ok ((Z.of_nat (dstx b) + 17)%Z, (-1)%Z) /\ forall c, In c tab -> ~ admits ml (snd (entry c))) \/
  (exists pre c post d h, tab = pre ++ c :: post /\ admits ml (snd (entry c)) /\ r = Ok (Z.of_nat d, Z.of_N (mc_id c)) /\
     is_bytes h /\ header_of c h /\ byte_diffs b h = d /\
     (forall c' h', In c' pre -> admits ml (snd (entry c')) -> header_of c' h' -> d < byte_diffs b h') /\
     (forall c' h', In c' tab -> admits ml (snd (entry c')) -> header_of c' h' -> d <= byte_diffs b h')).
Proof.
  intros B L T X. cbv zeta.
  assert (S : Forall small (map entry tab)).
  { pose proof table_small as S. rewrite table_entries, T, map_app in S. apply Forall_app in S; tauto. }
  pose proof (is_bytes_nth 1 B) as B1. pose proof (is_bytes_nth 5 B) as B5.
  assert (IT : forall c, In c tab -> In c mavlink_classes) by (intros; rewrite T; apply in_or_app; auto).
  destruct (closest_loop_spec (nth 1 b 0%N) (nth 5 b 0%N) ml (map entry tab) 17 (-1) B1 B5 S ltac:(lia)) as [[R N]|H].
  { intros e He C. apply in_map_iff in He. destruct He as (c & <- & Hc).
    destruct (admits_dec ml (snd (entry c))); auto. destruct (X c Hc n C). }
  - left. rewrite R. simpl. split; auto. intros c Hc A.
    specialize (N (entry c) (in_map _ _ _ Hc) A). pose proof (cand_le (nth 1 b 0%N) (nth 5 b 0%N) (entry c)). lia.
  - destruct H as (pre & e & post & E & A & R & L17 & P1 & P2).
    apply split_map in E. destruct E as (p & c & q & Et & <- & <- & <-). right.
    assert (Ic : In c mavlink_classes) by (apply IT; rewrite Et; apply in_or_app; simpl; auto).
    destruct (entry_plen c Ic) as [Ef Ty].
    set (h := [254%N; N.of_nat (snd (entry c)); nth 2 b 0%N; nth 3 b 0%N; nth 4 b 0%N; mc_id c]).
    assert (D : forall c' h', In c' tab -> header_of c' h' -> dstx b + cand (nth 1 b 0%N) (nth 5 b 0%N) (entry c') <= byte_diffs b h').
    { intros c' h' I' H'. apply header_of_inv in H'; auto. destruct H' as (q' & s' & p' & ->).
      rewrite header_distance by auto. destruct (entry_plen c' (IT _ I')) as [Ef' _]. rewrite <- Ef'.
      rewrite <- surjective_pairing. lia. }
    assert (Dh : byte_diffs b h = dstx b + cand (nth 1 b 0%N) (nth 5 b 0%N) (entry c)).
    { unfold h. rewrite header_distance by auto. rewrite byte_diffs_refl, <- Ef, <- surjective_pairing. lia. }
    exists p, c, q, (byte_diffs b h), h. split; auto. split; auto. split; [|split; [|split; [|split; [|split]]]].
    + rewrite R. cbn [bind fst snd]. rewrite Dh, Ef. f_equal. f_equal. lia.
    + assert (Sc : small (entry c)) by (rewrite Forall_forall in S; apply S, in_map; rewrite Et; apply in_or_app; simpl; auto).
      destruct Sc as [S1 S2]. rewrite Ef in S1. unfold h, is_bytes. repeat apply Forall_cons; try apply Forall_nil; try apply is_bytes_nth; auto; lia.
    + apply header_of_make; auto.
    + auto.
    + intros c' h' I' A' H'. assert (I2 : In c' tab) by (rewrite Et; apply in_or_app; auto).
      specialize (D c' h' I2 H'). specialize (P1 (entry c') (in_map _ _ _ I') A'). lia.
    + intros c' h' I' A' H'. specialize (D c' h' I' H'). rewrite Et in I'. apply in_app_or in I'.
      destruct I' as [I'|[<-|I']].
      * specialize (P1 (entry c') (in_map _ _ _ I') A'). lia.
      * lia.
      * specialize (P2 (entry c') (in_map _ _ _ I') A'). lia.
Qed.

Lemma byte_diffs_zero a b : is_bytes a -> is_bytes b -> length a = length b -> byte_diffs a b = 0 -> a = b.
Proof.
  revert b; induction a as [|x a IH]; intros [|y b] Ha Hb L D; try discriminate; auto.
  inv Ha. inv Hb. simpl in L. rewrite byte_diffs_cons in D by lia. f_equal.
  - apply int_diffs_zero; auto; lia.
  - apply IH; auto; lia.
Qed.

Lemma table_nonempty : exists c, In c mavlink_classes.
Proof. eexists. unfold mavlink_classes. left. reflexivity. Qed.

Lemma nearest_header b :
  is_bytes b -> length b = 6 ->
  exists pre c post d h,
    mavlink_classes = pre ++ c :: post /\
    hamming_distance_2_valid_header b None = Ok (Z.of_nat d, Z.of_N (mc_id c)) /\
    is_bytes h /\ valid_header h /\ nth 5 h 0%N = mc_id c /\ byte_diffs b h = d /\
    (forall h', valid_header h' -> d <= byte_diffs b h') /\
    (forall c' h', In c' pre -> valid_header h' -> nth 5 h' 0%N = mc_id c' -> d < byte_diffs b h') /\
    (d = 0 <-> valid_header b).
Proof.
  intros B L.
  destruct (search_spec b None mavlink_classes [] B L ltac:(rewrite app_nil_r; auto)) as [[_ N]|H].
  - intros c _ A. destruct A. exact I.
  - exfalso. destruct table_nonempty as [c Hc]. apply (N c Hc). exact I.
  - destruct H as (pre & c & post & d & h & T & _ & R & Bh & [Vh Eh] & D & P1 & P2).
    exists pre, c, post, d, h. rewrite h2vh_unfold, table_entries by auto.
    assert (M : forall h', valid_header h' -> d <= byte_diffs b h').
    { intros h' V. inv V. destruct H as (c' & [I' E'] & T').
      apply (P2 c'); [auto|exact Logic.I|]. split; [constructor; exists c'; repeat split; auto|auto]. }
    repeat split; auto.
    + intros c' h' I V E. apply (P1 c'); [auto|exact Logic.I|]. split; auto.
    + intros E0. assert (EQ : b = h); [|rewrite EQ; auto].
      apply byte_diffs_zero; auto; [inv Vh; auto|lia].
    + intros V. specialize (M b V). rewrite byte_diffs_refl in M. lia.
Qed.

Lemma header_of_len c h : In c mavlink_classes -> header_of c h -> nth 1 h 0%N = N.of_nat (snd (entry c)).
Proof. intros I H. apply header_of_inv in H; auto. destruct H as (q & s & p & ->). reflexivity. Qed.

Lemma admits_header m c h : In c mavlink_classes -> header_of c h ->
  (admits (Some m) (snd (entry c)) <-> (Z.of_N (nth 1 h 0%N) <= m)%Z).
Proof. intros I H. rewrite (header_of_len c h I H). unfold admits. rewrite nat_N_Z. tauto. Qed.

Lemma cand_zero b e : is_bytes b -> small e ->
  (cand (nth 1 b 0%N) (nth 5 b 0%N) e = 0 <-> nth 1 b 0%N = N.of_nat (snd e) /\ nth 5 b 0%N = fst e).
Proof.
  intros B [S1 S2]. unfold cand. pose proof (is_bytes_nth 1 B). pose proof (is_bytes_nth 5 B). split.
  - intros E. rewrite <- nat_N_Z in E. split; symmetry; apply int_diffs_zero; auto; try lia.
  - intros [-> ->]. rewrite nat_N_Z, !int_diffs_refl. reflexivity.
Qed.

Lemma entry_small c : In c mavlink_classes -> small (entry c).
Proof. intros I. pose proof table_small as S. rewrite table_entries, Forall_forall in S. apply S, in_map; auto. Qed.

Lemma search_nearest b m tab rest :
  is_bytes b -> length b = 6 -> mavlink_classes = tab ++ rest ->
  (forall c, In c tab -> ~ admits (Some m) (snd (entry c)) -> cand (nth 1 b 0%N) (nth 5 b 0%N) (entry c) <> 0) ->
  exists r, bind (closest_loop (map entry tab) (Z.of_N (nth 1 b 0%N)) (Z.of_N (nth 5 b 0%N)) (Some m) (17%Z, (-1)%Z))
       (fun r => Ok ((Z.of_nat (dstx b) + fst r)%Z, snd r)) = Ok r /\ nearest_among tab b m r.
Proof.
  intros B L T X.
  assert (IT : forall c, In c tab -> In c mavlink_classes) by (intros; rewrite T; apply in_or_app; auto).
  destruct (search_spec b (Some m) tab rest B L T X) as [[R N]|H].
  - eexists; split; [exact R|]. left. split.
    + rewrite byte_diffs_cons, byte_diffs_nil by auto. unfold dstx. rewrite Nat.add_0_r. reflexivity.
    + intros c h I V E. specialize (N c I). rewrite (admits_header m c h) in N; [lia|auto|split; auto].
  - destruct H as (pre & c & post & d & h & Et & A & R & Bh & Hh & D & P1 & P2).
    eexists; split; [exact R|]. right. exists pre, c, post, h. subst d.
    assert (Ic : In c tab) by (rewrite Et; apply in_or_app; simpl; auto).
    destruct Hh as [Vh Eh].
    split; auto. split; auto. split; auto. split; auto. split; auto. split; [|split].
    + apply (admits_header m c h); auto. split; auto.
    + intros c' h' I' V' E' L'. apply (P1 c'); auto; [|split; auto].
      apply (admits_header m c' h'); auto; [|split; auto]. apply IT. rewrite Et; apply in_or_app; auto.
    + intros c' h' I' V' E' L'. apply (P2 c'); auto; [|split; auto].
      apply (admits_header m c' h'); auto. split; auto.
Qed.

Lemma nearest_max_len b m :
  is_bytes b -> length b = 6 ->
  (forall h, valid_header h -> nth 1 h 0%N = nth 1 b 0%N -> nth 5 h 0%N = nth 5 b 0%N -> (Z.of_N (nth 1 h 0%N) <= m)%Z) ->
  exists r, hamming_distance_2_valid_header b (Some m) = Ok r /\ nearest_among mavlink_classes b m r.
Proof.
  intros B L X. rewrite h2vh_unfold, table_entries by auto.
  apply search_nearest with (rest := []); auto.
  intros c I A C. apply cand_zero in C; [|auto|apply entry_small; auto]. destruct C as [C1 C2].
  pose proof (header_of_make c 0%N 0%N 0%N I) as [V E].
  apply A. apply (admits_header m c _ I (header_of_make c 0%N 0%N 0%N I)). apply X; auto.
  destruct (entry_plen c I) as [Ef _]. rewrite E. rewrite C2; auto.
Qed.

Lemma nearest_max_len_stop b m pre c post h :
  is_bytes b -> length b = 6 -> mavlink_classes = pre ++ c :: post -> valid_header h -> nth 5 h 0%N = mc_id c ->
  nth 1 h 0%N = nth 1 b 0%N -> nth 5 h 0%N = nth 5 b 0%N -> (m < Z.of_N (nth 1 h 0%N))%Z ->
  exists r, hamming_distance_2_valid_header b (Some m) = Ok r /\ nearest_among pre b m r.
Proof.
  intros B L T V E E1 E5 M.
  assert (Ic : In c mavlink_classes) by (rewrite T; apply in_or_app; simpl; auto).
  assert (H : header_of c h) by (split; auto).
  destruct (entry_plen c Ic) as [Ef _].
  assert (NE : forall c', In c' pre -> cand (nth 1 b 0%N) (nth 5 b 0%N) (entry c') <> 0).
  { intros c' I' C. assert (I2 : In c' mavlink_classes) by (rewrite T; apply in_or_app; auto).
    apply cand_zero in C; [|auto|apply entry_small; auto]. destruct C as [_ C].
    destruct (entry_plen c' I2) as [Ef' _].
    assert (K : mc_key c' = mc_key c).
    { rewrite (cf_key _ (class_facts_in _ Ic)), (cf_key _ (class_facts_in _ I2)). congruence. }
    pose proof table_ids_nodup as ND. rewrite T, map_app in ND. simpl map in ND.
    apply NoDup_remove_2 in ND. apply ND. apply in_or_app. left. rewrite <- K. apply in_map; auto. }
  rewrite h2vh_unfold, table_entries, T, map_app by auto. simpl map.
  rewrite closest_loop_stop.
  - apply search_nearest with (rest := c :: post); auto.
  - apply is_bytes_nth; auto.
  - apply is_bytes_nth; auto.
  - pose proof table_small as S. rewrite table_entries, T, map_app in S. exact S.
  - apply cand_zero; [auto|apply entry_small; auto|]. rewrite <- E1, <- E5, (header_of_len c h), Ef; auto.
  - intros A. apply (admits_header m c h) in A; auto. lia.
  - intros e' He. apply in_map_iff in He. destruct He as (c' & <- & I'). auto.
Qed.
