(** Detection of transmission errors by decode. *)
From Coq Require Import String Ascii List Arith NArith ZArith Bool Lia ZifyBool ZifyNat ZifyN.
From Verif.Model Require Import Py Dialect ProtocolMeta Struct Crc Mavlink.
From Verif.Spec Require Import Bytes Bits Header CrcSpec Frame.
From Verif.Proofs Require Import Base BitOpsP DialectP HeaderP HeaderMore StructP CrcP MavlinkP FieldsP.
Import ListNotations.

Lemma lsb_val_byte b : (b < 256)%N -> lsb_val (byte_lsb b) = b.
Proof.
  intros H.
  assert (S : forallb (fun x => N.eqb (lsb_val (byte_lsb x)) x) (Nrange 256) = true) by (vm_compute; reflexivity).
  rewrite forallb_forall in S. apply N.eqb_eq, S, in_Nrange. exact H.
Qed.

Lemma lsb_val_app a b : lsb_val (a ++ b) = (lsb_val a + 2 ^ N.of_nat (length a) * lsb_val b)%N.
Proof.
  induction a as [|x a IH]; [cbn [app lsb_val length]; change (2 ^ N.of_nat 0)%N with 1%N; lia|].
  cbn [app lsb_val length]. rewrite IH, Nat2N.inj_succ, N.pow_succ_r'. lia.
Qed.

Lemma lsb_val_2 lo hi : (lo < 256)%N -> (hi < 256)%N -> lsb_val (lsb_bits [lo; hi]) = (lo + 256 * hi)%N.
Proof.
  intros H1 H2. change (lsb_bits [lo; hi]) with (byte_lsb lo ++ byte_lsb hi).
  rewrite lsb_val_app. change (2 ^ N.of_nat (length (byte_lsb lo)))%N with 256%N. rewrite !lsb_val_byte by auto. lia.
Qed.

Lemma crc_bit_self v (b : bool) : crc_bit (2 * v + (if b then 1 else 0)) b = v.
Proof.
  unfold crc_bit.
  assert (T : N.testbit (2 * v + (if b then 1 else 0)) 0 = b).
  { destruct b; [apply N.testbit_odd_0|]. rewrite N.add_0_r. apply N.testbit_even_0. }
  rewrite T, xorb_nilpotent, N.lxor_0_r, N.shiftr_div_pow2. change (2 ^ 1)%N with 2%N.
  symmetry. apply N.div_unique with (if b then 1 else 0)%N; [destruct b; lia|reflexivity].
Qed.

Lemma crc_bits_self l : crc_bits (lsb_val l) l = 0%N.
Proof.
  induction l as [|b l IH]; [reflexivity|]. unfold crc_bits in *. cbn [fold_left lsb_val].
  replace ((if b then 1 else 0) + 2 * lsb_val l)%N with (2 * lsb_val l + (if b then 1 else 0))%N by lia.
  rewrite crc_bit_self. exact IH.
Qed.

(** The checksum equation as a codeword condition. *)
Lemma crc_codeword s body lo hi : (s < 65536)%N -> (lo < 256)%N -> (hi < 256)%N ->
  (crc_bits s (lsb_bits body) = (lo + 256 * hi)%N <-> crc_bits s (lsb_bits (body ++ [lo; hi])) = 0%N).
Proof.
  intros Hs H1 H2. rewrite lsb_bits_app, crc_bits_app. split; intros H.
  - rewrite H, <- lsb_val_2 by auto. apply crc_bits_self.
  - apply crc_bits_zero_inv in H; [|reflexivity|apply crc_bits_bound; auto]. rewrite H. apply lsb_val_2; auto.
Qed.

Lemma xor_bits_app a b c d : length a = length c -> xor_bits (a ++ b) (c ++ d) = xor_bits a c ++ xor_bits b d.
Proof.
  revert c; induction a; intros [|x c] L; try discriminate; auto. unfold xor_bits in *. simpl. f_equal. apply IHa. simpl in L; lia.
Qed.

Lemma xor_bits_lsb a b : length a = length b -> xor_bits (lsb_bits a) (lsb_bits b) = lsb_bits (xor_bytes a b).
Proof.
  revert b; induction a as [|x a IH]; intros [|y b] L; try discriminate; auto.
  rewrite !lsb_bits_cons, xor_bits_app by reflexivity. rewrite IH by (simpl in L; lia).
  unfold xor_bytes. cbn [combine map fst snd]. rewrite lsb_bits_cons, byte_lsb_lxor. reflexivity.
Qed.

Lemma lsb_bits_length l : length (lsb_bits l) = 8 * length l.
Proof. induction l; [reflexivity|]. rewrite lsb_bits_cons, app_length, IHl. simpl length. lia. Qed.

Lemma tx_bit_nth l i : nth i (lsb_bits l) false = tx_bit l i.
Proof.
  revert i; induction l as [|b l IH]; intros i.
  - unfold tx_bit. destruct (i / 8); destruct i; reflexivity.
  - rewrite lsb_bits_cons. destruct (Nat.lt_ge_cases i 8) as [H|H].
    + rewrite app_nth1 by (simpl; lia). unfold tx_bit. rewrite Nat.div_small, Nat.mod_small by auto.
      do 8 (destruct i; [reflexivity|]). lia.
    + rewrite app_nth2 by (simpl; lia). change (length (byte_lsb b)) with 8. rewrite IH. unfold tx_bit.
      replace i with (i - 8 + 1 * 8) at 3 4 by lia. rewrite Nat.div_add, Nat.mod_add by lia. rewrite Nat.add_1_r. reflexivity.
Qed.

Lemma nth_xor_bits a b i : length a = length b -> nth i (xor_bits a b) false = xorb (nth i a false) (nth i b false).
Proof.
  revert b i; induction a as [|x a IH]; intros [|y b] i L; try discriminate; [destruct i; reflexivity|].
  destruct i; [reflexivity|]. unfold xor_bits in *. simpl. apply IH. simpl in L; lia.
Qed.

Lemma xor_bits_length a b : length a = length b -> length (xor_bits a b) = length a.
Proof. intros. unfold xor_bits. rewrite map_length, combine_length. lia. Qed.

Lemma in_flips f g i : In i (flips f g) <-> i < 8 * length f /\ xorb (tx_bit f i) (tx_bit g i) = true.
Proof. unfold flips. rewrite filter_In, in_seq. intuition lia. Qed.

Lemma flips_nil f g : is_bytes f -> is_bytes g -> length f = length g -> flips f g = [] -> f = g.
Proof.
  intros Bf Bg L H. apply nth_ext_eq with (d := 0%N); auto. intros k Hk. apply N.bits_inj_iff. intros i.
  destruct (N.lt_ge_cases i 8) as [Hi|Hi].
  - assert (X : ~ In (8 * k + N.to_nat i) (flips f g)) by (rewrite H; auto).
    rewrite in_flips in X. unfold tx_bit in X.
    replace ((8 * k + N.to_nat i) / 8) with k in X by (apply Nat.div_unique with (N.to_nat i); lia).
    replace ((8 * k + N.to_nat i) mod 8) with (N.to_nat i) in X by (apply Nat.mod_unique with k; lia).
    rewrite N2Nat.id in X. destruct (N.testbit (nth k f 0%N) i), (N.testbit (nth k g 0%N) i); auto; exfalso; apply X; split; auto; lia.
  - pose proof (is_bytes_nth k Bf) as B1. pose proof (is_bytes_nth k Bg) as B2. change 256%N with (2 ^ 8)%N in B1, B2.
    rewrite lt_pow2_bits in B1, B2. rewrite B1, B2; auto.
Qed.

(** Parity of a bit list counts its ones. *)
Lemma parity_count l : parity l = Nat.odd (length (filter (fun i => nth i l false) (seq 0 (length l)))).
Proof.
  induction l as [|b l IH]; [reflexivity|]. cbn [parity length seq filter]. change (nth 0 (b :: l) false) with b.
  assert (E : length (filter (fun i => nth i (b :: l) false) (seq 1 (length l))) = length (filter (fun i => nth i l false) (seq 0 (length l)))).
  { rewrite <- seq_shift. generalize (seq 0 (length l)). induction l0; simpl; auto. destruct (nth a l false); simpl; auto. }
  destruct b; cbn [length]; rewrite E, IH.
  - rewrite Nat.odd_succ, <- Nat.negb_odd. destruct (Nat.odd _); reflexivity.
  - apply xorb_false_l.
Qed.

Lemma flips_parity f g : length f = length g -> parity (xor_bits (lsb_bits f) (lsb_bits g)) = Nat.odd (length (flips f g)).
Proof.
  intros L. rewrite parity_count. unfold flips.
  rewrite xor_bits_length, lsb_bits_length by (rewrite !lsb_bits_length; lia). f_equal. f_equal.
  apply filter_ext. intros i. rewrite nth_xor_bits by (rewrite !lsb_bits_length; lia). rewrite !tx_bit_nth. reflexivity.
Qed.

(** The error polynomial of two frames with the same start marker: covered bits, difference of the extra bytes, trailer. *)
Definition err_bits (f g : bytes) (e e' : N) : list bool :=
  lsb_bits (xor_bytes (slice f 1 (length f - 2)) (slice g 1 (length f - 2))) ++ byte_lsb (N.lxor e e') ++
  lsb_bits (xor_bytes (skipn (length f - 2) f) (skipn (length f - 2) g)).

Lemma frame_of_parts c f : frame_of 254 6 0 c f -> is_bytes f ->
  exists lo hi, f = (254%N :: slice f 1 (length f - 2)) ++ [lo; hi] /\ skipn (length f - 2) f = [lo; hi] /\ 8 <= length f /\
    nth 1 f 0%N = N.of_nat (length f - 8) /\ (lo < 256)%N /\ (hi < 256)%N /\ 
    (lo + 256 * hi)%N = crc16 (slice f 1 (length f - 2) ++ [mc_crc_extra c]).
Proof.
  intros (body & lo & hi & sig & E & Ls & Hl & L1 & C) B. destruct sig; [|discriminate]. rewrite app_nil_r in E.
  assert (Lf : length f = length body + 3) by (rewrite E; simpl; rewrite app_length; simpl; lia).
  assert (SS : slice f 1 (length f - 2) = body).
  { unfold slice. rewrite Lf. replace (length body + 3 - 2 - 1) with (length body) by lia. rewrite E. cbn [skipn].
    rewrite firstn_app, firstn_all, Nat.sub_diag, firstn_O. apply app_nil_r. }
  exists lo, hi. rewrite SS. split; auto. split; [|split; [lia|split; [|split; [|split]]]]; auto.
  - rewrite Lf. replace (length body + 3 - 2) with (S (length body)) by lia. rewrite E. cbn [skipn].
    rewrite skipn_app, skipn_all, Nat.sub_diag. reflexivity.
  - rewrite L1. f_equal. lia.
  - rewrite E in B. inv B. apply is_bytes_app in H2. destruct H2 as [_ H2]. inv H2. auto.
  - rewrite E in B. inv B. apply is_bytes_app in H2. destruct H2 as [_ H2]. inv H2. inv H4. auto.
Qed.

Lemma crc16_codeword body e lo hi : (lo < 256)%N -> (hi < 256)%N ->
  ((lo + 256 * hi)%N = crc16 (body ++ [e]) <-> crc_bits 65535 (lsb_bits (body ++ [e] ++ [lo; hi])) = 0%N).
Proof.
  intros H1 H2. rewrite (app_assoc body). rewrite <- crc_codeword by (auto; lia). unfold crc16. split; auto.
Qed.

Lemma length_xor_bytes a b : length a = length b -> length (xor_bytes a b) = length a.
Proof. intros. unfold xor_bytes. rewrite map_length, combine_length. lia. Qed.

Lemma xor_bytes_app a b c d : length a = length c -> xor_bytes (a ++ b) (c ++ d) = xor_bytes a c ++ xor_bytes b d.
Proof.
  revert c; induction a; intros [|x c] L; try discriminate; auto. unfold xor_bytes in *. simpl. f_equal. apply IHa. simpl in L; lia.
Qed.

(** Given one accepted frame, another one of the same length, start marker and length byte is accepted iff the error
    polynomial is a multiple of the generator. *)
Lemma err_iff f g c c' : is_bytes f -> is_bytes g -> length f = length g -> frame_of 254 6 0 c f ->
  (frame_of 254 6 0 c' g <->
   nth 0 g 0%N = 254%N /\ nth 1 g 0%N = nth 1 f 0%N /\ crc_bits 0 (err_bits f g (mc_crc_extra c) (mc_crc_extra c')) = 0%N).
Proof.
  intros Bf Bg L Ff.
  destruct (frame_of_parts c f Ff Bf) as (lo & hi & Ef & Sf & Lf & L1 & Hlo & Hhi & Cf).
  set (bf := slice f 1 (length f - 2)) in *.
  set (bg := slice g 1 (length f - 2)) in *.
  assert (Lbf : length bf = length f - 3) by (unfold bf; rewrite length_slice; lia).
  assert (Lbg : length bg = length f - 3) by (unfold bg; rewrite length_slice; lia).
  assert (Lt : length (skipn (length f - 2) g) = 2) by (rewrite skipn_length; lia).
  destruct (two _ Lt) as (lo' & hi' & Sg).
  assert (Bt : is_bytes [lo'; hi']) by (rewrite <- Sg; apply is_bytes_skipn; auto).
  assert (Hlo' : (lo' < 256)%N) by (exact (is_bytes_nth 0 Bt)).
  assert (Hhi' : (hi' < 256)%N) by (exact (is_bytes_nth 1 Bt)).
  assert (Eg : g = nth 0 g 0%N :: bg ++ [lo'; hi']).
  { rewrite <- Sg. destruct g as [|g0 g]; [simpl in L; lia|]. cbn [nth]. f_equal. unfold bg, slice. cbn [skipn].
    replace (length f - 2) with (S (length f - 2 - 1)) by lia. cbn [skipn].
    replace (S (length f - 2 - 1) - 1) with (length f - 2 - 1) by lia. rewrite firstn_skipn. reflexivity. }
  assert (EB : err_bits f g (mc_crc_extra c) (mc_crc_extra c') =
     xor_bits (lsb_bits (bf ++ [mc_crc_extra c] ++ [lo; hi])) (lsb_bits (bg ++ [mc_crc_extra c'] ++ [lo'; hi']))).
  { rewrite xor_bits_lsb by (rewrite !app_length; simpl; lia).
    rewrite xor_bytes_app by lia. rewrite (xor_bytes_app [_]) by reflexivity. rewrite !lsb_bits_app.
    unfold err_bits. fold bf bg. rewrite Sf, Sg. reflexivity. }
  assert (LIN : crc_bits 0 (err_bits f g (mc_crc_extra c) (mc_crc_extra c')) =
                crc_bits 65535 (lsb_bits (bg ++ [mc_crc_extra c'] ++ [lo'; hi']))).
  { rewrite EB. change 0%N with (N.lxor 65535 65535). rewrite crc_bits_lin by (rewrite !lsb_bits_length, !app_length; simpl; lia).
    apply crc16_codeword in Cf; auto. rewrite Cf. apply N.lxor_0_l. }
  rewrite LIN, <- crc16_codeword by auto.
  split.
  - intros Fg. destruct (frame_of_parts c' g Fg Bg) as (lo2 & hi2 & Eg2 & Sg2 & _ & L2 & _ & _ & Cg).
    rewrite <- L in Eg2, Sg2, L2, Cg. fold bg in Eg2, Cg. rewrite Sg in Sg2. injection Sg2 as <- <-.
    split; [rewrite Eg2; reflexivity|]. split; [congruence|]. exact Cg.
  - intros (M & L2 & Cg). exists bg, lo', hi', []. rewrite app_nil_r. split; [rewrite <- M; exact Eg|].
    split; auto. split; [lia|]. split; [|exact Cg]. rewrite L2, L1, Lbg. f_equal. lia.
Qed.

(** Bits of the error polynomial when the extra bytes agree. *)
Lemma err_bits_nth f g e i : length f = length g -> 3 <= length f -> 
  nth i (err_bits f g e e) false =
    if Nat.ltb i (8 * (length f - 3)) then xorb (tx_bit f (i + 8)) (tx_bit g (i + 8))
    else if Nat.ltb i (8 * (length f - 2)) then false
    else xorb (tx_bit f i) (tx_bit g i).
Proof.
  intros L H3. unfold err_bits.
  assert (L1 : length (slice f 1 (length f - 2)) = length f - 3) by (rewrite length_slice; lia).
  assert (L2 : length (slice g 1 (length f - 2)) = length f - 3) by (rewrite length_slice; lia).
  assert (TS : forall h j a, j < 8 * (length h) -> tx_bit (skipn a h) j = tx_bit h (j + 8 * a)).
  { intros h j a _. unfold tx_bit. rewrite nth_skipn. rewrite (Nat.mul_comm 8). rewrite Nat.div_add, Nat.mod_add by lia.
    f_equal. f_equal. lia. }
  assert (TX : forall h j b, j < 8 * b -> tx_bit (firstn b h) j = tx_bit h j).
  { intros h j b Hj. unfold tx_bit. rewrite nth_firstn; auto. apply Nat.div_lt_upper_bound; lia. }
  destruct (Nat.ltb_spec i (8 * (length f - 3))) as [A|A].
  - rewrite app_nth1 by (rewrite lsb_bits_length, length_xor_bytes; lia).
    rewrite <- xor_bits_lsb by lia. rewrite nth_xor_bits by (rewrite !lsb_bits_length; lia). rewrite !tx_bit_nth.
    unfold slice. rewrite !TX by lia. rewrite !TS by lia. reflexivity.
  - rewrite app_nth2 by (rewrite lsb_bits_length, length_xor_bytes; lia). rewrite lsb_bits_length, length_xor_bytes, L1 by lia.
    destruct (Nat.ltb_spec i (8 * (length f - 2))) as [B|B].
    + rewrite app_nth1 by (simpl; lia). rewrite N.lxor_nilpotent. change (byte_lsb 0) with (repeat false 8). apply nth_repeat.
    + rewrite app_nth2 by (simpl; lia). change (length (byte_lsb _)) with 8.
      rewrite <- xor_bits_lsb by (rewrite !skipn_length; lia). rewrite nth_xor_bits by (rewrite !lsb_bits_length, !skipn_length; lia).
      rewrite !tx_bit_nth. destruct (Nat.lt_ge_cases i (8 * length f)) as [C|C].
      * rewrite !TS by lia. f_equal; f_equal; lia.
      * unfold tx_bit.
        assert (Z : forall (l : bytes) j, length l <= j -> nth j l 0%N = 0%N) by (intros; apply nth_overflow; auto).
        assert (D1 : length f <= i / 8) by (apply Nat.div_le_lower_bound; lia).
        assert (D2 : 2 <= (i - 8 * (length f - 3) - 8) / 8) by (apply Nat.div_le_lower_bound; lia).
        rewrite !Z by (rewrite ?skipn_length; lia). rewrite !N.bits_0. reflexivity.
Qed.

Lemma err_bits_length f g e e' : length f = length g -> 3 <= length f -> length (err_bits f g e e') = 8 * length f.
Proof.
  intros L H. unfold err_bits. rewrite !app_length, !lsb_bits_length, !length_xor_bytes; rewrite ?length_slice, ?skipn_length; simpl; lia.
Qed.

(** The first byte is covered by no checksum: if it is unchanged, so are its bits. *)
Lemma same_byte_bits f g k i : nth k f 0%N = nth k g 0%N -> i / 8 = k -> xorb (tx_bit f i) (tx_bit g i) = false.
Proof. intros H <-. unfold tx_bit. rewrite H. apply xorb_nilpotent. Qed.

Definition shift8 (f : bytes) (i : nat) : nat := if Nat.ltb i (8 * (length f - 2)) then i - 8 else i.

Lemma err_bits_shift f g e i : length f = length g -> 3 <= length f -> nth 0 f 0%N = nth 0 g 0%N ->
  xorb (tx_bit f i) (tx_bit g i) = true -> nth (shift8 f i) (err_bits f g e e) false = true /\ 8 <= i.
Proof.
  intros L H3 H0 X.
  assert (8 <= i).
  { destruct (Nat.lt_ge_cases i 8) as [A|A]; auto. rewrite (same_byte_bits f g 0) in X; [discriminate|auto|]. apply Nat.div_small; auto. }
  split; auto. rewrite err_bits_nth by auto. unfold shift8.
  destruct (Nat.ltb_spec i (8 * (length f - 2))) as [A|A].
  - destruct (Nat.ltb_spec (i - 8) (8 * (length f - 3))); [|lia]. replace (i - 8 + 8) with i by lia. auto.
  - destruct (Nat.ltb_spec i (8 * (length f - 3))); [lia|]. destruct (Nat.ltb_spec i (8 * (length f - 2))); [lia|]. auto.
Qed.

Lemma err_bits_unshift f g e j : length f = length g -> 3 <= length f -> nth j (err_bits f g e e) false = true ->
  exists i, xorb (tx_bit f i) (tx_bit g i) = true /\ shift8 f i = j /\ i < 8 * length f.
Proof.
  intros L H3 X.
  assert (J : j < 8 * length f).
  { destruct (Nat.lt_ge_cases j (8 * length f)); auto. rewrite nth_overflow in X by (rewrite err_bits_length; auto). discriminate. }
  rewrite err_bits_nth in X by auto. unfold shift8.
  destruct (Nat.ltb_spec j (8 * (length f - 3))) as [A|A].
  - exists (j + 8). split; auto. destruct (Nat.ltb_spec (j + 8) (8 * (length f - 2))); lia.
  - destruct (Nat.ltb_spec j (8 * (length f - 2))) as [B|B]; [discriminate|]. exists j. split; auto.
    destruct (Nat.ltb_spec j (8 * (length f - 2))); lia.
Qed.

(** Same payload class: what is rejected. *)
Section Same.
Variables (f g : bytes) (c : msg_class).
Hypothesis Bf : is_bytes f.
Hypothesis Bg : is_bytes g.
Hypothesis L : length f = length g.
Hypothesis Ff : frame_v1 c f.
Hypothesis H0 : nth 0 f 0%N = nth 0 g 0%N.
Hypothesis H5 : nth 5 f 0%N = nth 5 g 0%N.

Lemma same_accept : forall c', frame_v1 c' g -> crc_bits 0 (err_bits f g (mc_crc_extra c) (mc_crc_extra c)) = 0%N.
Proof.
  intros c' Fg. assert (c' = c).
  { destruct Fg as [I _], Ff as [I' _]. rewrite <- H5 in I. eapply is_msg_fun; eauto. }
  subst c'. destruct Ff as [_ Ff'], Fg as [_ Fg']. apply (err_iff f g c c Bf Bg L Ff') in Fg'. tauto.
Qed.

Lemma same_len : 8 <= length f.
Proof. destruct Ff as [_ Ff']. apply frame_of_parts in Ff'; auto. destruct Ff' as (? & ? & _ & _ & ? & _). auto. Qed.

Lemma reject_odd c' : Nat.odd (length (flips f g)) = true -> ~ frame_v1 c' g.
Proof.
  intros O Fg. apply same_accept in Fg. apply crc_zero_even in Fg.
  pose proof same_len. rewrite <- flips_parity in O by auto.
  assert (E : parity (err_bits f g (mc_crc_extra c) (mc_crc_extra c)) = parity (xor_bits (lsb_bits f) (lsb_bits g))).
  { unfold err_bits. rewrite xor_bits_lsb by auto.
    assert (SP : forall h : bytes, length h = length f -> h = firstn 1 h ++ slice h 1 (length f - 2) ++ skipn (length f - 2) h).
    { intros h Lh. rewrite <- (firstn_skipn 1 h) at 1. f_equal. unfold slice.
      rewrite <- (firstn_skipn (length f - 2 - 1) (skipn 1 h)) at 1. f_equal. rewrite skipn_skipn. f_equal. lia. }
    assert (EX : xor_bytes f g = xor_bytes (firstn 1 f) (firstn 1 g) ++
       xor_bytes (slice f 1 (length f - 2)) (slice g 1 (length f - 2)) ++ xor_bytes (skipn (length f - 2) f) (skipn (length f - 2) g)).
    { transitivity (xor_bytes (firstn 1 f ++ slice f 1 (length f - 2) ++ skipn (length f - 2) f)
                              (firstn 1 g ++ slice g 1 (length f - 2) ++ skipn (length f - 2) g)).
      - rewrite <- SP, <- SP by auto. reflexivity.
      - rewrite xor_bytes_app by (rewrite !firstn_length; lia). rewrite xor_bytes_app by (rewrite !length_slice; lia). reflexivity. }
    rewrite EX.
    rewrite !lsb_bits_app, !parity_app.
    assert (Z : parity (lsb_bits (xor_bytes (firstn 1 f) (firstn 1 g))) = false).
    { revert H0. clear. destruct f as [|x f'], g as [|y g']; try reflexivity. cbn [nth]. intros ->. cbn [firstn].
      unfold xor_bytes. cbn [combine map fst snd]. rewrite N.lxor_nilpotent. reflexivity. }
    rewrite Z, N.lxor_nilpotent. change (parity (byte_lsb 0)) with false. rewrite !xorb_false_l. reflexivity. }
  congruence.
Qed.

Lemma two_form l p q : p < q -> q < length l -> (forall i, nth i l false = true <-> i = p \/ i = q) ->
  l = repeat false p ++ true :: repeat false (q - p - 1) ++ true :: repeat false (length l - q - 1).
Proof.
  intros A B N. apply nth_ext_eq with (d := false).
  - rewrite app_length. simpl. rewrite app_length. simpl. rewrite !repeat_length. lia.
  - intros i Hi. destruct (nth i l false) eqn:E.
    + apply N in E. symmetry. destruct E as [->| ->].
      * rewrite app_nth2, repeat_length, Nat.sub_diag by (rewrite repeat_length; lia). reflexivity.
      * rewrite app_nth2, repeat_length by (rewrite repeat_length; lia).
        replace (q - p) with (S (q - p - 1)) at 1 by lia. cbn [nth].
        rewrite app_nth2, repeat_length, Nat.sub_diag by (rewrite repeat_length; lia). reflexivity.
    + assert (i <> p /\ i <> q) by (split; intros ->; rewrite (proj2 (N _)) in E; auto; discriminate).
      symmetry. destruct (Nat.lt_ge_cases i p).
      * rewrite app_nth1 by (rewrite repeat_length; lia). apply nth_repeat.
      * rewrite app_nth2, repeat_length by (rewrite repeat_length; lia). replace (i - p) with (S (i - p - 1)) by lia. cbn [nth].
        destruct (Nat.lt_ge_cases i q).
        -- rewrite app_nth1 by (rewrite repeat_length; lia). apply nth_repeat.
        -- rewrite app_nth2, repeat_length by (rewrite repeat_length; lia).
           replace (i - p - 1 - (q - p - 1)) with (S (i - q - 1)) by lia. cbn [nth]. apply nth_repeat.
Qed.

Lemma flips_sorted : forall p q r, flips f g = p :: q :: r -> p < q.
Proof.
  unfold flips. generalize (fun i => xorb (tx_bit f i) (tx_bit g i)). intros P. generalize 0 (8 * length f).
  intros a n; revert a. induction n; intros a p q r E; [discriminate|]. simpl in E. destruct (P a); [|eapply IHn; eauto].
  injection E as <- E. assert (In q (filter P (seq (S a) n))) by (rewrite E; simpl; auto).
  apply filter_In in H. destruct H as [H _]. apply in_seq in H. lia.
Qed.

Lemma reject_two c' p q : flips f g = [p; q] -> ~ frame_v1 c' g.
Proof.
  intros F2 Fg. pose proof (flips_sorted p q [] F2) as PQ. apply same_accept in Fg. pose proof same_len as L8.
  assert (L1 : nth 1 f 0%N = N.of_nat (length f - 8)).
  { destruct Ff as [_ Ff']. apply frame_of_parts in Ff'; auto. destruct Ff' as (? & ? & _ & _ & _ & ? & _). auto. }
  pose proof (is_bytes_nth 1 Bf) as B1. assert (LL : length f <= 263) by lia.
  assert (IP : In p (flips f g)) by (rewrite F2; simpl; auto). assert (IQ : In q (flips f g)) by (rewrite F2; simpl; auto).
  apply in_flips in IP, IQ.
  destruct (err_bits_shift f g (mc_crc_extra c) p L ltac:(lia) H0 (proj2 IP)) as [EP P8].
  destruct (err_bits_shift f g (mc_crc_extra c) q L ltac:(lia) H0 (proj2 IQ)) as [EQ Q8].
  rewrite (two_form (err_bits f g (mc_crc_extra c) (mc_crc_extra c)) (shift8 f p) (shift8 f q)) in Fg.
  - revert Fg. apply crc_two_bits. unfold shift8. destruct (Nat.ltb p _), (Nat.ltb q _); lia.
  - unfold shift8. destruct (Nat.ltb_spec p (8 * (length f - 2))), (Nat.ltb_spec q (8 * (length f - 2))); lia.
  - rewrite err_bits_length by lia. unfold shift8. destruct (Nat.ltb q _); lia.
  - intros j. split.
    + intros X. apply err_bits_unshift in X; try lia. destruct X as (i & X & <- & Hi).
      assert (In i (flips f g)) by (apply in_flips; auto). rewrite F2 in H. destruct H as [<-|[<-|[]]]; auto.
    + intros [->| ->]; auto.
Qed.

Lemma window_form l a : (forall i, nth i l false = true -> a <= i < a + 16) ->
  l = repeat false (Nat.min a (length l)) ++ slice l a (a + 16) ++ repeat false (length l - (a + 16)).
Proof.
  intros W. apply nth_ext_eq with (d := false).
  - rewrite !app_length, !repeat_length, length_slice. lia.
  - intros i Hi. destruct (Nat.lt_ge_cases i a).
    + rewrite app_nth1 by (rewrite repeat_length; lia). rewrite nth_repeat. destruct (nth i l false) eqn:E; auto. apply W in E. lia.
    + rewrite app_nth2, repeat_length by (rewrite repeat_length; lia). replace (Nat.min a (length l)) with a by lia.
      destruct (Nat.lt_ge_cases i (a + 16)).
      * rewrite app_nth1 by (rewrite length_slice; lia). rewrite nth_slice by lia. f_equal. lia.
      * rewrite app_nth2, nth_repeat by (rewrite length_slice; lia). destruct (nth i l false) eqn:E; auto. apply W in E. lia.
Qed.

Lemma reject_burst c' p : f <> g ->
  (forall i, In i (flips f g) -> p <= i < p + 16) ->
  ((forall i, In i (flips f g) -> i < 8 * (length f - 2)) \/ (forall i, In i (flips f g) -> 8 * (length f - 2) <= i) \/
   (forall i, In i (flips f g) -> p <= i < p + 8)) ->
  ~ frame_v1 c' g.
Proof.
  intros NE W K Fg. apply same_accept in Fg. pose proof same_len as L8.
  assert (A : exists a, forall j, nth j (err_bits f g (mc_crc_extra c) (mc_crc_extra c)) false = true -> a <= j < a + 16).
  { destruct K as [K|[K|K]].
    - exists (Nat.max p 8 - 8). intros j X. pose proof X as X'. apply err_bits_unshift in X; try lia. destruct X as (i & X & <- & Hi).
      assert (I : In i (flips f g)) by (apply in_flips; auto).
      destruct (err_bits_shift f g (mc_crc_extra c) i L ltac:(lia) H0 X) as [_ I8].
      specialize (W i I). specialize (K i I). unfold shift8. destruct (Nat.ltb_spec i (8 * (length f - 2))); lia.
    - exists p. intros j X. apply err_bits_unshift in X; try lia. destruct X as (i & X & <- & Hi).
      assert (I : In i (flips f g)) by (apply in_flips; auto).
      specialize (W i I). specialize (K i I). unfold shift8. destruct (Nat.ltb_spec i (8 * (length f - 2))); lia.
    - exists (Nat.max p 8 - 8). intros j X. apply err_bits_unshift in X; try lia. destruct X as (i & X & <- & Hi).
      assert (I : In i (flips f g)) by (apply in_flips; auto).
      destruct (err_bits_shift f g (mc_crc_extra c) i L ltac:(lia) H0 X) as [_ I8].
      specialize (K i I). unfold shift8. destruct (Nat.ltb_spec i (8 * (length f - 2))); lia. }
  destruct A as (a & A). rewrite (window_form _ a A) in Fg. apply crc_burst in Fg; [|rewrite length_slice; lia].
  apply NE. apply flips_nil; auto. destruct (flips f g) as [|i r] eqn:EF; auto. exfalso.
  assert (I : In i (flips f g)) by (rewrite EF; simpl; auto). apply in_flips in I. destruct I as [Hi X].
  destruct (err_bits_shift f g (mc_crc_extra c) i L ltac:(lia) H0 X) as [EX _].
  pose proof (A _ EX) as R. rewrite (window_form _ a A) in EX. rewrite Fg in EX.
  rewrite app_nth2, repeat_length in EX by (rewrite repeat_length; lia).
  destruct (Nat.lt_ge_cases (shift8 f i - Nat.min a (length (err_bits f g (mc_crc_extra c) (mc_crc_extra c)))) (length (slice (err_bits f g (mc_crc_extra c) (mc_crc_extra c)) a (a + 16)))).
  - rewrite app_nth1 in EX by (rewrite repeat_length; auto). rewrite nth_repeat in EX. discriminate.
  - rewrite app_nth2 in EX by (rewrite repeat_length; auto). rewrite nth_repeat in EX. discriminate.
Qed.
End Same.

(** A changed length byte. *)
Lemma reject_length f g c c' : is_bytes f -> is_bytes g -> length f = length g -> frame_v1 c f -> nth 1 f 0%N <> nth 1 g 0%N ->
  ~ frame_v1 c' g.
Proof.
  intros Bf Bg L [_ Ff] N [_ Fg]. apply (err_iff f g c c' Bf Bg L Ff) in Fg. apply N. symmetry. tauto.
Qed.

(** Single flips of the id byte: exhaustive over pairs of messages and payload lengths. *)
Fixpoint walk (n m : nat) (s d : N) (bad : nat -> bool) : bool :=
  match n with
  | O => true
  | S n' => Bool.eqb (N.eqb (x25_accumulate s [d; 0; 0]%N) 0) (bad m) && walk n' (S m) (x25_step s 0) d bad
  end.

Definition exceptional (c : msg_class) (k m : nat) : bool :=
  Nat.eqb k 1 && (N.eqb (mc_id c) 4 || N.eqb (mc_id c) 6) && Nat.eqb m 208.

Lemma id_sweep :
  forallb (fun c => forallb (fun c' => forallb (fun k =>
    if N.eqb (N.lxor (mc_id c) (mc_id c')) (2 ^ N.of_nat k)
    then walk 256 0 (x25_step 0 (2 ^ N.of_nat k)) (N.lxor (mc_crc_extra c) (mc_crc_extra c')) (exceptional c k)
    else true) (seq 0 8)) mavlink_classes) mavlink_classes = true.
Proof. vm_compute. reflexivity. Qed.

Lemma walk_spec n m s d bad i : walk n m s d bad = true -> i < n ->
  N.eqb (x25_accumulate s (repeat 0%N i ++ [d; 0; 0]%N)) 0 = bad (m + i).
Proof.
  revert m s i; induction n; intros m s i H Hi; [lia|]. cbn [walk] in H. apply andb_true_iff in H. destruct H as [H1 H2].
  destruct i.
  - rewrite Nat.add_0_r. apply eqb_prop. exact H1.
  - cbn [repeat app]. specialize (IHn (S m) (x25_step s 0) i H2 ltac:(lia)). rewrite Nat.add_succ_r. exact IHn.
Qed.

Lemma id_flip c c' k m : In c mavlink_classes -> In c' mavlink_classes -> k < 8 -> m < 256 ->
  N.lxor (mc_id c) (mc_id c') = (2 ^ N.of_nat k)%N ->
  N.eqb (x25_accumulate (x25_step 0 (2 ^ N.of_nat k)) (repeat 0%N m ++ [N.lxor (mc_crc_extra c) (mc_crc_extra c'); 0; 0]%N)) 0 = exceptional c k m.
Proof.
  intros H H' Hk Hm E. pose proof id_sweep as S. rewrite forallb_forall in S. specialize (S c H). rewrite forallb_forall in S.
  specialize (S c' H'). rewrite forallb_forall in S. specialize (S k (proj2 (in_seq 8 0 k) ltac:(lia))).
  rewrite E, N.eqb_refl in S. apply (walk_spec 256 0) with (i := m) in S; auto.
Qed.

Lemma single_flip f g p : is_bytes f -> is_bytes g -> length f = length g -> flips f g = [p] ->
  p / 8 < length f /\ (forall k, k <> p / 8 -> nth k g 0%N = nth k f 0%N) /\
  nth (p / 8) g 0%N = N.lxor (nth (p / 8) f 0%N) (2 ^ N.of_nat (p mod 8)).
Proof.
  intros Bf Bg L F.
  assert (D : forall k i, k < length f -> i < 8 ->
     N.testbit (nth k g 0%N) (N.of_nat i) = xorb (N.testbit (nth k f 0%N) (N.of_nat i)) (Nat.eqb (8 * k + i) p)).
  { intros k i Hk Hi. pose proof (in_flips f g (8 * k + i)) as I. rewrite F in I. unfold tx_bit in I.
    replace ((8 * k + i) / 8) with k in I by (apply Nat.div_unique with i; lia).
    replace ((8 * k + i) mod 8) with i in I by (apply Nat.mod_unique with k; lia).
    destruct (Nat.eqb_spec (8 * k + i) p) as [E|E].
    - destruct I as [I _]. specialize (I (or_introl (eq_sym E))). destruct I as [_ I].
      destruct (N.testbit (nth k f 0%N) (N.of_nat i)), (N.testbit (nth k g 0%N) (N.of_nat i)); auto; discriminate.
    - destruct I as [_ I]. destruct (N.testbit (nth k f 0%N) (N.of_nat i)), (N.testbit (nth k g 0%N) (N.of_nat i)); auto;
        exfalso; apply E; (destruct I as [I|[]]; [split; [lia|reflexivity]|congruence]). }
  assert (P : p < 8 * length f).
  { assert (I : In p (flips f g)) by (rewrite F; simpl; auto). apply in_flips in I. tauto. }
  assert (Q : p / 8 < length f) by (apply Nat.div_lt_upper_bound; lia).
  assert (HI : forall (h : bytes) k i, is_bytes h -> (8 <= i)%N -> N.testbit (nth k h 0%N) i = false).
  { intros h k i Bh Hi. pose proof (is_bytes_nth k Bh) as X. change 256%N with (2 ^ 8)%N in X. rewrite lt_pow2_bits in X. apply X; auto. }
  pose proof (Nat.div_mod p 8 ltac:(lia)) as DM. pose proof (Nat.mod_upper_bound p 8 ltac:(lia)) as MB.
  split; auto. split.
  - intros k Hk. destruct (Nat.lt_ge_cases k (length f)) as [A|A].
    + apply N.bits_inj_iff. intros i. destruct (N.lt_ge_cases i 8) as [B|B].
      * rewrite <- (N2Nat.id i). rewrite D by lia. destruct (Nat.eqb_spec (8 * k + N.to_nat i) p) as [E|E].
        -- exfalso. apply Hk. apply Nat.div_unique with (N.to_nat i); lia.
        -- apply xorb_false_r.
      * rewrite !HI; auto.
    + rewrite !nth_overflow; auto. lia.
  - apply N.bits_inj_iff. intros i. rewrite N.lxor_spec, N.pow2_bits_eqb. destruct (N.lt_ge_cases i 8) as [B|B].
    + rewrite <- (N2Nat.id i). rewrite D by lia. f_equal.
      destruct (Nat.eqb_spec (8 * (p / 8) + N.to_nat i) p), (N.eqb_spec (N.of_nat (p mod 8)) (N.of_nat (N.to_nat i))); auto; lia.
    + rewrite !HI by auto. destruct (N.eqb_spec (N.of_nat (p mod 8)) i); auto. lia.
Qed.

Lemma x25_zeros n : x25_accumulate 0 (repeat 0%N n) = 0%N.
Proof. induction n; auto. Qed.

Lemma is_bytes_xor a b : is_bytes a -> is_bytes b -> is_bytes (xor_bytes a b).
Proof.
  intros A; revert b; induction A as [|x a X A IH]; intros b B; [constructor|]. destruct B as [|y b Y B]; [constructor|].
  constructor; [|apply IH; auto]. cbn [fst snd]. change 256%N with (2 ^ 8)%N. apply lxor_bound; auto.
Qed.

Lemma xor_bytes_same a : xor_bytes a a = repeat 0%N (length a).
Proof. induction a; auto. unfold xor_bytes in *. cbn [combine map fst snd length repeat]. rewrite N.lxor_nilpotent, IHa. reflexivity. Qed.

Lemma nth_xor_bytes a b i : length a = length b -> nth i (xor_bytes a b) 0%N = N.lxor (nth i a 0%N) (nth i b 0%N).
Proof.
  revert b i; induction a as [|x a IH]; intros [|y b] i L; try discriminate; [destruct i; reflexivity|].
  destruct i; [reflexivity|]. unfold xor_bytes in *. simpl. apply IH. simpl in L; lia.
Qed.

(** Error bits as bytes. *)
Lemma err_crc f g e e' : is_bytes f -> is_bytes g -> (e < 256)%N -> (e' < 256)%N ->
  crc_bits 0 (err_bits f g e e') =
  x25_accumulate 0 (xor_bytes (slice f 1 (length f - 2)) (slice g 1 (length f - 2)) ++ [N.lxor e e'] ++
                    xor_bytes (skipn (length f - 2) f) (skipn (length f - 2) g)).
Proof.
  intros Bf Bg He He'. rewrite x25_serial.
  - rewrite !lsb_bits_app. reflexivity.
  - apply is_bytes_app. split; [apply is_bytes_xor; apply is_bytes_slice; auto|]. apply is_bytes_app. split.
    + constructor; [|constructor]. change 256%N with (2 ^ 8)%N. apply lxor_bound; auto.
    + apply is_bytes_xor; apply is_bytes_skipn; auto.
  - lia.
Qed.

Lemma single_id f g c p : is_bytes f -> is_bytes g -> length f = length g -> frame_v1 c f -> flips f g = [p] -> p / 8 = 5 ->
  ((exists c', frame_v1 c' g) <-> exceptional_frame f /\ p = 41).
Proof.
  intros Bf Bg L Ff F P5. destruct (single_flip f g p Bf Bg L F) as (Q & SB & FB). rewrite P5 in *.
  pose proof Ff as [[Ic Id] Ff'].
  destruct (frame_of_parts c f Ff' Bf) as (lo & hi & Ef & Sf & L8 & L1 & _).
  pose proof (is_bytes_nth 1 Bf) as B1.
  set (k := p mod 8) in *. assert (Hk : k < 8) by (apply Nat.mod_upper_bound; lia).
  pose proof (Nat.div_mod p 8 ltac:(lia)) as DM. rewrite P5 in DM. fold k in DM.
  assert (KEY : forall c', is_msg (nth 5 g 0%N) c' -> (frame_of 254 6 0 c' g <-> exceptional c k (length f - 8) = true)).
  { intros c' [Ic' Id'].
    rewrite (err_iff f g c c' Bf Bg L Ff').
    rewrite err_crc by (auto; apply cf_extra, class_facts_in; auto).
    assert (X1 : xor_bytes (slice f 1 (length f - 2)) (slice g 1 (length f - 2)) = repeat 0%N 4 ++ (2 ^ N.of_nat k)%N :: repeat 0%N (length f - 8)).
    { apply nth_ext_eq with (d := 0%N).
      - rewrite length_xor_bytes; rewrite ?length_slice, ?app_length; simpl; rewrite ?repeat_length; lia.
      - intros i Hi. rewrite length_xor_bytes in Hi by (rewrite !length_slice; lia). rewrite length_slice in Hi.
        rewrite nth_xor_bytes by (rewrite !length_slice; lia). rewrite !nth_slice by lia.
        destruct (Nat.eq_dec i 4) as [->|N].
        + cbn [Nat.add]. rewrite FB, <- N.lxor_assoc, N.lxor_nilpotent. reflexivity.
        + rewrite SB by lia. rewrite N.lxor_nilpotent. symmetry.
          destruct (Nat.lt_ge_cases i 4).
          * rewrite app_nth1 by (simpl; lia). apply nth_repeat.
          * rewrite app_nth2 by (simpl; lia). rewrite repeat_length. destruct (i - 4) as [|j] eqn:EJ; [lia|]. cbn [nth]. apply nth_repeat. }
    assert (X2 : xor_bytes (skipn (length f - 2) f) (skipn (length f - 2) g) = [0; 0]%N).
    { replace (skipn (length f - 2) g) with (skipn (length f - 2) f).
      - rewrite xor_bytes_same, Sf. reflexivity.
      - apply nth_ext_eq with (d := 0%N); [rewrite !skipn_length; lia|]. intros i Hi. rewrite !nth_skipn. symmetry. apply SB. lia. }
    rewrite X1, X2.
    assert (X3 : x25_accumulate 0 ((repeat 0%N 4 ++ (2 ^ N.of_nat k)%N :: repeat 0%N (length f - 8)) ++ [N.lxor (mc_crc_extra c) (mc_crc_extra c')] ++ [0; 0]%N)
       = x25_accumulate (x25_step 0 (2 ^ N.of_nat k)) (repeat 0%N (length f - 8) ++ [N.lxor (mc_crc_extra c) (mc_crc_extra c'); 0; 0]%N)).
    { rewrite <- app_assoc. rewrite x25_app, x25_zeros. reflexivity. }
    rewrite X3. rewrite <- (id_flip c c' k (length f - 8)); auto; try lia.
    - rewrite N.eqb_eq. rewrite SB by lia. rewrite (SB 1) by lia.
      assert (M : nth 0 f 0%N = 254%N) by (rewrite Ef; reflexivity). tauto.
    - rewrite Id, Id', FB, <- N.lxor_assoc, N.lxor_nilpotent. apply N.lxor_0_l. }
  split.
  - intros (c' & [Ig Fg]). apply KEY in Fg; auto. unfold exceptional in Fg. rewrite Id in Fg.
    unfold exceptional_frame. lia.
  - intros [[E1 E2] E3].
    assert (K1 : k = 1) by lia.
    assert (G5 : nth 5 g 0%N = if N.eqb (nth 5 f 0%N) 4 then 6%N else 4%N).
    { rewrite FB, K1. destruct E1 as [-> | ->]; reflexivity. }
    assert (exists c', is_msg (nth 5 g 0%N) c') as (c' & I').
    { destruct (get_class (nth 5 g 0%N)) as [c'|] eqn:EG; [exists c'; apply get_class_spec; auto|].
      exfalso. rewrite G5 in EG. destruct (N.eqb _ 4); vm_compute in EG; discriminate. }
    exists c'. split; auto. apply KEY; auto. unfold exceptional. rewrite Id, K1.
    destruct E1 as [-> | ->]; rewrite E2; reflexivity.
Qed.

(** A single bit error is detected, except ... *)
Lemma single_bit ts f g c p : is_bytes f -> is_bytes g -> length f = length g -> frame_v1 c f -> flips f g = [p] ->
  (decode ts g = Err MAVError \/ exists d, decode ts g = Ok d) /\
  ((exists d, decode ts g = Ok d) <-> exceptional_frame f /\ p = 41).
Proof.
  intros Bf Bg L Ff F. destruct (single_flip f g p Bf Bg L F) as (Q & SB & FB).
  pose proof (same_len f c Bf Ff) as L8.
  assert (M : nth 0 f 0%N = 254%N).
  { destruct Ff as [_ (? & ? & ? & ? & E & _)]. rewrite E. reflexivity. }
  assert (NG : g <> []) by (intros ->; simpl in L; lia).
  assert (HD : p / 8 <> 5 -> p <> 41) by (intros H ->; apply H; reflexivity).
  destruct (Nat.eq_dec (p / 8) 0) as [P0|P0].
  - assert (G0 : (nth 0 g 0 <> 254 /\ nth 0 g 0 <> 253)%N).
    { rewrite P0 in FB. rewrite FB, M. pose proof (Nat.mod_upper_bound p 8 ltac:(lia)) as B.
      destruct (p mod 8) as [|[|[|[|[|[|[|[|]]]]]]]]; try lia; vm_compute; split; discriminate. }
    destruct (decode_not_v1 ts g Bg NG (proj1 G0)) as [(c' & d & [_ (? & ? & ? & ? & E & _)] & _)|(_ & D)].
    + exfalso. apply (proj2 G0). rewrite E. reflexivity.
    + split; auto. rewrite D. split; [intros (d & X); discriminate|]. intros [_ X]. exfalso. apply HD in X; auto. lia.
  - assert (G0 : nth 0 g 0%N = 254%N) by (rewrite SB by lia; auto).
    destruct (decode_v1 ts g Bg G0) as [(c' & Fg & D)|(Fg & D)]; rewrite D; (split; [eauto|]).
    + split; [|eauto]. intros _.
      destruct (Nat.eq_dec (p / 8) 5) as [P5|P5]; [eapply single_id; eauto|]. exfalso.
      destruct (Nat.eq_dec (p / 8) 1) as [P1|P1].
      * apply (reject_length f g c c' Bf Bg L Ff); auto. rewrite P1 in FB. rewrite FB. intros E.
        assert (X : N.lxor (nth 1 f 0%N) (nth 1 f 0%N) = N.lxor (nth 1 f 0%N) (N.lxor (nth 1 f 0%N) (2 ^ N.of_nat (p mod 8)))) by congruence.
        rewrite <- N.lxor_assoc, N.lxor_nilpotent, N.lxor_0_l in X. symmetry in X. revert X. apply N.pow_nonzero. lia.
      * apply (reject_odd f g c Bf Bg L Ff) with (c' := c'); auto; try (symmetry; apply SB; lia). rewrite F. reflexivity.
    + split; [intros (d & X); discriminate|]. intros [X1 X2]. exfalso.
      assert (P5 : p / 8 = 5) by (subst p; reflexivity).
      destruct (proj2 (single_id f g c p Bf Bg L Ff F P5) (conj X1 X2)) as (c' & Fg'). eapply Fg; eauto.
Qed.
