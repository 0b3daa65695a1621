(** The byte-wise checksum equals the bit-serial one; linearity; error detection of the register. *)
From Coq Require Import List NArith ZArith Bool Lia ZifyBool ZifyNat ZifyN.
From Verif.Model Require Import Py Crc.
From Verif.Spec Require Import Bytes CrcSpec.
From Verif.Proofs Require Import Base.
Import ListNotations.
Local Open Scope N_scope.

Lemma lxor4 a b c d : N.lxor (N.lxor a b) (N.lxor c d) = N.lxor (N.lxor a c) (N.lxor b d).
Proof.
  rewrite !N.lxor_assoc. f_equal. rewrite <- !N.lxor_assoc. f_equal. apply N.lxor_comm.
Qed.

Lemma land_lxor_distr a b m : N.land (N.lxor a b) m = N.lxor (N.land a m) (N.land b m).
Proof.
  apply N.bits_inj_iff. intros i. rewrite N.land_spec, !N.lxor_spec, !N.land_spec.
  destruct (N.testbit a i), (N.testbit b i), (N.testbit m i); reflexivity.
Qed.

Lemma crc_bit_lin s s' b b' : crc_bit (N.lxor s s') (xorb b b') = N.lxor (crc_bit s b) (crc_bit s' b').
Proof.
  unfold crc_bit. rewrite N.shiftr_lxor, N.lxor_spec, lxor4. f_equal.
  destruct (N.testbit s 0), (N.testbit s' 0), b, b'; reflexivity.
Qed.

Definition xor_bits (a b : list bool) : list bool := map (fun p => xorb (fst p) (snd p)) (combine a b).

Lemma crc_bits_lin a b : length a = length b -> forall s s',
  crc_bits (N.lxor s s') (xor_bits a b) = N.lxor (crc_bits s a) (crc_bits s' b).
Proof.
  revert b; induction a as [|x a IH]; intros [|y b] L s s'; try discriminate; auto.
  unfold xor_bits, crc_bits in *. simpl. rewrite crc_bit_lin. apply IH. simpl in L; lia.
Qed.

Lemma crc_bits_app s a b : crc_bits s (a ++ b) = crc_bits (crc_bits s a) b.
Proof. apply fold_left_app. Qed.

Lemma x25_step_lin s s' b b' : x25_step (N.lxor s s') (N.lxor b b') = N.lxor (x25_step s b) (x25_step s' b').
Proof.
  unfold x25_step. cbv zeta.
  set (t := N.lxor b (N.land s 255)). set (t' := N.lxor b' (N.land s' 255)).
  assert (E : N.lxor (N.lxor b b') (N.land (N.lxor s s') 255) = N.lxor t t').
  { unfold t, t'. rewrite land_lxor_distr. apply lxor4. }
  rewrite E. clearbody t t'.
  assert (E2 : N.land (N.lxor (N.lxor t t') (N.shiftl (N.lxor t t') 4)) 255
     = N.lxor (N.land (N.lxor t (N.shiftl t 4)) 255) (N.land (N.lxor t' (N.shiftl t' 4)) 255)).
  { rewrite N.shiftl_lxor, lxor4, land_lxor_distr. reflexivity. }
  rewrite E2. set (u := N.land (N.lxor t (N.shiftl t 4)) 255). set (u' := N.land (N.lxor t' (N.shiftl t' 4)) 255).
  clearbody u u'.
  rewrite !N.shiftr_lxor, !N.shiftl_lxor. rewrite (lxor4 (N.shiftr s 8)), (lxor4 (N.lxor (N.shiftr s 8) _)), (lxor4 (N.lxor (N.lxor (N.shiftr s 8) _) _)).
  reflexivity.
Qed.

Definition byte_lsb (b : N) : list bool := map (fun i => N.testbit b (N.of_nat i)) (seq 0 8).

Lemma byte_lsb_lxor a b : byte_lsb (N.lxor a b) = xor_bits (byte_lsb a) (byte_lsb b).
Proof. unfold byte_lsb, xor_bits. cbn [seq map combine]. rewrite !N.lxor_spec. reflexivity. Qed.

Definition Nrange (n : nat) : list N := map N.of_nat (seq 0 n).
Lemma in_Nrange n x : x < N.of_nat n -> In x (Nrange n).
Proof. intros H. unfold Nrange. apply in_map_iff. exists (N.to_nat x). split; [lia|]. apply in_seq. lia. Qed.

Lemma sweep_lo : forallb (fun x => N.eqb (x25_step x 0) (crc_bits x (byte_lsb 0))) (Nrange 256) = true.
Proof. vm_compute. reflexivity. Qed.
Lemma sweep_hi : forallb (fun x => N.eqb (x25_step (256 * x) 0) (crc_bits (256 * x) (byte_lsb 0))) (Nrange 256) = true.
Proof. vm_compute. reflexivity. Qed.
Lemma sweep_b : forallb (fun x => N.eqb (x25_step 0 x) (crc_bits 0 (byte_lsb x))) (Nrange 256) = true.
Proof. vm_compute. reflexivity. Qed.

Lemma split_word s : s < 65536 -> s = N.lxor (256 * (s / 256)) (s mod 256).
Proof.
  intros H. 
  rewrite (N.div_mod s 256) at 1 by lia.
  rewrite N.add_nocarry_lxor; auto.
  apply N.bits_inj_iff. intros i. rewrite N.land_spec, N.bits_0.
  change 256 with (2 ^ 8). rewrite N.mul_comm.
  destruct (N.lt_ge_cases i 8).
  - rewrite N.mul_pow2_bits_low by auto. reflexivity.
  - rewrite (N.mod_pow2_bits_high) by auto. apply andb_false_r.
Qed.

Lemma x25_step_serial s b : s < 65536 -> b < 256 -> x25_step s b = crc_bits s (byte_lsb b).
Proof.
  intros Hs Hb. rewrite (split_word s Hs).
  assert (Hh : s / 256 < 256) by (apply N.div_lt_upper_bound; lia).
  assert (Hl : s mod 256 < 256) by (apply N.mod_lt; lia).
  set (h := s / 256) in *. set (l := s mod 256) in *. clearbody h l.
  assert (A : x25_step (N.lxor (256 * h) l) b =
              N.lxor (N.lxor (x25_step (256 * h) 0) (x25_step l 0)) (x25_step 0 b)).
  { rewrite <- !x25_step_lin. rewrite N.lxor_0_r. reflexivity. }
  assert (B : crc_bits (N.lxor (256 * h) l) (byte_lsb b) =
              N.lxor (N.lxor (crc_bits (256 * h) (byte_lsb 0)) (crc_bits l (byte_lsb 0))) (crc_bits 0 (byte_lsb b))).
  { rewrite <- !crc_bits_lin by reflexivity. rewrite <- !byte_lsb_lxor, N.lxor_0_r. reflexivity. }
  rewrite A, B.
  pose proof sweep_lo as S1. pose proof sweep_hi as S2. pose proof sweep_b as S3.
  rewrite forallb_forall in S1, S2, S3.
  specialize (S1 l (in_Nrange 256 l Hl)). specialize (S2 h (in_Nrange 256 h Hh)). specialize (S3 b (in_Nrange 256 b Hb)).
  apply N.eqb_eq in S1, S2, S3. rewrite S1, S2, S3. reflexivity.
Qed.

Lemma lt_pow2_bits x n : x < 2 ^ n <-> (forall i, n <= i -> N.testbit x i = false).
Proof.
  split.
  - intros H i Hi. destruct (N.eq_dec x 0) as [->|]; [apply N.bits_0|].
    apply N.bits_above_log2. apply N.lt_le_trans with n; auto. apply N.log2_lt_pow2; lia.
  - intros H. destruct (N.lt_ge_cases x (2 ^ n)); auto. exfalso.
    assert (x <> 0) by (intro; subst; pose proof (N.pow_nonzero 2 n); lia).
    pose proof (N.bit_log2 x H1). rewrite H in H2; [discriminate|].
    apply N.log2_le_pow2; lia.
Qed.

Lemma lxor_bound a b n : a < 2 ^ n -> b < 2 ^ n -> N.lxor a b < 2 ^ n.
Proof.
  rewrite !lt_pow2_bits. intros Ha Hb i Hi. rewrite N.lxor_spec, Ha, Hb by auto. reflexivity.
Qed.

Lemma crc_bit_bound s b : s < 65536 -> crc_bit s b < 65536.
Proof.
  intros H. unfold crc_bit. change 65536 with (2 ^ 16). apply lxor_bound.
  - change (2 ^ 16) with 65536. rewrite N.shiftr_div_pow2. change (2 ^ 1) with 2.
    apply N.le_lt_trans with s; auto. apply N.div_le_upper_bound; lia.
  - destruct (xorb _ _); reflexivity.
Qed.

Lemma crc_bits_bound l : forall s, s < 65536 -> crc_bits s l < 65536.
Proof. induction l; simpl; intros s H; auto. apply IHl, crc_bit_bound; auto. Qed.

Lemma lsb_bits_cons b l : lsb_bits (b :: l) = byte_lsb b ++ lsb_bits l.
Proof. reflexivity. Qed.

Lemma lsb_bits_app a b : lsb_bits (a ++ b) = lsb_bits a ++ lsb_bits b.
Proof. apply flat_map_app. Qed.

Lemma x25_serial l : is_bytes l -> forall s, s < 65536 -> x25_accumulate s l = crc_bits s (lsb_bits l).
Proof.
  induction 1 as [|b l Hb Hl IH]; intros s Hs; auto.
  rewrite lsb_bits_cons, crc_bits_app. unfold x25_accumulate in *. simpl.
  rewrite x25_step_serial by auto. rewrite IH by (apply crc_bits_bound; auto). reflexivity.
Qed.

Lemma x25_bound l s : is_bytes l -> s < 65536 -> x25_accumulate s l < 65536.
Proof. intros B H. rewrite x25_serial by auto. apply crc_bits_bound; auto. Qed.

Lemma x25crc_is_crc16 l : is_bytes l -> x25crc l = crc16 l.
Proof. intros H. apply x25_serial; auto. reflexivity. Qed.

Lemma x25_app s a b : x25_accumulate s (a ++ b) = x25_accumulate (x25_accumulate s a) b.
Proof. apply fold_left_app. Qed.

Lemma x25_lin a b : length a = length b -> forall s s',
  x25_accumulate (N.lxor s s') (xor_bytes a b) = N.lxor (x25_accumulate s a) (x25_accumulate s' b).
Proof.
  revert b; induction a as [|x a IH]; intros [|y b] L s s'; try discriminate; auto.
  unfold xor_bytes, x25_accumulate in *. simpl. rewrite x25_step_lin. apply IH. simpl in L; lia.
Qed.

(** Register facts used for error detection. *)
Lemma crc_bit_zero s b : s < 65536 -> crc_bit s b < 32768 -> s = 2 * crc_bit s b + (if b then 1 else 0).
Proof.
  intros Hs H. unfold crc_bit in *. destruct (xorb (N.testbit s 0) b) eqn:E.
  - exfalso. change 32768 with (2 ^ 15) in H. rewrite lt_pow2_bits in H. specialize (H 15 ltac:(lia)).
    rewrite N.lxor_spec, N.shiftr_spec in H by lia.
    assert (N.testbit s (15 + 1) = false).
    { change 65536 with (2 ^ 16) in Hs. rewrite lt_pow2_bits in Hs. apply Hs. lia. }
    rewrite H0 in H. discriminate.
  - rewrite N.lxor_0_r in *. rewrite N.shiftr_div_pow2. change (2 ^ 1) with 2.
    rewrite (N.div_mod s 2) at 1 by lia. f_equal.
    rewrite <- N.bit0_mod. destruct (N.testbit s 0), b; try discriminate; reflexivity.
Qed.

(** Value of a bit list, least significant first. *)
Fixpoint lsb_val (l : list bool) : N := match l with [] => 0 | b :: t => (if b then 1 else 0) + 2 * lsb_val t end.

Lemma lsb_val_bound l : lsb_val l < 2 ^ N.of_nat (length l).
Proof.
  induction l as [|b l IH]; [simpl; lia|].
  simpl length. rewrite Nat2N.inj_succ, N.pow_succ_r'. cbn [lsb_val]. destruct b; lia.
Qed.

Lemma crc_bits_zero_inv l : (length l <= 16)%nat -> forall s, s < 65536 -> crc_bits s l = 0 -> s = lsb_val l.
Proof.
  induction l as [|b l IH]; intros L s Hs H; [simpl in *; auto|].
  simpl in H. simpl length in L.
  assert (E : crc_bit s b = lsb_val l) by (apply IH; [lia|apply crc_bit_bound; auto|exact H]).
  cbn [lsb_val]. rewrite <- E, N.add_comm. apply crc_bit_zero; auto.
  rewrite E. apply N.lt_le_trans with (2 ^ N.of_nat (length l)); [apply lsb_val_bound|].
  change 32768 with (2 ^ 15). apply N.pow_le_mono_r; lia.
Qed.

Lemma lsb_val_0 l : lsb_val l = 0 -> l = repeat false (length l).
Proof.
  induction l as [|b l IH]; cbn [lsb_val length repeat]; auto. intros H. destruct b; [lia|]. f_equal. apply IH. lia.
Qed.

Lemma crc_bit_0 : crc_bit 0 false = 0.
Proof. reflexivity. Qed.
Lemma crc_bits_0 n : crc_bits 0 (repeat false n) = 0.
Proof. induction n; auto. Qed.

(** Zero bits cannot bring a non-zero register to zero. *)
Lemma crc_bits_zeros_inj n s : s < 65536 -> crc_bits s (repeat false n) = 0 -> s = 0.
Proof.
  revert s; induction n; intros s Hs H; [exact H|]. simpl in H.
  assert (E : crc_bit s false = 0) by (apply IHn; auto; apply crc_bit_bound; auto).
  pose proof (crc_bit_zero s false Hs) as Z. rewrite E in Z. rewrite Z; lia.
Qed.

(** Bursts of at most 16 bits. *)
Lemma crc_burst a m c : (length m <= 16)%nat -> crc_bits 0 (repeat false a ++ m ++ repeat false c) = 0 ->
  m = repeat false (length m).
Proof.
  intros L H. rewrite !crc_bits_app, crc_bits_0 in H.
  apply crc_bits_zeros_inj in H; [|apply crc_bits_bound; lia].
  apply crc_bits_zero_inv in H; auto; [|lia]. apply lsb_val_0. auto.
Qed.

(** Parity. *)
Fixpoint parity (l : list bool) : bool := match l with [] => false | b :: t => xorb b (parity t) end.

Definition npar (s : N) : bool := parity (map (fun i => N.testbit s (N.of_nat i)) (seq 0 16)).

Lemma parity_xor a b : length a = length b -> parity (xor_bits a b) = xorb (parity a) (parity b).
Proof.
  revert b; induction a as [|x a IH]; intros [|y b] L; try discriminate; auto.
  unfold xor_bits in *. simpl. rewrite IH by (simpl in L; lia). destruct x, y, (parity a), (parity b); reflexivity.
Qed.

Lemma npar_lxor a b : npar (N.lxor a b) = xorb (npar a) (npar b).
Proof.
  unfold npar. rewrite <- parity_xor by reflexivity. f_equal. unfold xor_bits. cbn [seq map combine fst snd].
  rewrite !N.lxor_spec. reflexivity.
Qed.

Lemma parity_app a b : parity (a ++ b) = xorb (parity a) (parity b).
Proof. induction a; simpl; [destruct (parity b); auto|]. rewrite IHa. symmetry; apply xorb_assoc. Qed.

Lemma npar_shift s : s < 65536 -> npar (N.shiftr s 1) = xorb (N.testbit s 0) (npar s).
Proof.
  intros H.
  assert (H16 : N.testbit s 16 = false).
  { change 65536 with (2 ^ 16) in H. rewrite lt_pow2_bits in H. apply H. lia. }
  unfold npar.
  assert (E : map (fun i => N.testbit (N.shiftr s 1) (N.of_nat i)) (seq 0 16)
              = map (fun i => N.testbit s (N.of_nat i)) (seq 1 15) ++ [false]).
  { rewrite <- H16. cbn [seq map app]. rewrite !N.shiftr_spec by lia. reflexivity. }
  rewrite E, parity_app. change (parity [false]) with false. rewrite xorb_false_r.
  change (seq 0 16) with (0%nat :: seq 1 15). cbn [map parity]. change (N.of_nat 0) with 0.
  rewrite <- xorb_assoc, xorb_nilpotent, xorb_false_l. reflexivity.
Qed.

Lemma npar_crc_bit s b : s < 65536 -> npar (crc_bit s b) = xorb (npar s) b.
Proof.
  intros H. unfold crc_bit. rewrite npar_lxor, npar_shift by auto.
  destruct (N.testbit s 0), b, (npar s); reflexivity.
Qed.

Lemma npar_crc_bits l : forall s, s < 65536 -> npar (crc_bits s l) = xorb (npar s) (parity l).
Proof.
  induction l as [|b l IH]; intros s H; simpl; [rewrite xorb_false_r; auto|].
  change (fold_left crc_bit l (crc_bit s b)) with (crc_bits (crc_bit s b) l).
  rewrite IH by (apply crc_bit_bound; auto). rewrite npar_crc_bit by auto. apply xorb_assoc.
Qed.

Lemma crc_zero_even l : crc_bits 0 l = 0 -> parity l = false.
Proof.
  intros H. pose proof (npar_crc_bits l 0 ltac:(lia)) as P. rewrite H in P.
  change (npar 0) with false in P. destruct (parity l); auto; discriminate.
Qed.

(** Two single-bit errors: the register never equals 1 in the first 4000 steps after a first error. *)
Fixpoint orbit_ok (n : nat) (s : N) : bool :=
  match n with O => true | S n' => negb (N.eqb s 1) && orbit_ok n' (crc_bit s false) end.

Lemma orbit_4000 : orbit_ok (40 * 100) 33800 = true.
Proof. vm_compute. reflexivity. Qed.

Lemma orbit_ok_spec n s k : orbit_ok n s = true -> (k < n)%nat -> crc_bits s (repeat false k) <> 1.
Proof.
  revert s k; induction n; intros s k H Hk; [lia|]. simpl in H. apply andb_true_iff in H. destruct H as [H1 H2].
  destruct k; simpl.
  - intros ->. discriminate.
  - apply IHn; auto. lia.
Qed.

Lemma crc_two_bits a k c : (k < 4000)%nat ->
  crc_bits 0 (repeat false a ++ true :: repeat false k ++ true :: repeat false c) <> 0.
Proof.
  intros Hk H. rewrite crc_bits_app, crc_bits_0 in H. simpl in H.
  change (crc_bits (crc_bit 0 true) (repeat false k ++ true :: repeat false c) = 0) in H.
  change (crc_bit 0 true) with 33800 in H.
  rewrite crc_bits_app in H. simpl in H.
  change (crc_bits (crc_bit (crc_bits 33800 (repeat false k)) true) (repeat false c) = 0) in H.
  assert (B : crc_bits 33800 (repeat false k) < 65536) by (apply crc_bits_bound; lia).
  apply crc_bits_zeros_inj in H; [|apply crc_bit_bound; auto].
  pose proof (crc_bit_zero _ true B) as Z. rewrite H in Z. specialize (Z ltac:(lia)).
  revert Z. apply (orbit_ok_spec 4000); [exact orbit_4000|auto].
Qed.
