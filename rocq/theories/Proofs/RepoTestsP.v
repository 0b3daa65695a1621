(** Proofs about Model/RepoTests.v: bit operations and headers. *)
From Coq Require Import String Ascii List NArith ZArith Bool Lia ZifyBool ZifyNat ZifyN.
From Verif.Model Require Import Py Dialect ProtocolMeta BitOps MsgHeader Struct Mavlink Segmentation RepoTests.
From Verif.Spec Require Import Bytes Bits Header RepoTestsSpec.
From Verif.Proofs Require Import Base BitOpsP DialectP HeaderP HeaderMore.
Import ListNotations.
Local Open Scope list_scope.
Local Notation length := List.length.

Lemma forallb_all {A} (f : A -> bool) l : (forall x, In x l -> f x = true) -> forallb f l = true.
Proof. intro H. apply forallb_forall. exact H. Qed.
Lemma hamming_bits_ok x y : length x = length y -> hamming_distance (HBits x) (HBits y) 8 = Ok (diffs x y).
Proof. intro L. cbn. rewrite (proj2 (Nat.eqb_eq _ _) L), xor_count_diffs by auto. reflexivity. Qed.

Lemma same_bitstrings rounds : t_same_bitstrings rounds = true.
Proof.
  apply forallb_all. intros ls _. cbv zeta. unfold distance_is. rewrite hamming_bits_ok by reflexivity. cbn [check]. rewrite diffs_refl. reflexivity.
Qed.

Lemma diffs_flip : forall a b p, length b = length a -> p < length a -> nth p b false = nth p a false ->
  diffs a (set_nth b p (negb (nth p b false))) = S (diffs a b).
Proof.
  induction a as [|x a IH]; intros [|y b] p L P E; cbn [length] in *; try lia.
  destruct p as [|p]; cbn [set_nth nth] in *.
  - subst y. rewrite !diffs_cons. destruct x; reflexivity.
  - rewrite !diffs_cons, IH by (auto; lia). lia.
Qed.
Lemma set_length {A} : forall (l : list A) i v, length (set_nth l i v) = length l.
Proof. induction l as [|x l IH]; intros [|i] v; cbn; auto. Qed.
Lemma nth_set_other {A} (d : A) : forall l i j v, i <> j -> nth j (set_nth l i v) d = nth j l d.
Proof. induction l as [|x l IH]; intros [|i] [|j] v N; cbn; auto; try lia. Qed.
Lemma flips (g : nat -> nat) (a : list bool) : forall ps b, NoDup (map g ps) -> Forall (fun p => g p < length a) ps -> length b = length a ->
  (forall p, In p ps -> nth (g p) b false = nth (g p) a false) ->
  exists b', fold_res (fun b p => invert b (g p)) ps b = Ok b' /\ length b' = length a /\ diffs a b' = length ps + diffs a b.
Proof.
  induction ps as [|p ps IH]; intros b N F L E; cbn [fold_res].
  - eauto.
  - inversion N as [|? ? N1 N2]; subst. inversion F as [|? ? F1 F2]; subst.
    unfold invert at 1. rewrite L, (proj2 (Nat.ltb_lt _ _) F1). cbn [bind].
    destruct (IH (set_nth b (g p) (negb (nth (g p) b false)))) as (b' & E1 & E2 & E3); auto.
    + rewrite set_length. exact L.
    + intros q Hq. rewrite nth_set_other; [apply E; right; exact Hq|]. intro Q. apply N1. rewrite Q. apply in_map. exact Hq.
    + exists b'. split; [exact E1|]. split; [exact E2|]. rewrite E3, diffs_flip; [cbn [length]; lia|auto|auto|apply E; left; reflexivity].
Qed.
Lemma squares i : i <= 9 -> NoDup (map (fun p => p * p) (seq 0 i)) /\ Forall (fun p => p * p < 128) (seq 0 i).
Proof.
  intro H. split.
  - apply FinFun.Injective_map_NoDup; [|apply seq_NoDup]. intros x y E. nia.
  - apply Forall_forall. intros p I. apply in_seq in I. nia.
Qed.
Lemma different_bitstrings rounds : Forall (Forall (fun ls => length ls = 128)) rounds -> t_different_bitstrings rounds = true.
Proof.
  intro H. apply forallb_all. intros round Hr. rewrite Forall_forall in H. specialize (H _ Hr). apply forallb_all. intros [i ls] Hp.
  pose proof (in_combine_l _ _ _ _ Hp) as I. apply in_seq in I. pose proof (in_combine_r _ _ _ _ Hp) as J. rewrite Forall_forall in H. specialize (H _ J).
  cbn [fst snd]. cbv zeta. set (a := rand_bitstring ls). assert (La : length a = 128) by (unfold a, rand_bitstring; rewrite map_length; exact H).
  destruct (squares i) as [S1 S2]; [lia|]. rewrite <- La in S2.
  destruct (flips (fun p => p * p) a (seq 0 i) a S1 S2 eq_refl) as (b & E1 & E2 & E3); [auto|].
  rewrite E1. cbn [check]. unfold distance_is. rewrite hamming_bits_ok by auto. cbn [check]. rewrite E3, diffs_refl, seq_length, Nat.add_0_r. apply Nat.eqb_refl.
Qed.
Lemma byte_args a : t_byte_args a = true.
Proof.
  unfold t_byte_args, distance_is. replace (hamming_distance (HBytes a) (HBits (bytes_bits a)) 8) with (hamming_distance (HBits (bytes_bits a)) (HBits (bytes_bits a)) 8) by reflexivity.
  rewrite hamming_bits_ok by reflexivity. cbn [check]. rewrite diffs_refl. reflexivity.
Qed.
Lemma uint8_args a : in_byte a -> t_uint8_args a = true.
Proof.
  intro H. unfold in_byte in H. unfold t_uint8_args. destruct (uint_bits a 8) as [b|e] eqn:E.
  - cbn [check]. unfold distance_is. replace (hamming_distance (HInt a) (HBits b) 8) with (hamming_distance (HBits b) (HBits b) 8).
    + rewrite hamming_bits_ok by reflexivity. cbn [check]. rewrite diffs_refl. reflexivity.
    + unfold hamming_distance. cbn [conv_bytes conv_int bind]. rewrite E. reflexivity.
  - exfalso. unfold uint_bits in E. destruct (_ && _)%bool eqn:B; [discriminate|]. cbn in B. lia.
Qed.

(** * Headers *)
Local Opaque mavlink_classes msgs_payload_length.
Lemma byte_cases x : (x < 256)%N -> In x (map N.of_nat (seq 0 256)).
Proof. intro H. apply in_map_iff. exists (N.to_nat x). split; [lia|]. apply in_seq. lia. Qed.

Lemma known_in z : known_id z <-> In z msg_ids.
Proof.
  unfold known_id, msg_ids. rewrite in_map_iff. split.
  - intros (i & n & P & ->). exists (i, n). split; [reflexivity|]. apply table_plen. exact P.
  - intros ([i n] & <- & I). exists i, n. split; [apply table_plen; exact I|reflexivity].
Qed.

Lemma frame_eq m s c q : known_id m -> in_byte s -> in_byte c -> in_byte q ->
  exists i n, m = Z.of_N i /\ plen i n /\ frame_header_init m s c q = Ok (FH [254%N; N.of_nat n; Z.to_N q; Z.to_N s; Z.to_N c; i]) /\
    is_bytes [254%N; N.of_nat n; Z.to_N q; Z.to_N s; Z.to_N c; i].
Proof.
  intros (i & n & P & ->) Hs Hc Hq. exists i, n. split; [reflexivity|]. split; [exact P|].
  assert (E : frame_header_init (Z.of_N i) s c q = Ok (FH [254%N; N.of_nat n; Z.to_N q; Z.to_N s; Z.to_N c; i])).
  { apply frame_header_ok. split; [auto|]. split; [auto|]. split; [auto|]. split; [lia|]. exists n. rewrite N2Z.id. auto. }
  split; [exact E|]. apply (constructed_valid _ _ _ _ _ E).
Qed.

Lemma raises_nonuint8 m s c q : ~ (in_byte s /\ in_byte c /\ in_byte q /\ in_byte m) -> raises NonUint8 (frame_header_init m s c q) = true.
Proof.
  intro H. rewrite (proj2 (frame_header_err m s c q NonUint8)) by (left; auto). reflexivity.
Qed.
Lemma possible_first : exists r, possible_ids = Ok (3%Z :: r) .
Proof.
  assert (E : check possible_ids (fun ids => match ids with i :: _ => Z.eqb i 3 | [] => false end) = true) by (vm_compute; reflexivity).
  destruct possible_ids as [[|i r]|e]; try discriminate. cbn in E. apply Z.eqb_eq in E. subst. eauto.
Qed.
Lemma no_three : forall n, ~ plen 3 n.
Proof. intros n P. apply payload_length_spec in P. vm_compute in P. discriminate. Qed.

Lemma wrong_ids d1 d2 d3 : drawable d1 -> drawable d2 -> drawable d3 ->
  t_wrong_msg_id d1 d2 d3 = true /\ t_wrong_sys_id d1 d2 = true /\ t_wrong_comp_id d1 d2 = true /\ t_wrong_seq d1 d2 = true.
Proof.
  intros (K1 & S1 & C1 & Q1) (K2 & S2 & C2 & Q2) (K3 & S3 & C3 & Q3). repeat split; unfold t_wrong_msg_id, t_wrong_sys_id, t_wrong_comp_id, t_wrong_seq;
  rewrite !raises_nonuint8 by (unfold in_byte; lia); try reflexivity.
  destruct possible_first as (r & ->). cbn [check andb]. rewrite (proj2 (frame_header_err _ _ _ _ NonExistentMsdId)); [reflexivity|].
  right. repeat split; try apply S3; try apply C3; try apply Q3; try lia. intros (n & P). apply (no_three _ P).
Qed.

Lemma mask_cases : forallb (fun x => forallb (fun i => let y := Z.lxor (Z.of_N x) (2 ^ Z.of_nat (i + 1) - 1) in
  ((0 <=? y)%Z && (y <? 256)%Z && Nat.eqb (int_diffs 8 (Z.of_N x) y) (i + 1))%bool) (seq 0 6)) (map N.of_nat (seq 0 256)) = true.
Proof. vm_compute. reflexivity. Qed.
Lemma mask_case x i : (x < 256)%N -> i < 6 -> exists y, to_byte (Z.lxor (Z.of_N x) (2 ^ Z.of_nat (i + 1) - 1)) = Ok [y] /\ int_diffs 8 (Z.of_N x) (Z.of_N y) = i + 1.
Proof.
  intros Hx Hi. pose proof mask_cases as M. rewrite forallb_forall in M. specialize (M _ (byte_cases _ Hx)). rewrite forallb_forall in M.
  specialize (M i ltac:(apply in_seq; lia)). cbv zeta in M. unfold to_byte. revert M. generalize (Z.lxor (Z.of_N x) (2 ^ Z.of_nat (i + 1) - 1)). intros y M.
  apply andb_true_iff in M. destruct M as [M1 M2].
  exists (Z.to_N y). rewrite M1. split; [reflexivity|]. apply Nat.eqb_eq in M2. rewrite <- M2. f_equal. apply Z2N.id. lia.
Qed.
Lemma byte_diffs_at : forall (b : bytes) i y, i < length b -> byte_diffs b (firstn i b ++ [y] ++ skipn (i + 1) b) = int_diffs 8 (Z.of_N (nth i b 0%N)) (Z.of_N y).
Proof.
  induction b as [|x b IH]; intros i y L; cbn [length] in L; [lia|]. destruct i as [|i].
  - cbn [firstn app Nat.add skipn nth]. rewrite byte_diffs_cons by reflexivity. rewrite byte_diffs_refl. lia.
  - cbn [firstn app Nat.add skipn nth]. rewrite byte_diffs_cons.
    + rewrite int_diffs_refl. apply IH. lia.
    + rewrite app_length. cbn [length]. rewrite firstn_length, skipn_length. lia.
Qed.
Lemma hamming_test ds : Forall drawable ds -> t_hamming ds = true.
Proof.
  intro H. apply forallb_all. intros [i d] Hp. pose proof (in_combine_l _ _ _ _ Hp) as I. apply in_seq in I. apply in_combine_r in Hp.
  rewrite Forall_forall in H. destruct (H _ Hp) as (K & S & C & Q). cbn [fst snd]. cbv zeta. unfold frame.
  destruct (frame_eq _ _ _ _ K S C Q) as (j & n & Ej & P & E & B). pose proof E as E0. rewrite E. cbn [check fh_buffer]. set (b := [254%N; _; _; _; _; _]) in *.
  assert (Lb : length b = 6) by reflexivity.
  assert (Hx : (nth i b 0 < 256)%N) by (apply Forall_nth; [exact B|lia]).
  destruct (mask_case _ i Hx ltac:(lia)) as (y & E1 & E2). rewrite E1. cbn [check].
  rewrite (fh_hamming_ok _ _ _ _ _ _ E0) by (rewrite !app_length, firstn_length, skipn_length; cbn [length]; lia).
  cbn [check fh_buffer]. rewrite byte_diffs_at by lia. rewrite E2. apply Nat.eqb_refl.
Qed.

Lemma hamming_wrong_length d : drawable d -> t_hamming_wrong_length d = true.
Proof.
  intros (K & S & C & Q). unfold t_hamming_wrong_length, frame. destruct (frame_eq _ _ _ _ K S C Q) as (j & n & Ej & P & E & B). rewrite E. reflexivity.
Qed.
Lemma length_test d : drawable d -> t_length d = true.
Proof.
  intros (K & S & C & Q). unfold t_length, frame. destruct (frame_eq _ _ _ _ K S C Q) as (j & n & Ej & P & E & B). rewrite E. cbn [check].
  unfold fh_msg_id, fh_length. cbn [fh_buffer nth]. rewrite (proj2 (payload_length_spec _ _) P). apply N.eqb_refl.
Qed.
Lemma bytes_eqb_refl b : bytes_eqb b b = true.
Proof. induction b; cbn; auto. rewrite N.eqb_refl. auto. Qed.
Lemma first_ids : exists i0 i1 r, msg_ids = i0 :: i1 :: r.
Proof.
  assert (L : Nat.leb 2 (length msg_ids) = true) by (vm_compute; reflexivity). destruct msg_ids as [|a [|b r]]; try discriminate. eauto.
Qed.
Lemma class_method s c q : in_byte s -> in_byte c -> in_byte q -> t_class_method s c q = true.
Proof.
  intros S C Q. destruct first_ids as (i0 & i1 & r & Em). unfold t_class_method.
  assert (K0 : known_id (nth 0 msg_ids 0%Z)) by (apply known_in, nth_In; rewrite Em; cbn; lia).
  assert (K1 : known_id (nth 1 msg_ids 0%Z)) by (apply known_in, nth_In; rewrite Em; cbn; lia).
  destruct (frame_eq _ _ _ _ K0 S C Q) as (j & n & Ej & P & E & B). pose proof E as E0. rewrite E. cbn [check]. cbv zeta.
  destruct (constructed_valid _ _ _ _ _ E0) as (_ & _ & R). rewrite R. cbn [check]. rewrite bytes_eqb_refl. cbn [andb].
  destruct (header_length_errors (firstn 2 (fh_buffer (FH [254%N; N.of_nat n; Z.to_N q; Z.to_N s; Z.to_N c; j])))) as (_ & R2 & _); [cbn; lia|].
  rewrite R2. cbn [raises exn_eqb andb]. destruct K1 as (i & n1 & P1 & E1). rewrite E1.
  assert (G : from_buffer (fh_buffer (FH [254%N; N.of_nat n; Z.to_N q; Z.to_N s; Z.to_N c; j])) (Some (Z.of_N i)) = Ok (FH [254%N; N.of_nat n1; Z.to_N q; Z.to_N s; Z.to_N c; i])).
  { apply from_buffer_ok; [exact B|]. split; [reflexivity|]. exists i, n1. rewrite N2Z.id. repeat split; auto. lia. }
  rewrite G. cbn [check]. unfold fh_msg_id. cbn. apply Z.eqb_refl.
Qed.

Lemma wrong_stx d : drawable d -> t_wrong_stx d = true.
Proof.
  intros (K & S & C & Q). unfold t_wrong_stx, frame. destruct (frame_eq _ _ _ _ K S C Q) as (j & n & Ej & P & E & B). rewrite E. reflexivity.
Qed.
Lemma non_existent d : drawable d -> t_non_existent_msg_id d = true.
Proof.
  intros (K & S & C & Q). unfold t_non_existent_msg_id, frame. destruct (frame_eq _ _ _ _ K S C Q) as (j & n & Ej & P & E & B).
  destruct possible_first as (r & ->). cbn [check]. rewrite E. cbn [check to_byte]. cbn [Z.leb Z.ltb Z.compare andb]. cbn [check].
  apply negb_true_iff, not_true_is_false. intro V. apply is_valid_header_spec in V. cbn in V. inversion V. eapply no_three; eauto.
Qed.
Lemma lengths_small : forallb (fun p : N * nat => (Nat.ltb 0 (snd p) && Nat.ltb (snd p) 128)%bool) msgs_payload_length = true.
Proof. vm_compute. reflexivity. Qed.
Lemma wrong_msg_length d : drawable d -> t_wrong_msg_length d = true.
Proof.
  intros (K & S & C & Q). unfold t_wrong_msg_length, frame. destruct (frame_eq _ _ _ _ K S C Q) as (j & n & Ej & P & E & B). rewrite E. cbn [check fh_buffer nth].
  pose proof lengths_small as Sm. rewrite forallb_forall in Sm. specialize (Sm (j, n) (proj2 (table_plen j n) P)). cbn [snd] in Sm.
  rewrite Z.shiftl_mul_pow2 by lia. unfold to_byte. replace ((0 <=? _) && _)%Z%bool with true by lia. cbn [check].
  apply negb_true_iff, not_true_is_false. intro V. apply is_valid_header_spec in V. cbn in V. inversion V; subst.
  match goal with H : plen j ?n' |- _ => pose proof (plen_fun _ _ _ P H) end. lia.
Qed.

Lemma byte_diffs_sym a b : length a = length b -> byte_diffs a b = byte_diffs b a.
Proof. intro L. rewrite !byte_diffs_diffs by auto. apply diffs_sym. rewrite !length_bytes_bits. lia. Qed.

Lemma nearest_frame i n q s c b0 b1 b5 : plen i n -> in_byte s -> in_byte c -> in_byte q ->
  let b := [b0; b1; Z.to_N q; Z.to_N s; Z.to_N c; b5] in is_bytes b ->
  let h := [254%N; N.of_nat n; Z.to_N q; Z.to_N s; Z.to_N c; i] in
  exists d j m, hamming_distance_2_valid_header b None = Ok (Z.of_nat d, Z.of_N j) /\ plen j m /\
    byte_diffs [254%N; N.of_nat m; Z.to_N q; Z.to_N s; Z.to_N c; j] b = d /\ d <= byte_diffs h b /\
    (b1 = N.of_nat n -> b5 = i -> d = byte_diffs h b /\ j = i).
Proof.
  intros P Hs Hc Hq b B h. destruct (nearest_header b B eq_refl) as (pre & k & post & d & h0 & Em & E & B0 & V0 & I0 & D0 & Mn & _ & _).
  inversion V0 as [m q0 s0 c0 j P0 Eh]. subst h0. cbn [nth] in I0. subst j.
  set (g := [254%N; N.of_nat m; Z.to_N q; Z.to_N s; Z.to_N c; mc_id k]).
  assert (Dg : byte_diffs b g = d).
  { apply Nat.le_antisymm; [|apply Mn; constructor; exact P0]. rewrite <- D0. unfold g. rewrite !header_distance by reflexivity.
    cbn [nth b]. rewrite byte_diffs_refl. lia. }
  assert (Dh : d <= byte_diffs b h) by (apply Mn; constructor; exact P).
  exists d, (mc_id k), m. split; [exact E|]. split; [exact P0|]. split; [rewrite byte_diffs_sym by reflexivity; exact Dg|].
  split; [rewrite byte_diffs_sym by reflexivity; exact Dh|]. intros -> ->.
  assert (Hh : byte_diffs b h = dstx b).
  { unfold h. rewrite header_distance by reflexivity. cbn [nth b]. rewrite byte_diffs_refl. unfold cand. cbn [fst snd].
    rewrite nat_N_Z, !int_diffs_refl. lia. }
  assert (Hg : d = dstx b + cand (N.of_nat n) i (mc_id k, m)).
  { rewrite <- Dg. unfold g. rewrite header_distance by reflexivity. cbn [nth b]. rewrite byte_diffs_refl. lia. }
  assert (Z0 : cand (N.of_nat n) i (mc_id k, m) = 0) by lia. unfold cand in Z0. cbn [fst snd] in Z0.
  split; [rewrite byte_diffs_sym by reflexivity; fold h; lia|]. apply int_diffs_zero; [| |lia].
  - apply (plen_bounds _ _ P0).
  - apply (plen_bounds _ _ P).
Qed.

Lemma corrupted_ok d f claim : drawable d ->
  (forall i n q s c, plen i n -> is_bytes [254%N; N.of_nat n; q; s; c; i] -> exists b0 b1 b5, f [254%N; N.of_nat n; q; s; c; i] = [b0; b1; q; s; c; b5] /\
     (b0 < 256)%N /\ (b1 < 256)%N /\ (b5 < 256)%N /\
     forall dist orig j, dist <= orig -> (b1 = N.of_nat n -> b5 = i -> dist = orig /\ j = i) ->
       Z.of_N i = dr_msg d -> claim (Z.of_nat dist) orig (Z.of_N j) = true) ->
  corrupted d f claim = true.
Proof.
  intros (K & S & C & Q) Hf. unfold corrupted, frame. destruct (frame_eq _ _ _ _ K S C Q) as (i & n & Ei & P & E & B). rewrite E. cbn [check]. cbv zeta. cbn [fh_buffer].
  destruct (Hf i n (Z.to_N (dr_seq d)) (Z.to_N (dr_sys d)) (Z.to_N (dr_comp d)) P B) as (b0 & b1 & b5 & Eb & B0 & B1 & B5 & Hc). rewrite Eb.
  assert (Bb : is_bytes [b0; b1; Z.to_N (dr_seq d); Z.to_N (dr_sys d); Z.to_N (dr_comp d); b5]).
  { unfold in_byte in *. repeat constructor; auto; lia. }
  rewrite hamming_bytes by reflexivity. cbn [check].
  destruct (nearest_frame i n (dr_seq d) (dr_sys d) (dr_comp d) b0 b1 b5 P S C Q Bb) as (dd & j & m & E1 & P1 & D1 & L1 & X1). rewrite E1. cbn [check fst snd].
  unfold fh_sys_id, fh_comp_id, fh_sequence. cbn [fh_buffer nth]. unfold in_byte in *. rewrite !Z2N.id by lia.
  assert (E2 : frame_header_init (Z.of_N j) (dr_sys d) (dr_comp d) (dr_seq d) = Ok (FH [254%N; N.of_nat m; Z.to_N (dr_seq d); Z.to_N (dr_sys d); Z.to_N (dr_comp d); j])).
  { apply frame_header_ok. unfold in_byte. repeat split; try lia. exists m. rewrite N2Z.id. auto. }
  pose proof E2 as E2'. rewrite E2. cbn [check]. rewrite (fh_hamming_ok _ _ _ _ _ _ E2') by reflexivity. cbn [check fh_buffer]. rewrite D1, Z.eqb_refl. cbn [andb].
  apply Hc; auto.
Qed.
Lemma corrupted_tests rounds : Forall (fun p => drawable (fst p) /\ in_byte (snd p)) rounds ->
  t_corrupted_msg_id rounds = true /\ t_corrupted_len rounds = true /\ t_corrupted_stx rounds = true.
Proof.
  intro H. rewrite Forall_forall in H. repeat split; apply forallb_all; intros [d z] Hp; destruct (H _ Hp) as [D Z]; cbn [fst snd] in *; unfold in_byte in Z;
    apply corrupted_ok; auto; intros i n q s c P B; pose proof (plen_bounds _ _ P); cbn [firstn skipn app nth].
  - exists 254%N, (N.of_nat n), (Z.to_N z). repeat split; try lia.
  - exists 254%N, (Z.to_N z), i. repeat split; try lia.
  - exists (Z.to_N z), (N.of_nat n), i. repeat split; try lia.
Qed.
Lemma valid_headers draw : (forall i, let '(s, c, q) := draw i in in_byte s /\ in_byte c /\ in_byte q) -> t_valid_headers draw = true.
Proof.
  intro H. apply forallb_all. intros z Hz. apply known_in in Hz. specialize (H z). destruct (draw z) as [[s c] q]. destruct H as (S & C & Q).
  destruct (frame_eq _ _ _ _ Hz S C Q) as (i & n & Ei & P & E & B). rewrite E. cbn [check fh_buffer].
  destruct (nearest_frame i n q s c 254%N (N.of_nat n) i P S C Q B) as (d & j & m & E1 & _ & _ & _ & X). destruct (X eq_refl eq_refl) as [X1 X2].
  rewrite E1. cbn [check fst snd]. rewrite X1, byte_diffs_refl, X2, Ei. apply (Z.eqb_refl (Z.of_N i)).
Qed.
