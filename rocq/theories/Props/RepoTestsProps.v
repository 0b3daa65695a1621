(** C120: the tests of the repository pass whatever they draw, but for one. *)
From Coq Require Import String Ascii List NArith ZArith Reals Bool Lia.
From Verif.Model Require Import Py BitOps MsgHeader Segmentation Mavlink Float InfoTheory RepoTests.
From Verif.Spec Require Import Bytes Header RealOps Info RepoTestsSpec.
From Verif.Proofs Require Import HeaderP RepoTestsP RepoInfoP.
Import ListNotations.
Local Open Scope list_scope.
Local Notation length := List.length.

(** What an assertion demands: a value that meets it, or an exception of the class or of a subclass; and equality of the values compared. *)
Theorem c120_assertions :
  (forall A (r : res A) p, check r p = true <-> exists a, r = Ok a /\ p a = true) /\
  (forall A (r : res A) e, In e [TypeError; ValueError; HeaderLength; NonExistentMsdId; NonUint8; UnsupportedDtype] ->
     (raises e r = true <-> r = Err e \/ e = ValueError /\ r = Err CreationError)) /\
  (forall a b d, distance_is a b d = true <-> hamming_distance a b 8 = Ok d) /\
  (forall a b, bytes_eqb a b = true <-> a = b) /\ (forall a b, zs_eqb a b = true <-> a = b) /\
  (forall a b t, close Rops a b t = true <-> (Rabs (a - b) <= t)%R).
Proof.
  assert (C : forall A (r : res A) p, check r p = true <-> exists a, r = Ok a /\ p a = true).
  { intros A [a|e] p; cbn; split; [eauto|intros (x & E & H); inversion E; subst; exact H|discriminate|intros (x & E & _); discriminate]. }
  split; [exact C|]. split.
  - intros A [a|e'] e H; cbn [raises]; [split; [discriminate|intros [E|[_ E]]; discriminate]|].
    cbn in H. destruct H as [<-|[<-|[<-|[<-|[<-|[<-|[]]]]]]]; destruct e'; cbn; split; intro E; try discriminate; auto;
      destruct E as [E|[E' E]]; try discriminate; reflexivity.
  - split; [intros a b d; unfold distance_is; rewrite C; split; [intros (x & E & H); apply Nat.eqb_eq in H; subst; exact E|intro E; exists d; split; [exact E|apply Nat.eqb_refl]]|].
    split; [|split; [|exact close_R]].
    + induction a as [|x a IH]; intros [|y b]; cbn; try (split; [discriminate|discriminate]); [tauto|]. rewrite andb_true_iff, N.eqb_eq, IH. split; [intros [-> ->]; reflexivity|intro E; inversion E; auto].
    + induction a as [|x a IH]; intros [|y b]; cbn; try (split; [discriminate|discriminate]); [tauto|]. rewrite andb_true_iff, Z.eqb_eq, IH. split; [intros [-> ->]; reflexivity|intro E; inversion E; auto].
Qed.
Print Assumptions c120_assertions.

(** tests/test_bit_operations.py, for every draw. *)
Theorem c120_bits : forall rounds rounds' a z,
  Forall (Forall (fun ls => length ls = 128)) rounds' -> in_byte z ->
  t_same_bitstrings rounds = true /\ t_different_bitstrings rounds' = true /\ t_byte_args a = true /\ t_uint8_args z = true /\ t_wrong_types = true.
Proof.
  intros rounds rounds' a z H Z. split; [apply same_bitstrings|]. split; [apply different_bitstrings; exact H|]. split; [apply byte_args|].
  split; [apply uint8_args; exact Z|reflexivity].
Qed.
Print Assumptions c120_bits.

(** The values of rand_msg are the known ids. *)
Theorem c120_rand_msg : forall z, In z msg_ids <-> known_id z.
Proof. intro z. symmetry. apply known_in. Qed.
Print Assumptions c120_rand_msg.

(** TestFrameHeader, for every draw. *)
Theorem c120_frame_header : forall d1 d2 d3 ds, drawable d1 -> drawable d2 -> drawable d3 -> Forall drawable ds ->
  t_wrong_msg_id d1 d2 d3 = true /\ t_wrong_sys_id d1 d2 = true /\ t_wrong_comp_id d1 d2 = true /\ t_wrong_seq d1 d2 = true /\
  t_hamming ds = true /\ t_hamming_wrong_length d1 = true /\ t_length d1 = true /\ t_class_method (dr_sys d1) (dr_comp d1) (dr_seq d1) = true.
Proof.
  intros d1 d2 d3 ds H1 H2 H3 H. destruct (wrong_ids _ _ _ H1 H2 H3) as (A & B & C & D). repeat (split; [assumption|]).
  split; [apply hamming_test; exact H|]. split; [apply hamming_wrong_length; exact H1|]. split; [apply length_test; exact H1|].
  destruct H1 as (_ & S & P & Q). apply class_method; assumption.
Qed.
Print Assumptions c120_frame_header.

(** TestIsValidHeader, for every draw. *)
Theorem c120_is_valid_header : forall d, drawable d ->
  t_wrong_stx d = true /\ t_non_existent_msg_id d = true /\ t_wrong_msg_length d = true /\ t_valid_wrong_length = true.
Proof.
  intros d H. split; [apply wrong_stx; exact H|]. split; [apply non_existent; exact H|]. split; [apply wrong_msg_length; exact H|reflexivity].
Qed.
Print Assumptions c120_is_valid_header.

(** TestDistanceToValidHeader, for every draw and any number of rounds. *)
Theorem c120_distance : forall draw rounds,
  (forall i, let '(s, c, q) := draw i in in_byte s /\ in_byte c /\ in_byte q) -> Forall (fun p => drawable (fst p) /\ in_byte (snd p)) rounds ->
  t_valid_headers draw = true /\ t_corrupted_msg_id rounds = true /\ t_corrupted_len rounds = true /\ t_corrupted_stx rounds = true /\
  t_distance_wrong_length = true.
Proof.
  intros draw rounds H R. destruct (corrupted_tests _ R) as (A & B & C). split; [apply valid_headers; exact H|]. repeat (split; [assumption|]). reflexivity.
Qed.
Print Assumptions c120_distance.

(** tests/test_buffer_segmentation.py and tests/test_buffer_structure.py, whatever bytes.decode makes of text fields. *)
Theorem c120_buffers : forall text,
  t_segment_buffer text = true /\ t_bad_buffer_parts text = true /\ t_bad_buffer_idx text = true /\
  t_equality = true /\ t_register_buffer = true /\ t_adheres = true /\ t_len = true.
Proof. intro text. repeat split; vm_compute; reflexivity. Qed.
Print Assumptions c120_buffers.

(** tests/test_information_theory.py in exact arithmetic, without test_probability. *)
Theorem c120_information : forall rows l, length rows = 10 ->
  t_unsupported_dtype Rops = true /\ t_multi_dimension Rops rows = true /\ t_one_dimension Rops l = true /\ t_incompatible_dim Rops = true /\
  t_alphabet Rops = true /\ t_entropy Rops = true /\ t_zero_mass Rops = true /\ t_illegal Rops = true /\ t_cardinality Rops = true.
Proof.
  intros rows l H. destruct (dims Rops rows l H) as [A B]. destruct entropy_tests as [C D]. pose proof illegal. pose proof cardinality.
  repeat (split; [first [assumption|reflexivity]|]). assumption.
Qed.
Print Assumptions c120_information.

(** Those that compare no numbers pass in any arithmetic, so also with rounding. *)
Theorem c120_any_arithmetic : forall (FO : fops) rows l, length rows = 10 ->
  t_unsupported_dtype FO = true /\ t_multi_dimension FO rows = true /\ t_one_dimension FO l = true /\ t_incompatible_dim FO = true /\ t_alphabet FO = true.
Proof. intros FO rows l H. destruct (dims FO rows l H) as [A B]. repeat (split; [first [assumption|reflexivity]|]). reflexivity. Qed.
Print Assumptions c120_any_arithmetic.

(** test_probability passes exactly when each of the five letters makes up between 19.9% and 20.1% of the draws. *)
Theorem c120_probability : forall l, Forall (fun v => (0 <= v < 5)%Z) l ->
  (t_probability Rops l = true <->
   l <> [] /\ forall v, (0 <= v < 5)%Z -> (199 * Z.of_nat (length l) <= 1000 * Z.of_nat (occurrences l v) <= 201 * Z.of_nat (length l))%Z).
Proof. exact probability_iff. Qed.
Print Assumptions c120_probability.

(** So there are ten million draws on which it fails. *)
Theorem c120_probability_refuted : exists l, Z.of_nat (length l) = 10000000%Z /\ Forall (fun v => (0 <= v < 5)%Z) l /\ t_probability Rops l = false.
Proof.
  exists (repeat 0%Z (Z.to_nat 10000000)). split; [rewrite repeat_length; apply Z2Nat.id; lia|].
  split; [apply Forall_forall; intros x Hx; apply repeat_spec in Hx; lia|apply probability_fails].
Qed.
Print Assumptions c120_probability_refuted.

Example c120_ex_drawable : drawable (Drawn 33 0 255 7) /\ ~ known_id 3.
Proof.
  split.
  - repeat split; try (cbn; lia). apply known_in. vm_compute. tauto.
  - rewrite known_in. intro H. assert (E : existsb (Z.eqb 3) msg_ids = true) by (apply existsb_exists; exists 3%Z; auto). vm_compute in E. discriminate.
Qed.
Example c120_ex_assertions : raises ValueError (uint_bits 256 8) = true /\ raises TypeError (uint_bits 256 8) = false /\ raises ValueError (uint_bits 255 8) = false.
Proof. vm_compute. auto. Qed.
Example c120_ex_hamming : t_hamming (map (fun i => Drawn i 0 255 7) [0; 1; 2; 30; 33; 234]%Z) = true.
Proof. vm_compute. reflexivity. Qed.
Example c120_ex_different : t_different_bitstrings [repeat (repeat 1%Z 128) 9] = true.
Proof. vm_compute. reflexivity. Qed.
Example c120_ex_corrupted : t_corrupted_stx [(Drawn 33 0 255 7, 1%Z); (Drawn 0 1 2 3, 254%Z)] = true /\
  t_corrupted_len [(Drawn 33 0 255 7, 45%Z)] = true.
Proof. vm_compute. auto. Qed.
(** Fifty draws, ten of each letter, pass; a sample where a letter is missing does not. *)
Example c120_ex_probability : t_probability Rops (flat_map (fun v => repeat v 10) [0; 1; 2; 3; 4]%Z) = true /\
  t_probability Rops (flat_map (fun v => repeat v 10) [0; 1; 2; 3]%Z) = false.
Proof.
  assert (R : forall k, (forall v, In v k -> (0 <= v < 5)%Z) -> Forall (fun v => (0 <= v < 5)%Z) (flat_map (fun v => repeat v 10) k)).
  { intros k H. apply Forall_forall. intros x Hx. apply in_flat_map in Hx. destruct Hx as (v & Hv & Hx). apply repeat_spec in Hx. subst. auto. }
  split.
  - apply c120_probability; [apply R; intros v Hv; cbn in Hv; intuition lia|]. split; [discriminate|]. intros v Hv.
    assert (C : (v = 0 \/ v = 1 \/ v = 2 \/ v = 3 \/ v = 4)%Z) by lia. destruct C as [-> | [-> | [-> | [-> | ->]]]]; vm_compute; split; discriminate.
  - apply not_true_is_false. intro H. apply c120_probability in H; [|apply R; intros v Hv; cbn in Hv; intuition lia].
    destruct H as [_ H]. specialize (H 4%Z ltac:(lia)). vm_compute in H. destruct H as [H _]. apply H. reflexivity.
Qed.
