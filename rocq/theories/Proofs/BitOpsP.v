(** Proofs about Model/BitOps.v. *)
From Coq Require Import List NArith ZArith Bool Lia Permutation ZifyBool ZifyNat ZifyN.
From Verif.Model Require Import Py BitOps.
From Verif.Spec Require Import Bits.
From Verif.Proofs Require Import Base.
Import ListNotations.

Lemma filter_ext_in_len {A} (f g : A -> bool) l :
  (forall x, In x l -> f x = g x) -> length (filter f l) = length (filter g l).
Proof. intros H; f_equal; apply filter_ext_in; auto. Qed.

Lemma filter_map_len {A B} (f : B -> bool) (g : A -> B) l :
  length (filter f (map g l)) = length (filter (fun x => f (g x)) l).
Proof. induction l; simpl; auto. destruct (f (g a)); simpl; auto. Qed.

Lemma Permutation_filter_length {A} (f : A -> bool) l l' :
  Permutation l l' -> length (filter f l) = length (filter f l').
Proof.
  induction 1; simpl; auto; repeat (destruct (f _); simpl); try congruence; try lia.
Qed.

Lemma filter_cons_len {A} (f : A -> bool) x l :
  length (filter f (x :: l)) = (if f x then 1 else 0) + length (filter f l).
Proof. simpl. destruct (f x); reflexivity. Qed.

Lemma filter_length_le {A} (f : A -> bool) l : length (filter f l) <= length l.
Proof. induction l; simpl; auto. destruct (f a); simpl; lia. Qed.

Lemma map_nth_seq {A} (r : list A) d : map (fun i => nth i r d) (seq 0 (length r)) = r.
Proof.
  induction r; simpl; auto. f_equal. rewrite <- seq_shift, map_map. auto.
Qed.

Lemma filter_nth {A} (f : A -> bool) r d :
  length (filter f r) = length (filter (fun i => f (nth i r d)) (seq 0 (length r))).
Proof. rewrite <- (map_nth_seq r d) at 1. apply filter_map_len. Qed.

Lemma diffs_cons a b x y : diffs (a :: x) (b :: y) = (if xorb a b then 1 else 0) + diffs x y.
Proof.
  unfold diffs. change (length (a :: x)) with (S (length x)). change (seq 0 (S (length x))) with (0 :: seq 1 (length x)).
  rewrite <- seq_shift, filter_cons_len, filter_map_len. simpl nth. destruct a, b; reflexivity.
Qed.

Lemma xor_count_diffs x y : length x = length y -> xor_count x y = diffs x y.
Proof.
  revert y; induction x as [|a x]; intros [|b y] H; simpl in H; try discriminate; auto.
  rewrite diffs_cons. simpl. rewrite IHx by lia. reflexivity.
Qed.

Lemma length_bytes_bits b : length (bytes_bits b) = 8 * length b.
Proof. induction b; auto. unfold bytes_bits in *. cbn [flat_map]. rewrite app_length, IHb. simpl; lia. Qed.

Lemma nth_byte_bits a i : i < 8 -> nth i (byte_bits a) false = N.testbit a (N.of_nat (7 - i)).
Proof. intros H. do 8 (destruct i; [reflexivity|]). lia. Qed.

Lemma nth_bytes_bits b i : i < 8 * length b -> nth i (bytes_bits b) false = bit_of b i.
Proof.
  revert i; induction b as [|a b]; intros i H; [simpl in H; lia|].
  unfold bytes_bits. cbn [flat_map]. fold (bytes_bits b).
  assert (L8 : length (byte_bits a) = 8) by reflexivity.
  destruct (Nat.lt_ge_cases i 8).
  - rewrite app_nth1 by lia. rewrite nth_byte_bits by auto.
    unfold bit_of. rewrite Nat.div_small, Nat.mod_small by auto. reflexivity.
  - rewrite app_nth2 by lia. rewrite L8. rewrite IHb by (simpl in H; lia).
    unfold bit_of.
    assert (E : i = (i - 8) + 1 * 8) by lia.
    rewrite E at 3 4. rewrite Nat.div_add, Nat.mod_add by lia.
    replace ((i - 8) / 8 + 1) with (S ((i - 8) / 8)) by lia. reflexivity.
Qed.

Lemma uint_bits_ok z n x :
  uint_bits z n = Ok x <->
  0 < n /\ (0 <= z < 2 ^ Z.of_nat n)%Z /\ length x = n /\
  (forall i, i < n -> nth i x false = Z.testbit z (Z.of_nat (n - 1 - i))).
Proof.
  unfold uint_bits.
  assert (L : length (map (fun i => Z.testbit z (Z.of_nat i)) (rev (seq 0 n))) = n)
    by (rewrite map_length, rev_length, seq_length; auto).
  assert (V : forall i, i < n ->
      nth i (map (fun i => Z.testbit z (Z.of_nat i)) (rev (seq 0 n))) false = Z.testbit z (Z.of_nat (n - 1 - i))).
  { intros i H.
    rewrite nth_indep with (d' := Z.testbit z (Z.of_nat 0)) by (rewrite L; auto).
    rewrite (map_nth (fun i => Z.testbit z (Z.of_nat i))).
    rewrite rev_nth by (rewrite seq_length; auto). rewrite seq_length, seq_nth by lia.
    f_equal. lia. }
  destruct (_ && _)%bool eqn:E; split; intros H.
  - inv H. repeat split; auto; lia.
  - destruct H as (H1 & H2 & H3 & H4). f_equal. apply nth_ext_eq with (d := false); [lia|].
    intros i Hi. rewrite L in Hi. rewrite V, H4; auto.
  - discriminate.
  - lia.
Qed.

Lemma uint_bits_err z n e :
  uint_bits z n = Err e -> e = CreationError.
Proof. unfold uint_bits. destruct (_ && _)%bool; intros H; inv H; auto. Qed.

Definition conv (n : nat) (a : hd_arg) : res hd_arg := bind (conv_int n (conv_bytes a)) (fun a => Ok (conv_array a)).

Lemma conv_denotes n a x : conv n a = Ok (HBits x) <-> denotes n a x.
Proof.
  split; intros H.
  - destruct a; unfold conv in H; simpl in H.
    + inv H. constructor.
    + inv H. constructor; rewrite length_bytes_bits; auto. intros; apply nth_bytes_bits; auto.
    + destruct (uint_bits z n) eqn:E; simpl in H; inv H.
      apply uint_bits_ok in E. destruct E as (? & ? & ? & ?). constructor; auto.
    + inv H. constructor; [apply map_length|].
      intros i Hi. rewrite nth_indep with (d' := (fun z => negb (z =? 0)%Z) 0%Z) by (rewrite map_length; auto).
      rewrite (map_nth (fun z => negb (z =? 0)%Z)). reflexivity.
    + discriminate.
  - inv H; unfold conv; simpl; auto.
    + do 2 f_equal. apply nth_ext_eq with (d := false); [rewrite length_bytes_bits; auto|].
      intros i Hi. rewrite nth_bytes_bits by (rewrite length_bytes_bits in Hi; auto). rewrite length_bytes_bits in Hi.
      symmetry; apply H1; lia.
    + assert (E : uint_bits z (length x) = Ok x) by (apply uint_bits_ok; auto). rewrite E. reflexivity.
    + do 2 f_equal. apply nth_ext_eq with (d := false); [rewrite map_length; auto|].
      intros i Hi. rewrite map_length in Hi. rewrite H1 by auto.
      rewrite nth_indep with (d' := (fun z => negb (z =? 0)%Z) 0%Z) by (rewrite map_length; auto).
      rewrite (map_nth (fun z => negb (z =? 0)%Z)). reflexivity.
Qed.

Lemma denotes_fun n a x y : denotes n a x -> denotes n a y -> x = y.
Proof. intros H1 H2. apply conv_denotes in H1, H2. congruence. Qed.

Lemma conv_cases n a :
  (exists x, conv n a = Ok (HBits x)) \/ (conv n a = Ok HOther /\ a = HOther) \/
  (conv n a = Err CreationError /\ exists z, a = HInt z /\ (n = 0 \/ (z < 0)%Z \/ (2 ^ Z.of_nat n <= z)%Z)).
Proof.
  destruct a; unfold conv; simpl; eauto.
  destruct (uint_bits z n) eqn:E; simpl; eauto.
  right; right. pose proof (uint_bits_err _ _ _ E); subst. split; auto. exists z; split; auto.
  unfold uint_bits in E. destruct (_ && _)%bool eqn:E1; [discriminate|]. lia.
Qed.

Lemma hamming_unfold a b n :
  hamming_distance a b n =
  bind (conv n a) (fun a' => bind (conv n b) (fun b' =>
    match a', b' with
    | HBits x, HBits y => if Nat.eqb (length x) (length y) then Ok (xor_count x y) else Err ValueError
    | _, _ => Err TypeError
    end)).
Proof.
  unfold hamming_distance, conv.
  destruct (conv_int n (conv_bytes a)); simpl; auto.
  destruct (conv_int n (conv_bytes b)); simpl; auto.
Qed.

Lemma hamming_spec a b n d :
  hamming_distance a b n = Ok d <->
  exists x y, denotes n a x /\ denotes n b y /\ length x = length y /\ d = diffs x y.
Proof.
  rewrite hamming_unfold. split; intros H.
  - apply bind_ok in H; destruct H as (a' & Ha & H). apply bind_ok in H; destruct H as (b' & Hb & H).
    destruct a' as [x| | | |]; try discriminate. destruct b' as [y| | | |]; try discriminate.
    destruct (Nat.eqb_spec (length x) (length y)); inv H.
    exists x, y. rewrite <- !conv_denotes. rewrite xor_count_diffs; auto.
  - destruct H as (x & y & Hx & Hy & L & E). apply conv_denotes in Hx, Hy. rewrite Hx, Hy. simpl.
    rewrite L, Nat.eqb_refl, E, xor_count_diffs; auto.
Qed.

Lemma hamming_errors a b n e :
  hamming_distance a b n = Err e ->
  (e = CreationError /\ exists z, (a = HInt z \/ b = HInt z) /\ (n = 0 \/ (z < 0)%Z \/ (2 ^ Z.of_nat n <= z)%Z)) \/
  (e = TypeError /\ (a = HOther \/ b = HOther)) \/
  (e = ValueError /\ exists x y, denotes n a x /\ denotes n b y /\ length x <> length y).
Proof.
  rewrite hamming_unfold. intros H.
  destruct (conv_cases n a) as [(x & E)|[(E & ->)|(E & z & -> & Hz)]]; rewrite E in H; simpl in H.
  - destruct (conv_cases n b) as [(y & E')|[(E' & ->)|(E' & z & -> & Hz)]]; rewrite E' in H; simpl in H.
    + destruct (Nat.eqb_spec (length x) (length y)); inv H. right; right. split; auto.
      exists x, y. rewrite <- !conv_denotes; auto.
    + inv H; auto.
    + inv H. left; split; auto. exists z; auto.
  - destruct (conv_cases n b) as [(y & E')|[(E' & ->)|(E' & z & -> & Hz)]]; rewrite E' in H; simpl in H.
    + inv H; auto.
    + inv H; auto.
    + inv H. left; split; auto. exists z; auto.
  - inv H. left; split; auto. exists z; auto.
Qed.

(** metric facts on diffs *)
Lemma diffs_refl x : diffs x x = 0.
Proof. induction x as [|a x]; auto. rewrite diffs_cons, IHx, xorb_nilpotent. reflexivity. Qed.
Lemma diffs_sym x y : length x = length y -> diffs x y = diffs y x.
Proof.
  revert y; induction x as [|a x]; intros [|b y] H; simpl in H; try discriminate; auto.
  rewrite !diffs_cons, IHx, xorb_comm by lia. reflexivity.
Qed.
Lemma diffs_zero x y : length x = length y -> diffs x y = 0 -> x = y.
Proof.
  revert y; induction x as [|a x]; intros [|b y] H; simpl in H; try discriminate; auto.
  rewrite diffs_cons. intros E. destruct a, b; simpl in E; try discriminate; f_equal; apply IHx; auto; lia.
Qed.
Lemma diffs_triangle x y z : length x = length y -> length y = length z -> diffs x z <= diffs x y + diffs y z.
Proof.
  revert y z; induction x as [|a x]; intros [|b y] [|c z] H1 H2; simpl in H1, H2; try discriminate; auto.
  rewrite !diffs_cons. specialize (IHx y z ltac:(lia) ltac:(lia)).
  destruct a, b, c; simpl; lia.
Qed.
Lemma diffs_le x y : diffs x y <= length x.
Proof. unfold diffs. rewrite <- (seq_length (length x) 0) at 2. apply filter_length_le. Qed.

Lemma hamming_bytes a b n : length a = length b -> hamming_distance (HBytes a) (HBytes b) n = Ok (byte_diffs a b).
Proof.
  intros L. apply hamming_spec. exists (bytes_bits a), (bytes_bits b).
  split; [|split; [|split]].
  - constructor; rewrite length_bytes_bits; auto. intros; apply nth_bytes_bits; auto.
  - constructor; rewrite length_bytes_bits; auto. intros; apply nth_bytes_bits; auto.
  - rewrite !length_bytes_bits; lia.
  - unfold diffs, byte_diffs. rewrite length_bytes_bits. apply filter_ext_in_len.
    intros i Hi. apply in_seq in Hi. rewrite !nth_bytes_bits by lia. reflexivity.
Qed.

Lemma hamming_ints a b n :
  0 < n -> (0 <= a < 2 ^ Z.of_nat n)%Z -> (0 <= b < 2 ^ Z.of_nat n)%Z ->
  hamming_distance (HInt a) (HInt b) n = Ok (int_diffs n a b).
Proof.
  intros Hn Ha Hb.
  assert (U : forall z, (0 <= z < 2 ^ Z.of_nat n)%Z ->
     denotes n (HInt z) (map (fun i => Z.testbit z (Z.of_nat i)) (rev (seq 0 n)))).
  { intros z Hz. apply conv_denotes. unfold conv; simpl. unfold uint_bits.
    replace (_ && _)%bool with true by (symmetry; lia). reflexivity. }
  apply hamming_spec. do 2 eexists. split; [|split; [|split]]; [apply U; auto..| |].
  - rewrite !map_length; auto.
  - unfold diffs, int_diffs. rewrite map_length, rev_length, seq_length.
    rewrite (Permutation_filter_length _ _ _ (Permutation_rev (seq 0 n))).
    set (r := rev (seq 0 n)).
    assert (Lr : length r = n) by (unfold r; rewrite rev_length, seq_length; auto).
    rewrite (filter_nth _ r 0), Lr.
    apply filter_ext_in_len. intros i Hi. apply in_seq in Hi.
    assert (N : forall z, nth i (map (fun i => Z.testbit z (Z.of_nat i)) r) false = Z.testbit z (Z.of_nat (nth i r 0))).
    { intros z. rewrite nth_indep with (d' := Z.testbit z (Z.of_nat 0)) by (rewrite map_length; lia).
      apply (map_nth (fun i => Z.testbit z (Z.of_nat i))). }
    rewrite !N. reflexivity.
Qed.
