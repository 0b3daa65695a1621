(** Proofs about Model/Struct.v: sizes and pack/unpack round trips. *)
From Coq Require Import String Ascii List NArith ZArith Bool Lia ZifyBool ZifyNat ZifyN.
From Verif.Model Require Import Py Struct.
From Verif.Spec Require Import Bytes.
From Verif.Proofs Require Import Base.
Import ListNotations.

Ltac Zify.zify_post_hook ::= Z.div_mod_to_equations.

Lemma length_le_bytes n v : length (le_bytes n v) = n.
Proof. revert v; induction n; simpl; auto. Qed.

Lemma le_bytes_is_bytes n v : is_bytes (le_bytes n v).
Proof. revert v; induction n; intros v; constructor; [|apply IHn]. apply N.mod_lt. lia. Qed.

Lemma le_val_le_bytes n : forall v, (v < 256 ^ N.of_nat n)%N -> le_val (le_bytes n v) = v.
Proof.
  induction n; intros v H.
  - simpl in *. lia.
  - rewrite Nat2N.inj_succ, N.pow_succ_r' in H. cbn [le_bytes le_val].
    rewrite IHn; [|apply N.div_lt_upper_bound; lia]. rewrite (N.div_mod v 256) at 3 by lia. lia.
Qed.

Lemma le_val_bound l : is_bytes l -> (le_val l < 256 ^ N.of_nat (length l))%N.
Proof.
  induction 1; [simpl; lia|]. cbn [le_val length]. rewrite Nat2N.inj_succ, N.pow_succ_r'. nia.
Qed.

Lemma le_bytes_le_val l : is_bytes l -> le_bytes (length l) (le_val l) = l.
Proof.
  induction 1 as [|b l Hb Hl IH]; auto. cbn [le_val length le_bytes]. f_equal.
  - rewrite N.mul_comm, N.mod_add by lia. apply N.mod_small; auto.
  - rewrite N.add_comm, N.mul_comm, N.div_add_l by lia. rewrite N.div_small by auto. rewrite N.add_0_r. exact IH.
Qed.

Lemma le_val_inj a b : is_bytes a -> is_bytes b -> length a = length b -> le_val a = le_val b -> a = b.
Proof.
  intros Ha Hb L E. rewrite <- (le_bytes_le_val a Ha), <- (le_bytes_le_val b Hb), L, E. reflexivity.
Qed.

(** Number of Python values produced by one format item. *)
Definition nvals (it : nat * ascii) : nat := if Ascii.eqb (snd it) "s" then 1 else fst it.

Lemma length_unpack_rep n c sz b : length (unpack_rep n c sz b) = n.
Proof. revert b; induction n; simpl; auto. Qed.

Lemma unpack_item_eq it b :
  unpack_item it b = if Ascii.eqb (snd it) "s" then [VBytes (firstn (fst it) b)]
                     else unpack_rep (fst it) (snd it) (match char_size (snd it) with Some k => k | None => 0 end) b.
Proof. destruct it as [n [[] [] [] [] [] [] [] []]]; reflexivity. Qed.

Lemma pack_item_eq it vs :
  pack_item it vs = if Ascii.eqb (snd it) "s"
                    then match vs with
                         | VBytes b :: t => Ok (firstn (fst it) b ++ repeat 0%N (fst it - length b), t)
                         | _ => Err StructError end
                    else pack_rep (fst it) (snd it) vs.
Proof. destruct it as [n [[] [] [] [] [] [] [] []]]; reflexivity. Qed.

Lemma length_unpack_item it b : length (unpack_item it b) = nvals it.
Proof. rewrite unpack_item_eq. unfold nvals. destruct (Ascii.eqb _ _); auto. apply length_unpack_rep. Qed.

Lemma length_unpack_items l b : length (unpack_items l b) = list_sum (map nvals l).
Proof.
  revert b; induction l; intros b; [reflexivity|]. cbn [unpack_items map]. rewrite app_length, length_unpack_item, IHl. reflexivity.
Qed.

(** A value as Python holds it: float patterns have 32 bits, bytes are bytes. *)
Definition val_wf (v : pyval) : Prop :=
  match v with VInt _ => True | VF32 p => (p < 2 ^ 32)%N | VBytes b => is_bytes b end.

Lemma pow256 n : (256 ^ N.of_nat n)%N = Z.to_N (2 ^ (8 * Z.of_nat n)).
Proof.
  replace (2 ^ (8 * Z.of_nat n))%Z with (Z.of_N (256 ^ N.of_nat n)); [lia|].
  rewrite N2Z.inj_pow, nat_N_Z. change (Z.of_N 256) with (2 ^ 8)%Z. rewrite <- Z.pow_mul_r by lia. reflexivity.
Qed.

Lemma pack_one_ok c v b : pack_one c v = Ok b -> val_wf v ->
  exists n, char_size c = Some n /\ length b = n /\ is_bytes b /\ (c <> "s"%char -> unpack_one c b = v).
Proof.
  unfold pack_one. destruct (char_size c) as [n|] eqn:EC; [|discriminate]. intros H W. exists n. split; auto.
  assert (P : (0 < 2 ^ (8 * Z.of_nat n))%Z) by (apply Z.pow_pos_nonneg; lia).
  destruct (char_unsigned c) eqn:EU.
  - destruct v; try discriminate. destruct (_ && _)%bool eqn:EB; inv H.
    split; [apply length_le_bytes|]. split; [apply le_bytes_is_bytes|]. intros _. unfold unpack_one. rewrite EU.
    rewrite le_val_le_bytes; [f_equal; lia|]. rewrite pow256. lia.
  - destruct (char_signed c) eqn:ES.
    + destruct v; try discriminate. set (m := (2 ^ (8 * Z.of_nat n))%Z) in *.
      destruct (_ && _)%bool eqn:EB; [|discriminate]. injection H as H. subst b.
      split; [apply length_le_bytes|]. split; [apply le_bytes_is_bytes|]. intros _. unfold unpack_one. rewrite EU, ES.
      rewrite length_le_bytes. fold m.
      assert (M0 : (0 <= z mod m < m)%Z) by (apply Z.mod_pos_bound; auto).
      rewrite le_val_le_bytes by (rewrite pow256; fold m; apply Z2N.inj_lt; try apply M0; apply Z.lt_le_incl; exact P).
      f_equal. rewrite Z2N.id by apply M0.
      assert (Hm2 : (m = 2 * (m / 2))%Z).
      { destruct n as [|n].
        - exfalso. clear -EC EU ES. destruct c as [[] [] [] [] [] [] [] []]; discriminate.
        - unfold m. replace (8 * Z.of_nat (S n))%Z with (1 + (8 * Z.of_nat n + 7))%Z by lia.
          rewrite Z.pow_add_r by lia. change (2 ^ 1)%Z with 2%Z. rewrite (Z.mul_comm 2), Z.div_mul by lia. lia. }
      clearbody m. cbv zeta.
      assert (Hz : (- (m / 2) <= z < m / 2)%Z) by lia. clear EB.
      set (k := (m / 2)%Z) in *. clearbody k.
      destruct (Z_lt_le_dec z 0).
      * assert (E : (z mod m = z + m)%Z) by (symmetry; apply Z.mod_unique with (q := (-1)%Z); lia).
        rewrite E. destruct (Z.ltb_spec (2 * (z + m)) m); lia.
      * rewrite Z.mod_small by lia. destruct (Z.ltb_spec (2 * z) m); lia.
    + destruct c as [[] [] [] [] [] [] [] []]; try discriminate; destruct v; try discriminate.
      * destruct b0 as [|x [|]]; inv H. simpl in EC. inv EC. simpl in W. repeat split; auto.
      * assert (Hb : b = le_bytes 4 pattern) by congruence. subst b. clear H. injection EC as <-. split; [apply length_le_bytes|]. split; [apply le_bytes_is_bytes|]. intros _.
        unfold unpack_one. rewrite EU, ES. f_equal. apply le_val_le_bytes. exact W.
Qed.

Lemma pack_rep_ok n c vs b t : pack_rep n c vs = Ok (b, t) -> Forall val_wf vs -> c <> "s"%char ->
  exists sz us, (n = 0 \/ char_size c = Some sz) /\ vs = us ++ t /\ length us = n /\ length b = n * sz /\ is_bytes b /\
    forall rest, unpack_rep n c sz (b ++ rest) = us.
Proof.
  revert vs b t; induction n; intros vs b t H W NS; simpl in H.
  - inv H. exists 0, []. repeat split; auto. constructor.
  - destruct vs as [|v vs]; [discriminate|]. inv W.
    apply bind_ok in H. destruct H as (b1 & H1 & H). apply bind_ok in H. destruct H as ([b2 t2] & H2' & H). inv H.
    apply pack_one_ok in H1; auto. destruct H1 as (sz & E1 & L1 & B1 & U1).
    apply IHn in H2'; auto. destruct H2' as (sz2 & us & E2 & -> & L2 & Lb & B2 & U2).
    cbn [fst snd]. exists sz, (v :: us).
    assert (SZ : n = 0 \/ sz2 = sz) by (destruct E2; [auto|right; congruence]).
    split; auto. split; auto. split; [simpl; auto|]. split; [|split].
    + rewrite app_length. destruct SZ as [->| ->]; lia.
    + apply is_bytes_app; auto.
    + intros rest. cbn [unpack_rep]. rewrite <- app_assoc.
      rewrite firstn_app, L1, Nat.sub_diag, firstn_O, app_nil_r, <- L1, firstn_all.
      rewrite skipn_app, skipn_all, Nat.sub_diag. simpl. f_equal; auto. rewrite L1.
      destruct SZ as [->| ->]; auto. destruct us; [reflexivity|discriminate].
Qed.

(** What a packed 's' value of size n looks like when read back. *)
Definition pad (n : nat) (b : bytes) : bytes := firstn n b ++ repeat 0%N (n - length b).

Lemma length_pad n b : length (pad n b) = n.
Proof. unfold pad. rewrite app_length, firstn_length, repeat_length. lia. Qed.

Lemma is_bytes_repeat0 n : is_bytes (repeat 0%N n).
Proof. induction n; constructor; auto. lia. Qed.

Lemma pad_is_bytes n b : is_bytes b -> is_bytes (pad n b).
Proof. intros. apply is_bytes_app. split; [apply is_bytes_firstn; auto|apply is_bytes_repeat0]. Qed.

(** Values read back from the values packed. *)
Inductive reads_back : list (nat * ascii) -> list pyval -> list pyval -> Prop :=
| rb_nil : reads_back [] [] []
| rb_s n b l vs us : reads_back l vs us -> reads_back ((n, "s"%char) :: l) (VBytes b :: vs) (VBytes (pad n b) :: us)
| rb_n n c us' l vs us : c <> "s"%char -> length us' = n -> reads_back l vs us ->
    reads_back ((n, c) :: l) (us' ++ vs) (us' ++ us).

Lemma pack_items_ok l vs b : pack_items l vs = Ok b -> Forall val_wf vs ->
  length b = items_size l /\ is_bytes b /\ exists us, reads_back l vs us /\ forall rest, unpack_items l (b ++ rest) = us.
Proof.
  revert vs b; induction l as [|it l IH]; intros vs b H W.
  - destruct vs; [|discriminate]. inv H. split; auto. split; [constructor|]. exists []. split; [constructor|auto].
  - cbn [pack_items] in H. apply bind_ok in H. destruct H as ([b1 t] & H1 & H). apply bind_ok in H. destruct H as (b2 & H2 & H).
    inv H. cbn [fst snd] in *. rewrite pack_item_eq in H1. unfold items_size in *. cbn [map].
    change (list_sum (item_size it :: map item_size l)) with (item_size it + list_sum (map item_size l)).
    destruct it as [n c]. cbn [fst snd] in *. unfold item_size at 1. cbn [fst snd].
    destruct (Ascii.eqb_spec c "s"%char) as [->|NS].
    + destruct vs as [|[| |bs] vs]; try discriminate. inv H1. inv W. apply IH in H2; auto.
      destruct H2 as (L & B & us & R & U). fold (pad n bs).
      split; [rewrite app_length, length_pad, L; simpl; lia|].
      split; [apply is_bytes_app; split; auto; apply pad_is_bytes; auto|].
      exists (VBytes (pad n bs) :: us). split; [constructor; auto|]. intros rest.
      cbn [unpack_items]. rewrite unpack_item_eq. cbn [fst snd]. rewrite Ascii.eqb_refl.
      unfold item_size. cbn [fst snd char_size]. rewrite Nat.mul_1_r.
      rewrite <- app_assoc, firstn_app, skipn_app, length_pad, Nat.sub_diag, firstn_O, app_nil_r.
      rewrite <- (length_pad n bs) at 1. rewrite firstn_all.
      rewrite <- (length_pad n bs) at 2. rewrite skipn_all. simpl. rewrite U. reflexivity.
    + assert (Wt : Forall val_wf t).
      { apply pack_rep_ok in H1; auto. destruct H1 as (sz & us' & _ & -> & _). apply Forall_app in W; tauto. }
      apply pack_rep_ok in H1; auto. destruct H1 as (sz & us' & C & -> & Lu & Lb & B1 & U1).
      apply IH in H2; auto. destruct H2 as (L & B & us & R & U).
      assert (SZ : n * match char_size c with Some n0 => n0 | None => 0 end = length b1).
      { rewrite Lb. destruct C as [->| ->]; auto. }
      split; [rewrite app_length, L; lia|].
      split; [apply is_bytes_app; split; auto|].
      exists (us' ++ us). split; [constructor; auto|]. intros rest.
      cbn [unpack_items]. rewrite unpack_item_eq. cbn [fst snd]. apply Ascii.eqb_neq in NS. rewrite NS.
      unfold item_size. cbn [fst snd]. rewrite SZ, <- app_assoc. f_equal.
      * replace (unpack_rep n c (match char_size c with Some k => k | None => 0 end) (b1 ++ b2 ++ rest))
          with (unpack_rep n c sz (b1 ++ b2 ++ rest)); auto.
        destruct C as [->| ->]; auto.
      * rewrite skipn_app, skipn_all, Nat.sub_diag. simpl. auto.
Qed.
