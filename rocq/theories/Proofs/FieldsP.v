(** Field values: unpacking and packing of payloads. *)
From Coq Require Import String Ascii List NArith ZArith Bool Lia ZifyBool ZifyNat ZifyN Permutation.
From Verif.Model Require Import Py Dialect ProtocolMeta Struct Crc Mavlink.
From Verif.Spec Require Import Bytes Bits Header CrcSpec Frame.
From Verif.Proofs Require Import Base BitOpsP DialectP HeaderP HeaderMore StructP CrcP MavlinkP.
Import ListNotations.

Lemma le_number_val b : le_number b = le_val b.
Proof. induction b as [|x b IH]; [reflexivity|]. cbn [le_val]. unfold le_number in *. cbn [fold_right]. rewrite IH. reflexivity. Qed.

Lemma before_nul_eq t : before_nul t = cut_nul t.
Proof. reflexivity. Qed.

Lemma ctype_size ty sz ch : ctype ty sz ch -> c_size ty = sz /\ char_size ch = Some sz.
Proof. destruct 1; auto. Qed.

Lemma ctype_char ty sz ch : ctype ty sz ch -> Ascii.eqb ch "s" = String.eqb ty "char".
Proof. destruct 1; auto. Qed.

Lemma signed_wrap v m : (0 < m)%Z -> (m = 2 * (m / 2))%Z -> (0 <= v < m)%Z ->
  ((v + m / 2) mod m - m / 2 = if 2 * v <? m then v else v - m)%Z.
Proof.
  intros P E H. set (k := (m / 2)%Z) in *. clearbody k. destruct (Z.ltb_spec (2 * v) m).
  - rewrite Z.mod_small; lia.
  - replace (v + k)%Z with (v + k - m + 1 * m)%Z by lia. rewrite Z.mod_add, Z.mod_small by lia. lia.
Qed.

Lemma unpack_one_c ty sz ch b : ctype ty sz ch -> ty <> "char"%string -> is_bytes b -> length b = sz ->
  unpack_one ch b = c_scalar ty b.
Proof.
  intros C NC B L. unfold c_scalar. rewrite le_number_val.
  assert (V : (0 <= Z.of_N (le_val b) < 2 ^ (8 * Z.of_nat sz))%Z).
  { pose proof (le_val_bound b B) as H. rewrite L, pow256 in H. lia. }
  destruct C; try reflexivity; try tauto; unfold unpack_one; cbn -[le_val Z.mul Z.pow Z.div Z.modulo Z.of_nat];
    rewrite L; rewrite signed_wrap; auto; try reflexivity.
Qed.

(** The value packed by pack_one. *)
Lemma c_ok_pack ty sz ch v : ctype ty sz ch -> ty <> "char"%string -> c_ok ty v -> exists b, pack_one ch v = Ok b.
Proof.
  intros C NC. unfold c_ok. destruct v as [z|p|]; [| |tauto].
  - intros [NF R]. destruct C; try tauto; unfold pack_one; cbn -[Z.pow Z.mul Z.of_nat le_bytes Z.div] in *;
      match goal with |- context[if ?x then _ else _] => replace x with true by lia end; eauto.
  - intros [-> P]. inversion C. eexists. reflexivity.
Qed.

Lemma list_sum_seq_split (f : nat -> nat) J n : J <= n ->
  list_sum (map (fun j => if Nat.ltb j J then f j else 0) (seq 0 n)) = list_sum (map f (seq 0 J)).
Proof.
  intros H. replace n with (J + (n - J)) by lia. rewrite seq_app, map_app, list_sum_app.
  assert (E1 : map (fun j => if Nat.ltb j J then f j else 0) (seq 0 J) = map f (seq 0 J)).
  { apply map_ext_in. intros a Ha. apply in_seq in Ha. destruct (Nat.ltb_spec a J); lia. }
  assert (E2 : list_sum (map (fun j => if Nat.ltb j J then f j else 0) (seq (0 + J) (n - J))) = 0).
  { assert (G : forall k, list_sum (map (fun j => if Nat.ltb j J then f j else 0) (seq (J + k) (n - J))) = 0).
    { generalize (n - J). induction n0; intros k; simpl; auto. destruct (Nat.ltb_spec (J + k) J); [lia|].
      rewrite <- Nat.add_succ_r. apply IHn0. }
    specialize (G 0). rewrite Nat.add_0_r in G. exact G. }
  rewrite E1. simpl in E2 |- *. rewrite E2. lia.
Qed.

Lemma list_sum_perm l l' : Permutation l l' -> list_sum l = list_sum l'.
Proof. induction 1; simpl; lia. Qed.

Lemma nth_map_lt {A B} (f : A -> B) l i d d' : i < length l -> nth i (map f l) d = f (nth i l d').
Proof. intros H. rewrite <- (map_nth f). apply nth_indep. rewrite map_length. auto. Qed.

Lemma firstn_map_seq {A} (l : list A) d J : J <= length l -> firstn J l = map (fun j => nth j l d) (seq 0 J).
Proof.
  intros H. apply nth_ext_eq with (d := d).
  - rewrite firstn_length, map_length, seq_length. lia.
  - intros i Hi. rewrite firstn_length in Hi. rewrite nth_firstn by lia.
    rewrite nth_map_lt with (d' := 0) by (rewrite seq_length; lia). rewrite seq_nth by lia. reflexivity.
Qed.

Record wire_facts (c : msg_class) (items : list (nat * ascii)) : Prop := WF {
  wf_parse : parse_fmt (mc_format c) = Ok items;
  wf_len : length items = f_count c;
  wf_size : items_size items = wire_size c;
  wf_small : wire_size c < 256;
  wf_wire : forall i, i < f_count c -> f_wire c i < f_count c;
  wf_onto : forall j, j < f_count c -> exists i, i < f_count c /\ f_wire c i = j;
  wf_item : forall i, i < f_count c -> exists sz ch, ctype (f_type c i) sz ch /\ 
              nth (f_wire c i) items (0, " "%char) = (Nat.max 1 (f_array c i), ch) /\
              nth (f_wire c i) (mc_lengths c) 0 = (if Ascii.eqb ch "s" then 1 else Nat.max 1 (f_array c i));
  wf_isize : forall i, i < f_count c -> item_size (nth (f_wire c i) items (0, " "%char)) = f_width c i;
  wf_offset : forall i, i < f_count c -> items_size (firstn (f_wire c i) items) = f_offset c i
}.

Lemma orders_perm c : In c mavlink_classes -> Permutation (map (f_wire c) (seq 0 (f_count c))) (seq 0 (f_count c)).
Proof.
  intros H. pose proof (class_facts_in _ H) as F. unfold f_wire, f_count.
  rewrite <- (cf_orders _ F) at 1. rewrite map_nth_seq.
  apply Permutation_sym. apply NoDup_Permutation_bis.
  - apply seq_NoDup.
  - rewrite seq_length. rewrite (cf_orders _ F). auto.
  - intros j Hj. apply in_seq in Hj. destruct (orders_onto c j H ltac:(lia)) as (i & Hi & <-). apply nth_In.
    rewrite (cf_orders _ F). auto.
Qed.

Lemma wire_facts_in c : In c mavlink_classes -> exists items, wire_facts c items.
Proof.
  intros H. pose proof (class_facts_in _ H) as F.
  destruct (cf_items _ F) as (items & k & E1 & E2 & E3 & _ & _ & _ & _ & _ & E9).
  exists items.
  assert (IS : forall i, i < f_count c -> item_size (nth (f_wire c i) items (0, " "%char)) = f_width c i).
  { intros i Hi. destruct (E9 i Hi) as (sz & ch & C & I & _). unfold f_wire. rewrite I. unfold item_size, f_width, f_array, f_wire, f_type.
    cbn [fst snd]. apply ctype_size in C. destruct C as [<- ->]. reflexivity. }
  assert (G : forall J, J <= f_count c ->
     items_size (firstn J items) = list_sum (map (fun k => if Nat.ltb (f_wire c k) J then f_width c k else 0) (seq 0 (f_count c)))).
  { intros J HJ. unfold items_size. rewrite firstn_map_seq with (d := (0, " "%char)) by (rewrite E2; exact HJ).
    rewrite map_map. rewrite <- list_sum_seq_split with (n := f_count c) by auto.
    rewrite <- (list_sum_perm _ _ (Permutation_map _ (orders_perm c H))). rewrite map_map. f_equal. apply map_ext_in.
    intros i Hi. apply in_seq in Hi. rewrite IS by lia. reflexivity. }
  assert (SZ : items_size items = wire_size c).
  { rewrite <- (firstn_all items), E2. rewrite G by (unfold f_count; lia). unfold wire_size. f_equal. apply map_ext_in.
    intros i Hi. apply in_seq in Hi. destruct (Nat.ltb_spec (f_wire c i) (length (mc_fieldnames c))); auto.
    pose proof (cf_order_lt _ F i ltac:(unfold f_count in Hi; lia)). unfold f_wire in *. lia. }
  constructor; auto.
  - rewrite <- SZ. exact E3.
  - intros i Hi. apply (cf_order_lt _ F); auto.
  - intros j Hj. apply (orders_onto c j H Hj).
  - intros i Hi. unfold f_offset. apply G. pose proof (cf_order_lt _ F i Hi). unfold f_wire, f_count. lia.
Qed.

(** No array of the dialect has exactly one element. *)
Lemma arrays_not_one : forallb (fun c => forallb (fun a => negb (Nat.eqb a 1)) (mc_array_lengths c)) mavlink_classes = true.
Proof. vm_compute. reflexivity. Qed.

Lemma f_array_not_one c i : In c mavlink_classes -> f_array c i <> 1.
Proof.
  intros H E. pose proof arrays_not_one as A. rewrite forallb_forall in A. specialize (A c H). rewrite forallb_forall in A.
  unfold f_array in E. destruct (Nat.lt_ge_cases (f_wire c i) (length (mc_array_lengths c))) as [L|L].
  - specialize (A (nth (f_wire c i) (mc_array_lengths c) 0) (nth_In _ _ L)). rewrite E in A. discriminate.
  - rewrite nth_overflow in E by auto. discriminate.
Qed.

Lemma skipn_skipn {A} (l : list A) a b : skipn a (skipn b l) = skipn (a + b) l.
Proof. revert l; induction b; intros l; simpl; [rewrite Nat.add_0_r; auto|]. rewrite Nat.add_succ_r. destruct l; [rewrite skipn_nil; auto|]. apply IHb. Qed.

(** Unpacked values of the item at position [j]. *)
Lemma unpack_items_app l1 l2 b : unpack_items (l1 ++ l2) b = unpack_items l1 b ++ unpack_items l2 (skipn (items_size l1) b).
Proof.
  revert b; induction l1; intros b; [reflexivity|]. cbn [app unpack_items]. rewrite IHl1, <- app_assoc. do 2 f_equal.
  unfold items_size. cbn [map]. rewrite list_sum_cons. rewrite skipn_skipn. f_equal. f_equal. lia.
Qed.

Lemma slice_at {A} (a b d : list A) n m : n = length a -> m = n + length b -> slice (a ++ b ++ d) n m = b.
Proof. intros -> ->. apply slice_app_mid. Qed.

Lemma unpack_items_slice l b j : j < length l ->
  slice (unpack_items l b) (list_sum (map nvals (firstn j l))) (list_sum (map nvals (firstn j l)) + nvals (nth j l (0, " "%char))) =
  unpack_item (nth j l (0, " "%char)) (skipn (items_size (firstn j l)) b).
Proof.
  intros H.
  assert (E : l = firstn j l ++ [nth j l (0, " "%char)] ++ skipn (S j) l).
  { rewrite <- (firstn_skipn j l) at 1. f_equal. clear b. revert j H. induction l; intros j H; [simpl in H; lia|].
    destruct j; simpl; auto. apply IHl. simpl in H; lia. }
  rewrite E at 1. rewrite !unpack_items_app. cbn [unpack_items]. rewrite app_nil_r. apply slice_at.
  - rewrite length_unpack_items. reflexivity.
  - rewrite length_unpack_item. reflexivity.
Qed.

Lemma unpack_rep_map n c sz b : unpack_rep n c sz b = map (fun k => unpack_one c (firstn sz (skipn (k * sz) b))) (seq 0 n).
Proof.
  revert b; induction n; intros b; [reflexivity|]. cbn [unpack_rep seq map]. simpl skipn at 1. f_equal.
  rewrite IHn, <- seq_shift, map_map. apply map_ext. intros k. do 2 f_equal. rewrite skipn_skipn. f_equal. simpl; lia.
Qed.

Lemma nth_pad (pl : bytes) W k : k < W -> nth k (firstn W (pl ++ repeat 0%N (W - length pl))) 0%N = nth k pl 0%N.
Proof.
  intros H. rewrite nth_firstn by auto. destruct (Nat.lt_ge_cases k (length pl)).
  - rewrite app_nth1; auto.
  - rewrite app_nth2, nth_repeat, nth_overflow; auto.
Qed.

Lemma raw_eq (m : bytes) off w : off + w <= length m ->
  firstn w (skipn off m) = map (fun k => nth (off + k) m 0%N) (seq 0 w).
Proof.
  intros H. rewrite firstn_map_seq with (d := 0%N) by (rewrite skipn_length; lia). apply map_ext. intros k. apply nth_skipn.
Qed.

Lemma firstn_skipn_firstn {A} (l : list A) a b n : a + b <= n -> firstn b (skipn a (firstn n l)) = firstn b (skipn a l).
Proof.
  intros H. rewrite <- (firstn_skipn n l) at 2. rewrite skipn_app, firstn_app. rewrite firstn_length, skipn_length, firstn_length.
  replace (b - (Nat.min n (length l) - a)) with (b - (Nat.min n (length l) - a)) by lia.
  destruct (Nat.le_gt_cases n (length l)).
  - replace (b - (Nat.min n (length l) - a)) with 0 by lia. rewrite firstn_O, app_nil_r. reflexivity.
  - rewrite (skipn_all2 l) by lia. rewrite skipn_nil, firstn_nil, app_nil_r. reflexivity.
Qed.

Lemma offset_bound c i : In c mavlink_classes -> i < f_count c -> f_offset c i + f_width c i <= wire_size c.
Proof.
  intros H Hi. destruct (wire_facts_in c H) as (items & W).
  rewrite <- (wf_offset _ _ W i Hi), <- (wf_isize _ _ W i Hi), <- (wf_size _ _ W).
  unfold items_size. rewrite <- firstn_map.
  pose proof (sum_firstn_le (map item_size items) (f_wire c i)) as L.
  rewrite map_length, (wf_len _ _ W) in L. specialize (L (wf_wire _ _ W i Hi)).
  replace (nth (f_wire c i) (map item_size items) 0) with (item_size (nth (f_wire c i) items (0, " "%char))) in L; auto.
  rewrite <- (map_nth item_size). apply nth_indep. rewrite map_length, (wf_len _ _ W). apply (wf_wire _ _ W); auto.
Qed.

Section Text.
Variable ts : bytes -> list N.

Definition term1 (ty : string) (v : fieldval) : fieldval :=
  if String.eqb ty "char" then match v with FOne (VBytes b) => FText (cut_nul (ts b)) | _ => v end else v.

Lemma terminate_nth types l i d : i < length l -> length l = length types ->
  nth i (terminate ts types l) d = term1 (nth i types ""%string) (nth i l d).
Proof.
  revert types i; induction l; intros types i H L; [simpl in H; lia|].
  destruct types as [|ty types]; [discriminate|]. simpl in *. destruct i; [reflexivity|]. apply IHl; lia.
Qed.
Lemma terminate_length types l : length (terminate ts types l) = length l.
Proof. revert types; induction l; intros [|ty types]; simpl; auto. Qed.

Lemma field_at_eq c items t j : In c mavlink_classes -> wire_facts c items -> j < f_count c ->
  length t = list_sum (map nvals items) ->
  let v := slice t (list_sum (map nvals (firstn j items))) (list_sum (map nvals (firstn j items)) + nvals (nth j items (0, " "%char))) in
  field_at c t j = if Nat.eqb (nvals (nth j items (0, " "%char))) 1 then FOne (nth 0 v (VInt 0)) else FMany v.
Proof.
  intros H W Hj L v. unfold field_at. rewrite (class_lengths c items H (wf_parse _ _ W)).
  assert (E : nth j (map nvals items) 0 = nvals (nth j items (0, " "%char))).
  { rewrite <- (map_nth nvals). apply nth_indep. rewrite map_length, (wf_len _ _ W). auto. }
  rewrite E, firstn_map. destruct (Nat.eqb_spec (nvals (nth j items (0, " "%char))) 1) as [E1|E1]; auto.
  f_equal. unfold v. rewrite nth_slice by lia. f_equal. lia.
Qed.

(** The values decode returns are those of the specification. *)
Lemma decoded_fields_spec c pl : In c mavlink_classes -> is_bytes pl ->
  decoded_fields ts c pl = map (f_value ts c pl) (seq 0 (f_count c)).
Proof.
  intros H B. pose proof (class_facts_in _ H) as F. destruct (wire_facts_in c H) as (items & W).
  unfold decoded_fields. rewrite (wf_parse _ _ W). cbv zeta.
  set (m := firstn (items_size items) (pl ++ repeat 0%N (items_size items - length pl))).
  assert (Lm : length m = wire_size c).
  { unfold m. rewrite firstn_length, app_length, repeat_length, (wf_size _ _ W). lia. }
  assert (Bm : is_bytes m) by (apply is_bytes_firstn, is_bytes_app; split; auto; apply is_bytes_repeat0).
  assert (Lo : length (mc_orders c) = f_count c) by apply (cf_orders _ F).
  apply nth_ext_eq with (d := FText []).
  { rewrite terminate_length, !map_length, seq_length. exact Lo. }
  rewrite terminate_length, map_length, Lo. intros i Hi.
  rewrite terminate_nth by (rewrite map_length; rewrite ?(cf_types _ F); unfold f_count in *; lia).
  replace (nth i (map (field_at c (unpack_items items m)) (mc_orders c)) (FText []))
    with (field_at c (unpack_items items m) (f_wire c i)).
  2:{ unfold f_wire. rewrite <- (map_nth (field_at c (unpack_items items m))). apply nth_indep. rewrite map_length; lia. }
  rewrite nth_map_lt with (d' := 0) by (rewrite seq_length; auto). rewrite seq_nth by auto. simpl Nat.add.
  pose proof (wf_wire _ _ W i Hi) as Wi.
  rewrite field_at_eq with (items := items) by (auto; apply length_unpack_items). cbv zeta.
  rewrite unpack_items_slice by (rewrite (wf_len _ _ W); auto).
  rewrite (wf_offset _ _ W i Hi).
  destruct (wf_item _ _ W i Hi) as (sz & ch & C & I & _). rewrite I.
  rewrite unpack_item_eq. unfold nvals. cbn [fst snd]. rewrite (ctype_char _ _ _ C).
  destruct (ctype_size _ _ _ C) as [S1 S2]. rewrite S2.
  unfold f_value. fold (f_type c i). unfold term1. fold (f_type c i).
  pose proof (offset_bound c i H Hi) as OB.
  assert (RAW : map (fun k => nth (f_offset c i + k) pl 0%N) (seq 0 (f_width c i)) = firstn (f_width c i) (skipn (f_offset c i) m)).
  { rewrite raw_eq by lia. apply map_ext_in. intros k Hk. apply in_seq in Hk. symmetry. apply nth_pad. rewrite (wf_size _ _ W). lia. }
  rewrite RAW, before_nul_eq, S1.
  assert (WD : f_width c i = Nat.max 1 (f_array c i) * sz) by (unfold f_width; rewrite S1; auto).
  destruct (String.eqb_spec (f_type c i) "char") as [T|T].
  - cbn [Nat.eqb nth]. f_equal. f_equal. f_equal. f_equal. rewrite T in C. inversion C; subst. lia.
  - rewrite unpack_rep_map. pose proof (f_array_not_one c i H) as N1.
    assert (U : forall k, k < Nat.max 1 (f_array c i) ->
       unpack_one ch (firstn sz (skipn (k * sz) (skipn (f_offset c i) m))) =
       c_scalar (f_type c i) (firstn sz (skipn (k * sz) (firstn (f_width c i) (skipn (f_offset c i) m))))).
    { intros k Hk. rewrite firstn_skipn_firstn by (rewrite WD; nia).
      apply unpack_one_c with (sz := sz); auto.
      - apply is_bytes_firstn, is_bytes_skipn, is_bytes_skipn; auto.
      - rewrite firstn_length, !skipn_length. nia. }
    destruct (Nat.eqb_spec (f_array c i) 0) as [E0|E0].
    + rewrite E0 in *. cbn [Nat.max Nat.eqb seq map nth]. f_equal. rewrite U by lia. f_equal. cbn [Nat.mul skipn].
      rewrite firstn_firstn. f_equal. lia.
    + destruct (Nat.eqb_spec (Nat.max 1 (f_array c i)) 1) as [E1|E1]; [lia|]. f_equal.
      replace (Nat.max 1 (f_array c i)) with (f_array c i) by lia. apply map_ext_in. intros k Hk. apply in_seq in Hk. apply U. lia.
Qed.

End Text.
