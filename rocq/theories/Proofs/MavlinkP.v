(** Proofs about Model/Mavlink.v. *)
From Coq Require Import String Ascii List NArith ZArith Bool Lia ZifyBool ZifyNat ZifyN.
From Verif.Model Require Import Py Dialect ProtocolMeta Struct Crc Mavlink.
From Verif.Spec Require Import Bytes Bits Header CrcSpec Frame.
From Verif.Proofs Require Import Base BitOpsP DialectP HeaderP HeaderMore StructP CrcP.
Import ListNotations.

Lemma nth_error_nth' {A} (l : list A) i d : i < length l -> nth_error l i = Some (nth i l d).
Proof. intros. apply nth_error_nth_iff with (d := d). auto. Qed.

Lemma index_ok {A} (l : list A) i d : i < length l -> index l i = Ok (nth i l d).
Proof. intros. unfold index. rewrite nth_error_nth' with (d := d); auto. Qed.

Lemma map_res_ok {A B} (f : A -> res B) (g : A -> B) l : (forall x, In x l -> f x = Ok (g x)) -> map_res f l = Ok (map g l).
Proof.
  induction l; intros H; simpl; auto. rewrite H by (simpl; auto). simpl. rewrite IHl by (intros; apply H; simpl; auto). reflexivity.
Qed.

(** Value counts of a class' wire positions. *)
Lemma class_lengths c items : In c mavlink_classes -> parse_fmt (mc_format c) = Ok items -> mc_lengths c = map nvals items.
Proof.
  intros H P. pose proof (class_facts_in _ H) as F.
  destruct (cf_items _ F) as (items' & k & E1 & E2 & _ & _ & _ & _ & _ & _ & E9).
  rewrite P in E1. injection E1 as <-.
  apply nth_ext_eq with (d := 0); [rewrite map_length, E2; apply cf_lengths; auto|].
  intros j Hj. rewrite (cf_lengths _ F) in Hj.
  destruct (orders_onto c j H Hj) as (i & Hi & <-).
  destruct (E9 i Hi) as (sz & ch & C & I & L). rewrite L.
  replace (nth (nth i (mc_orders c) 0) (map nvals items) 0) with (nth (nth i (mc_orders c) 0) (map nvals items) (nvals (0, " "%char)))
    by (apply nth_indep; rewrite map_length, E2; auto).
  rewrite map_nth, I. unfold nvals. cbn [fst snd]. reflexivity.
Qed.

(** The value that decode attaches to wire position [j]. *)
Definition field_at (c : msg_class) (t : list pyval) (j : nat) : fieldval :=
  let tip := list_sum (firstn j (mc_lengths c)) in
  if Nat.eqb (nth j (mc_lengths c) 0) 1 then FOne (nth tip t (VInt 0)) else FMany (slice t tip (tip + nth j (mc_lengths c) 0)).

Lemma sum_firstn_le l j : j < length l -> list_sum (firstn j l) + nth j l 0 <= list_sum l.
Proof.
  revert j; induction l; intros j H; [simpl in H; lia|]. destruct j; simpl in *; [lia|]. specialize (IHl j). lia.
Qed.

Lemma all_ones l : Forall (fun x => 1 <= x) l -> list_sum l = length l -> Forall (fun x => x = 1) l.
Proof.
  induction 1; intros E; constructor; simpl in E.
  - assert (length l <= list_sum l); [|lia]. clear -H0. induction H0; simpl; lia.
  - apply IHForall. assert (length l <= list_sum l); [|lia]. clear -H0. induction H0; simpl; lia.
Qed.

Lemma sum_ones l j : Forall (fun x => x = 1) l -> j <= length l -> list_sum (firstn j l) = j.
Proof.
  intros H. revert j. induction H; intros j L; simpl in L; [destruct j; simpl; lia|].
  destruct j; simpl; [lia|]. rewrite IHForall by lia. lia.
Qed.

Lemma lengths_pos c : In c mavlink_classes -> Forall (fun x => 1 <= x) (mc_lengths c).
Proof.
  intros H. pose proof (class_facts_in _ H) as F. apply Forall_nth. intros j d Hj.
  rewrite (cf_lengths _ F) in Hj. destruct (orders_onto c j H Hj) as (i & Hi & <-).
  destruct (cf_items _ F) as (items' & k & E1 & E2 & _ & _ & _ & _ & _ & _ & E9).
  destruct (E9 i Hi) as (sz & ch & C & I & L). rewrite nth_indep with (d' := 0) by (rewrite (cf_lengths _ F); auto).
  rewrite L. destruct (Ascii.eqb ch "s"); lia.
Qed.

Lemma reorder_ok c t : In c mavlink_classes -> length t = list_sum (mc_lengths c) ->
  reorder c t = Ok (map (fun j => field_at c t j) (mc_orders c)).
Proof.
  intros H L. pose proof (class_facts_in _ H) as F. unfold reorder.
  assert (OL : forall j, In j (mc_orders c) -> j < length (mc_fieldnames c)).
  { intros j Hj. apply In_nth with (d := 0) in Hj. destruct Hj as (i & Hi & <-). apply cf_order_lt; auto.
    rewrite <- (cf_orders _ F); auto. }
  destruct (Nat.eqb_spec (list_sum (mc_lengths c)) (length (mc_lengths c))) as [E|E].
  - pose proof (all_ones _ (lengths_pos c H) E) as AO.
    rewrite L, E, (cf_lengths _ F), <- (cf_orders _ F).
    rewrite map_res_ok with (g := fun i => field_at c t (nth i (mc_orders c) 0)).
    + f_equal. rewrite <- (map_nth_seq (mc_orders c) 0) at 2. rewrite map_map. reflexivity.
    + intros i Hi. apply in_seq in Hi. rewrite index_ok with (d := 0) by lia. cbn [bind].
      assert (Hj : nth i (mc_orders c) 0 < length (mc_fieldnames c)) by (apply OL, nth_In; lia).
      rewrite index_ok with (d := VInt 0) by (rewrite L, E, (cf_lengths _ F); auto). cbn [bind].
      unfold field_at.
      assert (E1 : nth (nth i (mc_orders c) 0) (mc_lengths c) 0 = 1).
      { rewrite Forall_forall in AO. apply AO, nth_In. rewrite (cf_lengths _ F); auto. }
      rewrite E1, sum_ones; auto. rewrite (cf_lengths _ F). lia.
  - rewrite map_res_ok with (g := fun j => field_at c t j); auto.
    intros j Hj. apply OL in Hj. rewrite index_ok with (d := 0) by (rewrite (cf_lengths _ F); auto). cbn [bind]. cbv zeta.
    assert (P1 : 1 <= nth j (mc_lengths c) 0).
    { pose proof (lengths_pos c H) as P. rewrite Forall_forall in P. apply P, nth_In. rewrite (cf_lengths _ F); auto. }
    pose proof (sum_firstn_le (mc_lengths c) j ltac:(rewrite (cf_lengths _ F); auto)).
    rewrite index_ok with (d := VInt 0) by lia. cbn [bind]. unfold field_at. destruct (Nat.eqb _ 1); reflexivity.
Qed.

Section Decode.
Variable ts : bytes -> list N.

(** What decode does once the header and the checksum have been accepted always succeeds. *)
Definition decoded_fields (c : msg_class) (payload : bytes) : list fieldval :=
  match parse_fmt (mc_format c) with
  | Ok items =>
      let m := firstn (items_size items) (payload ++ repeat 0%N (items_size items - length payload)) in
      terminate ts (mc_fieldtypes c) (map (field_at c (unpack_items items m)) (mc_orders c))
  | Err _ => []
  end.

Lemma decode_tail c body : In c mavlink_classes -> forall (k : list fieldval -> res decoded),
  (do! csize <- calcsize (mc_unpacker c) in
   let mbuf := firstn csize (body ++ repeat 0%N (csize - length body)) in
   do! t <- struct_unpack (mc_unpacker c) mbuf in
   do! tl <- reorder c t in k (terminate ts (mc_fieldtypes c) tl)) = k (decoded_fields c body).
Proof.
  intros H k. pose proof (class_facts_in _ H) as F. unfold decoded_fields, calcsize, struct_unpack.
  rewrite (cf_unpacker _ F).
  destruct (cf_items _ F) as (items & n & E1 & _). rewrite E1. cbn [bind]. cbv zeta.
  assert (LM : length (firstn (items_size items) (body ++ repeat 0%N (items_size items - length body))) = items_size items).
  { rewrite firstn_length, app_length, repeat_length. lia. }
  rewrite LM, Nat.eqb_refl. cbn [bind]. rewrite reorder_ok; auto.
  rewrite length_unpack_items, (class_lengths c items H E1). reflexivity.
Qed.

(** decode_body, characterised. *)
Definition body_accepts (b : bytes) (hl sl : nat) (magic mlen msgId : N) (c : msg_class) : Prop :=
  (magic = 254 \/ magic = 253)%N /\ Z.of_N mlen = (Z.of_nat (length b) - Z.of_nat (hl + 2 + sl))%Z /\ is_msg msgId c /\
  le_val (firstn 2 (skipn (length b - (2 + sl)) b)) = x25crc (slice b 1 (length b - (2 + sl)) ++ [mc_crc_extra c]).

Lemma decode_body_spec b hl sl magic mlen inc com seq sys comp msgId :
  (exists c, body_accepts b hl sl magic mlen msgId c /\
     decode_body ts b hl sl magic mlen inc com seq sys comp msgId =
     Ok (Decoded msgId mlen seq sys comp inc com (le_val (firstn 2 (skipn (length b - (2 + sl)) b))) c
           (decoded_fields c (slice b hl (length b - (2 + sl)))))) \/
  ((forall c, ~ body_accepts b hl sl magic mlen msgId c) /\
     decode_body ts b hl sl magic mlen inc com seq sys comp msgId = Err MAVError).
Proof.
  unfold decode_body, body_accepts.
  destruct (negb (N.eqb magic 254 || N.eqb magic 253)) eqn:EM.
  { right; split; auto. intros c (H & _). lia. }
  destruct (negb (Z.eqb _ _)) eqn:EL.
  { right; split; auto. intros c (_ & H & _). rewrite negb_true_iff in EL. apply Z.eqb_neq in EL. tauto. }
  rewrite negb_false_iff in EL. apply Z.eqb_eq in EL.
  destruct (get_class msgId) as [c|] eqn:EC.
  2:{ right; split; auto. intros c (_ & _ & H & _). apply get_class_spec in H. congruence. }
  pose proof EC as I. apply get_class_spec in I. cbv zeta.
  destruct (negb (N.eqb (le_val _) _)) eqn:ER.
  { right; split; auto. intros c' (_ & _ & H & H'). assert (c' = c) by (eapply is_msg_fun; eauto). subst.
    rewrite negb_true_iff in ER. apply N.eqb_neq in ER. tauto. }
  rewrite negb_false_iff in ER. apply N.eqb_eq in ER.
  left. exists c. split; [repeat split; auto; try apply I; lia|].
  apply (decode_tail c (slice b hl (length b - (2 + sl))) (proj1 I)
    (fun fs => Ok (Decoded msgId mlen seq sys comp inc com _ c fs))).
Qed.

Lemma le_val2 lo hi : le_val [lo; hi] = (lo + 256 * hi)%N.
Proof. cbn [le_val]. lia. Qed.

Lemma two {A} (l : list A) : length l = 2 -> exists x y, l = [x; y].
Proof. destruct l as [|x [|y [|]]]; try discriminate. eauto. Qed.

(** Acceptance in terms of the frame specification. *)
Lemma body_accepts_frame b0 b hl sl c : is_bytes (b0 :: b) -> (b0 = 254 \/ b0 = 253)%N -> 1 <= hl -> hl <= length (b0 :: b) ->
  In c mavlink_classes ->
  (body_accepts (b0 :: b) hl sl b0 (nth 1 (b0 :: b) 0%N) (mc_id c) c <-> frame_of b0 hl sl c (b0 :: b)).
Proof.
  intros B M H1 HL I. pose proof (class_facts_in _ I) as F. unfold body_accepts, frame_of.
  set (n := length (b0 :: b)) in *.
  split.
  - intros (_ & L & _ & C).
    pose proof (is_bytes_nth 1 B) as B1.
    assert (HLn : hl + 2 + sl <= n) by lia.
    set (body := slice (b0 :: b) 1 (n - (2 + sl))) in *.
    set (tr := firstn 2 (skipn (n - (2 + sl)) (b0 :: b))) in *.
    assert (Lt : length tr = 2) by (unfold tr; rewrite firstn_length, skipn_length; fold n; lia).
    assert (Lb : length body = n - (2 + sl) - 1) by (unfold body; rewrite length_slice; fold n; lia).
    destruct (two _ Lt) as (lo & hi & Et).
    exists body, lo, hi, (skipn 2 (skipn (n - (2 + sl)) (b0 :: b))).
    split; [|split; [|split; [|split]]].
    + rewrite <- Et. unfold tr. rewrite firstn_skipn. unfold body, slice.
      replace (skipn 1 (b0 :: b)) with b by reflexivity.
      replace (n - (2 + sl)) with (S (n - (2 + sl) - 1)) by lia. cbn [skipn].
      replace (S (n - (2 + sl) - 1) - 1) with (n - (2 + sl) - 1) by lia. rewrite firstn_skipn. reflexivity.
    + rewrite !skipn_length. fold n. lia.
    + lia.
    + lia.
    + rewrite <- le_val2, <- Et, C. apply x25crc_is_crc16. apply is_bytes_app. split.
      * apply is_bytes_slice; auto.
      * constructor; [apply cf_extra; auto|constructor].
  - intros (body & lo & hi & sig & E & Ls & Hl & L1 & C).
    assert (En : n = length body + 3 + sl).
    { unfold n. rewrite E. simpl. rewrite !app_length. simpl. lia. }
    assert (Eb : b = body ++ [lo; hi] ++ sig) by congruence.
    split; auto. split; [|split].
    + rewrite L1. lia.
    + split; auto.
    + assert (S1 : skipn (n - (2 + sl)) (b0 :: b) = [lo; hi] ++ sig).
      { replace (n - (2 + sl)) with (S (length body)) by lia. cbn [skipn]. rewrite Eb, skipn_app, skipn_all, Nat.sub_diag. reflexivity. }
      assert (S2 : slice (b0 :: b) 1 (n - (2 + sl)) = body).
      { unfold slice. replace (n - (2 + sl) - 1) with (length body) by lia. cbn [skipn]. rewrite Eb.
        rewrite firstn_app, firstn_all, Nat.sub_diag. simpl. apply app_nil_r. }
      rewrite S1, S2. cbn [app firstn]. rewrite le_val2, C. symmetry. apply x25crc_is_crc16.
      apply is_bytes_app. split; [|constructor; [apply cf_extra; auto|constructor]].
      rewrite E in B. inv B. apply is_bytes_app in H3. tauto.
Qed.

(** decode, v1 branch. *)
Lemma decode_v1 b : is_bytes b -> nth 0 b 0%N = 254%N ->
  (exists c, frame_v1 c b /\
     decode ts b = Ok (Decoded (nth 5 b 0%N) (nth 1 b 0%N) (nth 2 b 0%N) (nth 3 b 0%N) (nth 4 b 0%N) 0 0
                         (le_val (skipn (length b - 2) b)) c (decoded_fields c (payload b)))) \/
  ((forall c, ~ frame_v1 c b) /\ decode ts b = Err MAVError).
Proof.
  intros B E0. destruct b as [|b0 b]; [discriminate|]. simpl in E0. subst b0.
  unfold decode. change (N.eqb 254 stx) with true. cbv iota zeta.
  destruct (Nat.ltb_spec (length (254%N :: b)) 6) as [L|L].
  - right. split; auto. intros c [_ (body & lo & hi & sig & E & Ls & Hl & _)].
    assert (length (254%N :: b) = length body + 3 + length sig) by (rewrite E; simpl; rewrite !app_length; simpl; lia). lia.
  - destruct (decode_body_spec (254%N :: b) 6 0 254 (nth 1 (254%N :: b) 0%N) 0 0 (nth 2 (254%N :: b) 0%N)
        (nth 3 (254%N :: b) 0%N) (nth 4 (254%N :: b) 0%N) (nth 5 (254%N :: b) 0%N)) as [(c & A & D)|(A & D)].
    + left. exists c. pose proof A as A'. destruct A' as (_ & AL & I & _).
      split.
      * split; auto. apply body_accepts_frame; auto; [lia|apply I|]. destruct I as [_ Ei]. rewrite Ei. exact A.
      * rewrite D. f_equal.
        assert (Ln : 8 <= length (254%N :: b)) by (pose proof (is_bytes_nth 1 B); lia).
        assert (S : firstn 2 (skipn (length (254%N :: b) - (2 + 0)) (254%N :: b)) = skipn (length (254%N :: b) - 2) (254%N :: b)).
        { apply firstn_all2. rewrite skipn_length. lia. }
        rewrite S. unfold payload, slice.
        replace (length (254%N :: b) - (2 + 0) - 6) with (length (254%N :: b) - 8) by lia. reflexivity.
    + right. split; auto. intros c [I Fr]. apply (A c). pose proof I as [Hc Ei].
      apply body_accepts_frame in Fr; auto; [|lia]. rewrite <- Ei. exact Fr.
Qed.

Lemma decode_not_v1 b : is_bytes b -> b <> [] -> nth 0 b 0%N <> 254%N ->
  (exists c d, frame_v2 c b /\ decode ts b = Ok d /\
     d_msgId d = (nth 7 b 0 + 256 * nth 8 b 0 + 65536 * nth 9 b 0)%N /\ d_seq d = nth 4 b 0%N /\
     d_sys d = nth 5 b 0%N /\ d_comp d = nth 6 b 0%N /\ d_class d = c) \/
  ((forall c, ~ frame_v2 c b) /\ decode ts b = Err MAVError).
Proof.
  intros B NE E0. destruct b as [|b0 b]; [tauto|]. simpl in E0.
  unfold decode. change stx with 254%N. rewrite (proj2 (N.eqb_neq b0 254) E0). cbv iota zeta.
  set (sl := if N.eqb (N.land (nth 2 (b0 :: b) 0%N) 1) 0 then 0 else 13).
  assert (SL : sl = if N.testbit (nth 2 (b0 :: b) 0%N) 0 then 13 else 0).
  { unfold sl.
    assert (X : forall x, N.eqb (N.land x 1) 0 = negb (N.testbit x 0)).
    { intros x. change 1%N with (N.ones 1). rewrite N.land_ones. change (2 ^ 1)%N with 2%N. rewrite <- N.bit0_mod.
      destruct (N.testbit x 0); reflexivity. }
    rewrite X. destruct (N.testbit _ 0); reflexivity. }
  destruct (Nat.ltb_spec (length (b0 :: b)) 10) as [L|L].
  - right. split; auto. intros c [_ (body & lo & hi & sig & E & Ls & Hl & _)].
    assert (length (b0 :: b) = length body + 3 + length sig) by (rewrite E; simpl; rewrite !app_length; simpl; lia). lia.
  - destruct (decode_body_spec (b0 :: b) 10 sl b0 (nth 1 (b0 :: b) 0%N) (nth 2 (b0 :: b) 0%N) (nth 3 (b0 :: b) 0%N)
       (nth 4 (b0 :: b) 0%N) (nth 5 (b0 :: b) 0%N) (nth 6 (b0 :: b) 0%N)
       (nth 7 (b0 :: b) 0 + 256 * nth 8 (b0 :: b) 0 + 65536 * nth 9 (b0 :: b) 0)%N) as [(c & A & D)|(A & D)].
    + left. exists c. eexists. pose proof A as A'. destruct A' as (M & AL & I & _).
      split; [|split; [exact D|simpl; auto]].
      split; auto. rewrite <- SL. assert (b0 = 253%N) by tauto. subst b0.
      apply body_accepts_frame; auto; [lia|apply I|]. destruct I as [_ Ei]. rewrite Ei. exact A.
    + right. split; auto. intros c [I Fr]. apply (A c). pose proof I as [Hc Ei]. rewrite <- SL in Fr.
      assert (b0 = 253%N) by (destruct Fr as (? & ? & ? & ? & E & _); congruence). subst b0.
      apply body_accepts_frame in Fr; auto; [|lia]. rewrite <- Ei. exact Fr.
Qed.

Lemma decode_empty : decode ts [] = Err IndexError.
Proof. reflexivity. Qed.
End Decode.
