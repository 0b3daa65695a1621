(** pack followed by decode. *)
From Coq Require Import String Ascii List NArith ZArith Bool Lia ZifyBool ZifyNat ZifyN.
From Verif.Model Require Import Py Dialect ProtocolMeta Struct Crc Mavlink.
From Verif.Spec Require Import Bytes Bits Header CrcSpec Frame.
From Verif.Proofs Require Import Base BitOpsP DialectP HeaderP HeaderMore StructP CrcP MavlinkP FieldsP.
Import ListNotations.

Definition item_ok (it : nat * ascii) (a : list pyval) : Prop :=
  Forall val_wf a /\
  if Ascii.eqb (snd it) "s" then exists b, a = [VBytes b]
  else length a = fst it /\ forall v, In v a -> exists b, pack_one (snd it) v = Ok b.

Definition rb (p : (nat * ascii) * list pyval) : list pyval :=
  if Ascii.eqb (snd (fst p)) "s" then match snd p with VBytes b :: _ => [VBytes (pad (fst (fst p)) b)] | a => a end else snd p.

Lemma pack_rep_total n c a rest : length a = n -> (forall v, In v a -> exists b, pack_one c v = Ok b) ->
  exists b, pack_rep n c (a ++ rest) = Ok (b, rest).
Proof.
  revert a; induction n; intros a L H.
  - destruct a; [|discriminate]. simpl. eauto.
  - destruct a as [|v a]; [discriminate|]. simpl.
    destruct (H v ltac:(simpl; auto)) as (b1 & ->). simpl.
    destruct (IHn a ltac:(simpl in L; lia) (fun v' Hv => H v' (or_intror Hv))) as (b2 & ->). simpl. eauto.
Qed.

Lemma pack_items_total items argss : Forall2 item_ok items argss -> exists b, pack_items items (concat argss) = Ok b.
Proof.
  induction 1 as [|it a items argss [Wf H] _ (b & IH)]; [simpl; eauto|].
  cbn [pack_items concat]. rewrite pack_item_eq. destruct (Ascii.eqb (snd it) "s").
  - destruct H as (b0 & ->). simpl. rewrite IH. simpl. eauto.
  - destruct H as [L P]. destruct (pack_rep_total _ _ _ (concat argss) L P) as (b1 & ->). simpl. rewrite IH. simpl. eauto.
Qed.

Lemma app_inv_len {A} (a b c d : list A) : length a = length c -> a ++ b = c ++ d -> a = c /\ b = d.
Proof.
  revert c; induction a; intros [|x c] L E; try discriminate; auto. simpl in *. injection E as -> E.
  destruct (IHa c ltac:(lia) E). subst. auto.
Qed.

Lemma reads_back_concat items argss us : Forall2 item_ok items argss -> reads_back items (concat argss) us ->
  us = concat (map rb (combine items argss)).
Proof.
  intros F. revert us. induction F as [|it a items argss [Wf H] _ IH]; intros us R.
  - inv R. reflexivity.
  - cbn [concat combine map] in *. unfold rb at 1. cbn [fst snd].
    inversion R as [|n b l vs us1 R1 E1 E2 E3|n c us' l vs us1 NS L R1 E1 E2 E3]; subst; cbn [fst snd] in *.
    + destruct H as (b0 & ->). simpl in E2. injection E2 as -> ->. simpl. rewrite (IH us1); auto.
    + rewrite (proj2 (Ascii.eqb_neq c "s") NS) in *. destruct H as [L P].
      destruct (app_inv_len us' vs a (concat argss) ltac:(congruence) E2) as [-> ->].
      rewrite (IH us1); auto.
Qed.

Lemma slice_concat {A} (ls : list (list A)) j : j < length ls ->
  slice (concat ls) (list_sum (map (@length A) (firstn j ls))) (list_sum (map (@length A) (firstn j ls)) + length (nth j ls [])) = nth j ls [].
Proof.
  intros H.
  assert (E : ls = firstn j ls ++ [nth j ls []] ++ skipn (S j) ls).
  { rewrite <- (firstn_skipn j ls) at 1. f_equal. revert j H. induction ls; intros j H; [simpl in H; lia|].
    destruct j; simpl; auto. apply IHls. simpl in H; lia. }
  rewrite E at 1. rewrite !concat_app. cbn [concat]. rewrite app_nil_r. apply slice_at; auto.
  generalize (firstn j ls). clear. induction l; simpl; auto. rewrite app_length, IHl. reflexivity.
Qed.

Lemma pack_unpack items argss : Forall2 item_ok items argss ->
  exists b, pack_items items (concat argss) = Ok b /\ length b = items_size items /\ is_bytes b /\
            forall rest, unpack_items items (b ++ rest) = concat (map rb (combine items argss)).
Proof.
  intros H. destruct (pack_items_total _ _ H) as (b & E). exists b. split; auto.
  assert (W : Forall val_wf (concat argss)).
  { clear E b. induction H as [|? ? ? ? [? ?]]; simpl; [constructor|]. apply Forall_app. auto. }
  destruct (pack_items_ok _ _ _ E W) as (L & B & us & R & U). repeat split; auto.
  intros rest. rewrite U. apply reads_back_concat; auto.
Qed.

Lemma map_res_exists {A B} (f : A -> res B) l : (forall x, In x l -> exists y, f x = Ok y) -> exists r, map_res f l = Ok r.
Proof.
  induction l; intros H; simpl; [eauto|]. destruct (H a ltac:(simpl; auto)) as (y & ->). simpl.
  destruct IHl as (r & ->); [intros; apply H; simpl; auto|]. simpl. eauto.
Qed.

Lemma str_index_nth l i : NoDup l -> i < length l -> str_index l (nth i l ""%string) = Ok i.
Proof.
  revert i; induction l; intros i ND H; [simpl in H; lia|]. inv ND. destruct i; simpl.
  - rewrite String.eqb_refl. reflexivity.
  - destruct (String.eqb_spec (nth i l ""%string) a) as [E|E].
    + exfalso. apply H2. rewrite <- E. apply nth_In. simpl in H; lia.
    + rewrite IHl by (auto; simpl in H; lia). reflexivity.
Qed.

Definition args_of (v : fieldval) : list pyval := match v with FOne v => [v] | FMany l => l | FText _ => [] end.

Lemma fits_args c i v : fits c i v -> (v <> FText []) /\
  match v with FOne v => Ok [v] | FMany l => Ok l | FText _ => Err StructError end = Ok (args_of v).
Proof.
  unfold fits. intros H. split.
  - intros ->. destruct (String.eqb _ _); [destruct H as (? & ? & _); discriminate|].
    destruct (Nat.eqb _ _); destruct H as (? & ? & _); discriminate.
  - destruct v; auto. destruct (String.eqb _ _); [destruct H as (? & ? & _); discriminate|].
    destruct (Nat.eqb _ _); destruct H as (? & ? & _); discriminate.
Qed.

Lemma pack_args_ok c fs : In c mavlink_classes -> fits_all c fs ->
  exists argss, pack_args (Msg c fs) = Ok (concat argss) /\ length argss = f_count c /\
    forall i, i < f_count c -> nth (f_wire c i) argss [] = args_of (nth i fs (FText [])).
Proof.
  intros H [L Ft]. pose proof (class_facts_in _ H) as F. destruct (wire_facts_in c H) as (items & W).
  unfold pack_args. cbn [m_class m_fields].
  match goal with |- context[map_res ?g (mc_ordered c)] => set (f := g) end.
  assert (FN : forall i, i < f_count c -> f (nth (f_wire c i) (mc_ordered c) ""%string) = Ok (args_of (nth i fs (FText [])))).
  { intros i Hi. unfold f. unfold f_wire. rewrite (cf_order_name _ F i Hi).
    rewrite str_index_nth by (auto; apply cf_nodup; auto). cbn [bind].
    rewrite index_ok with (d := FText []) by lia. cbn [bind]. apply (fits_args c i). auto. }
  destruct (map_res_exists f (mc_ordered c)) as (argss & E).
  { intros x Hx. apply In_nth with (d := ""%string) in Hx. destruct Hx as (j & Hj & <-).
    rewrite (cf_ordered _ F) in Hj. destruct (wf_onto _ _ W j Hj) as (i & Hi & <-). eauto. }
  rewrite E. cbn [bind]. exists argss. split; auto.
  split; [rewrite (map_res_length _ _ E); apply (cf_ordered _ F)|].
  intros i Hi. specialize (FN i Hi).
  rewrite (map_res_nth f (mc_ordered c) (i := f_wire c i) ""%string [] E) in FN; [congruence|].
  rewrite (cf_ordered _ F). apply (wf_wire _ _ W); auto.
Qed.

Lemma c_ok_wf ty v : c_ok ty v -> val_wf v.
Proof. destruct v; simpl; tauto. Qed.

Lemma fits_item_ok c items i v : In c mavlink_classes -> wire_facts c items -> i < f_count c -> fits c i v ->
  item_ok (nth (f_wire c i) items (0, " "%char)) (args_of v).
Proof.
  intros H W Hi Ft. destruct (wf_item _ _ W i Hi) as (sz & ch & C & I & _). rewrite I. unfold item_ok. cbn [fst snd].
  rewrite (ctype_char _ _ _ C). unfold fits in Ft.
  destruct (String.eqb_spec (f_type c i) "char") as [T|T].
  - destruct Ft as (b & -> & B). simpl. split; [constructor; auto|eauto].
  - destruct (Nat.eqb_spec (f_array c i) 0) as [E|E].
    + destruct Ft as (x & -> & K). rewrite E. simpl. split; [constructor; [eapply c_ok_wf; eauto|constructor]|].
      split; auto. intros v [<-|[]]. eapply c_ok_pack; eauto.
    + destruct Ft as (l & -> & Ll & K). simpl args_of. split; [eapply Forall_impl; [|exact K]; intros; eapply c_ok_wf; eauto|].
      split; [lia|]. rewrite Forall_forall in K. intros v Hv. eapply c_ok_pack; eauto.
Qed.

Section Text.
Variable ts : bytes -> list N.

Lemma nth_combine {A B} (l : list A) (l' : list B) i a b : i < length l -> length l = length l' ->
  nth i (combine l l') (a, b) = (nth i l a, nth i l' b).
Proof. intros. apply combine_nth; auto. Qed.

Lemma nvals_rb it a : item_ok it a -> length (rb (it, a)) = nvals it.
Proof.
  unfold item_ok, rb, nvals. cbn [fst snd]. destruct (Ascii.eqb (snd it) "s"); intros [_ H]; [destruct H as (b & ->); reflexivity|tauto].
Qed.

(** Payload of a message whose fields fit. *)
Lemma payload_ok c fs : In c mavlink_classes -> fits_all c fs ->
  exists pl, (do! args <- pack_args (Msg c fs) in struct_pack (mc_pack_fmt c) args) = Ok pl /\
    length pl = wire_size c /\ is_bytes pl /\
    decoded_fields ts c pl = map (fun i => returned ts c i (nth i fs (FText []))) (seq 0 (f_count c)).
Proof.
  intros H Ft. pose proof (class_facts_in _ H) as F. destruct (wire_facts_in c H) as (items & W).
  destruct (pack_args_ok c fs H Ft) as (argss & EA & LA & NA). destruct Ft as [Lf Ft].
  rewrite EA. cbn [bind]. unfold struct_pack. rewrite (cf_packfmt _ F), (wf_parse _ _ W). cbn [bind].
  assert (IO : Forall2 item_ok items argss).
  { assert (G : forall j, j < length items -> item_ok (nth j items (0, " "%char)) (nth j argss [])).
    { intros j Hj. rewrite (wf_len _ _ W) in Hj. destruct (wf_onto _ _ W j Hj) as (i & Hi & <-).
      rewrite NA by auto. eapply fits_item_ok; eauto. }
    assert (LL : length items = length argss) by (rewrite LA; apply (wf_len _ _ W)).
    clear -G LL. revert argss LL G. induction items as [|it items IH]; intros [|a argss] LL G; try discriminate; constructor.
    - apply (G 0). simpl; lia.
    - apply IH; [simpl in LL; lia|]. intros j Hj. apply (G (S j)). simpl; lia. }
  destruct (pack_unpack _ _ IO) as (pl & EP & LP & BP & U).
  exists pl. split; auto. split; [rewrite LP; apply (wf_size _ _ W)|]. split; auto.
  unfold decoded_fields. rewrite (wf_parse _ _ W). cbv zeta.
  rewrite <- LP, Nat.sub_diag. cbn [repeat]. rewrite app_nil_r, firstn_all.
  specialize (U []). rewrite app_nil_r in U. rewrite U.
  set (us := concat (map rb (combine items argss))).
  assert (LL : length items = length argss) by (rewrite LA; apply (wf_len _ _ W)).
  assert (LR : map (@length pyval) (map rb (combine items argss)) = map nvals items).
  { clear -IO. induction IO; simpl; auto. rewrite nvals_rb by auto. f_equal; auto. }
  assert (Lus : length us = list_sum (map nvals items)).
  { rewrite <- LR. unfold us. generalize (map rb (combine items argss)). induction l; simpl; auto. rewrite app_length. lia. }
  assert (Lo : length (mc_orders c) = f_count c) by apply (cf_orders _ F).
  apply nth_ext_eq with (d := FText []).
  { rewrite terminate_length, !map_length, seq_length. exact Lo. }
  rewrite terminate_length, map_length, Lo. intros i Hi.
  rewrite terminate_nth by (rewrite map_length; rewrite ?(cf_types _ F); unfold f_count in *; lia).
  rewrite nth_map_lt with (d' := 0) by lia. fold (f_wire c i).
  rewrite nth_map_lt with (d' := 0) by (rewrite seq_length; auto). rewrite seq_nth by auto. simpl Nat.add.
  pose proof (wf_wire _ _ W i Hi) as Wi.
  rewrite field_at_eq with (items := items) by auto. cbv zeta.
  assert (SL : slice us (list_sum (map nvals (firstn (f_wire c i) items)))
       (list_sum (map nvals (firstn (f_wire c i) items)) + nvals (nth (f_wire c i) items (0, " "%char))) =
       rb (nth (f_wire c i) items (0, " "%char), args_of (nth i fs (FText [])))).
  { rewrite <- NA by auto. rewrite <- nth_combine by (auto; rewrite (wf_len _ _ W); auto).
    rewrite <- (nth_map_lt rb _ _ []) by (rewrite combine_length, <- LL, Nat.min_id, (wf_len _ _ W); auto).
    rewrite <- firstn_map, <- LR, firstn_map.
    rewrite <- (nvals_rb (nth (f_wire c i) items (0, " "%char)) (nth (f_wire c i) argss [])).
    2:{ rewrite NA by auto. eapply fits_item_ok; eauto. }
    rewrite <- nth_combine by (auto; rewrite (wf_len _ _ W); auto).
    rewrite <- (nth_map_lt rb _ _ []) by (rewrite combine_length, <- LL, Nat.min_id, (wf_len _ _ W); auto).
    apply slice_concat. rewrite map_length, combine_length, <- LL, Nat.min_id, (wf_len _ _ W); auto. }
  rewrite SL. specialize (Ft i Hi).
  destruct (wf_item _ _ W i Hi) as (sz & ch & C & I & _). pose proof (wf_isize _ _ W i Hi) as IZ. rewrite I in *.
  unfold rb, nvals. cbn [fst snd]. rewrite (ctype_char _ _ _ C). unfold term1. fold (f_type c i).
  unfold fits in Ft. destruct (String.eqb_spec (f_type c i) "char") as [T|T].
  - destruct Ft as (b & -> & B). cbn [args_of Nat.eqb nth returned].
    unfold pad. rewrite T in C. inversion C; subst. unfold item_size in IZ. cbn [fst snd char_size] in IZ.
    rewrite Nat.mul_1_r in IZ. rewrite IZ. reflexivity.
  - pose proof (f_array_not_one c i H) as N1. destruct (Nat.eqb_spec (f_array c i) 0) as [E|E].
    + destruct Ft as (x & -> & K). rewrite E. cbn [args_of Nat.max Nat.eqb nth returned]. destruct x; auto. destruct K.
    + destruct Ft as (l & -> & Ll & K). cbn [args_of returned]. destruct (Nat.eqb_spec (Nat.max 1 (f_array c i)) 1); [lia|]. reflexivity.
Qed.

(** pack succeeds on a message whose fields fit, with header values that fit a byte, and decode returns what was packed. *)
Lemma pack_decode c fs seq sys comp : In c mavlink_classes -> fits_all c fs -> in_byte seq -> in_byte sys -> in_byte comp ->
  exists b, message_pack (Msg c fs) seq sys comp = Ok b /\ is_bytes b /\ length b = 8 + wire_size c /\
    firstn 6 b = [254; N.of_nat (wire_size c); Z.to_N seq; Z.to_N sys; Z.to_N comp; mc_id c]%N /\
    frame_v1 c b /\
    decode ts b = Ok (Decoded (mc_id c) (N.of_nat (wire_size c)) (Z.to_N seq) (Z.to_N sys) (Z.to_N comp) 0 0
                        (crc16 (slice b 1 (6 + wire_size c) ++ [mc_crc_extra c])) c
                        (map (fun i => returned ts c i (nth i fs (FText []))) (List.seq 0 (f_count c)))).
Proof.
  intros H Ft S1 S2 S3. pose proof (class_facts_in _ H) as F. destruct (wire_facts_in c H) as (items & W).
  destruct (payload_ok c fs H Ft) as (pl & EP & LP & BP & DP).
  pose proof (wf_small _ _ W) as SM. pose proof (cf_id _ F) as IDB.
  set (h := [254; N.of_nat (wire_size c); Z.to_N seq; Z.to_N sys; Z.to_N comp; mc_id c]%N).
  assert (EH : header_pack (Z.of_nat (length pl)) seq sys comp (Z.of_N (mc_id c)) = Ok h).
  { unfold header_pack, struct_pack. change (parse_fmt "<BBBBBB") with (Ok (repeat (1, "B"%char) 6)). cbn [bind].
    rewrite LP. unfold in_byte in *.
    assert (P1 : forall z, (0 <= z <= 255)%Z -> pack_one "B" (VInt z) = Ok [Z.to_N z]).
    { intros z Hz. unfold pack_one. cbn [char_size char_unsigned]. change (2 ^ (8 * Z.of_nat 1))%Z with 256%Z.
      replace ((0 <=? z)%Z && (z <? 256)%Z)%bool with true by lia. cbn [le_bytes]. f_equal. f_equal. apply N.mod_small. lia. }
    cbn [repeat pack_items pack_item fst snd pack_rep].
    do 6 (rewrite P1 by lia; cbn [bind fst snd app]). unfold h. replace (Z.to_N (Z.of_nat (wire_size c))) with (N.of_nat (wire_size c)) by lia.
    rewrite N2Z.id. reflexivity. }
  assert (Bh : is_bytes h).
  { unfold in_byte in *. unfold h. repeat apply Forall_cons; auto; lia. }
  set (body := skipn 1 h ++ pl).
  assert (Bb : is_bytes body) by (apply is_bytes_app; split; [apply is_bytes_skipn|]; auto).
  set (crc := crc16 (body ++ [mc_crc_extra c])).
  assert (CB : (crc < 65536)%N) by (apply crc_bits_bound; lia).
  assert (EC : x25_accumulate (x25crc (skipn 1 (h ++ pl))) [mc_pack_extra c] = crc).
  { unfold x25crc. rewrite <- x25_app. change (skipn 1 (h ++ pl)) with body. rewrite (cf_pextra _ F).
    apply x25crc_is_crc16. apply is_bytes_app. split; auto. constructor; [apply cf_extra; auto|constructor]. }
  assert (ET : struct_pack "<H" [VInt (Z.of_N crc)] = Ok (le_bytes 2 crc)).
  { unfold struct_pack. change (parse_fmt "<H") with (Ok [(1, "H"%char)]). cbn [bind pack_items pack_item fst snd pack_rep].
    unfold pack_one. cbn [char_size char_unsigned]. change (2 ^ (8 * Z.of_nat 2))%Z with 65536%Z.
    replace ((0 <=? Z.of_N crc)%Z && (Z.of_N crc <? 65536)%Z)%bool with true by lia. cbn [bind]. cbn [fst snd]. rewrite N2Z.id.
    rewrite !app_nil_r. reflexivity. }
  set (b := (h ++ pl) ++ le_bytes 2 crc).
  assert (EM : message_pack (Msg c fs) seq sys comp = Ok b).
  { unfold message_pack. apply bind_ok in EP. destruct EP as (args & EA & EP). rewrite EA. cbn [bind m_class]. rewrite EP. cbn [bind].
    unfold pack_frame. rewrite EH. cbn [bind]. cbv zeta. rewrite EC, ET. reflexivity. }
  assert (Lb : length b = 8 + wire_size c).
  { unfold b. rewrite !app_length, length_le_bytes, LP. simpl. lia. }
  assert (Bbb : is_bytes b).
  { unfold b. apply is_bytes_app. split; [apply is_bytes_app; auto|apply le_bytes_is_bytes]. }
  assert (F6 : firstn 6 b = h) by reflexivity.
  assert (EB : b = 254%N :: body ++ [(crc mod 256)%N; (crc / 256 mod 256)%N] ++ []).
  { rewrite app_nil_r. reflexivity. }
  assert (LBo : length body = 5 + wire_size c) by (unfold body; rewrite app_length, LP; reflexivity).
  assert (FR : frame_v1 c b).
  { split; [split; auto|]. exists body, (crc mod 256)%N, (crc / 256 mod 256)%N, []. split; auto. split; auto.
    split; [lia|]. split; [rewrite LBo; change (nth 1 b 0%N) with (N.of_nat (wire_size c)); f_equal; lia|].
    fold crc. rewrite (N.mod_small (crc / 256)) by (apply N.div_lt_upper_bound; lia).
    rewrite N.add_comm. symmetry. apply N.div_mod. lia. }
  exists b. do 5 (split; auto).
  destruct (decode_v1 ts b Bbb eq_refl) as [(c' & [Fi _] & D)|(NF & _)]; [|exfalso; eapply NF; eauto].
  assert (c' = c) by (eapply is_msg_fun; [exact Fi|apply FR]). subst c'. rewrite D.
  assert (Pl : payload b = pl).
  { unfold payload. rewrite Lb. replace (8 + wire_size c - 8) with (length pl) by lia.
    unfold b. rewrite <- app_assoc. change (skipn 6 (h ++ pl ++ le_bytes 2 crc)) with (pl ++ le_bytes 2 crc).
    rewrite firstn_app, firstn_all, Nat.sub_diag. simpl. apply app_nil_r. }
  rewrite Pl, DP. f_equal. f_equal.
  rewrite Lb. replace (8 + wire_size c - 2) with (length (h ++ pl)) by (rewrite app_length, LP; simpl; lia).
  assert (SB : slice b 1 (6 + wire_size c) = body).
  { unfold slice. change (skipn 1 b) with (body ++ le_bytes 2 crc). replace (6 + wire_size c - 1) with (length body) by lia.
    rewrite firstn_app, firstn_all, Nat.sub_diag, firstn_O. apply app_nil_r. }
  rewrite SB. fold crc. unfold b. rewrite skipn_app, skipn_all, Nat.sub_diag. cbn [app skipn].
  apply le_val_le_bytes. exact CB.
Qed.
End Text.
