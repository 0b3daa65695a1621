(** get_msg_fields. *)
From Coq Require Import String Ascii List NArith ZArith Bool Lia Arith Sorting.Sorted.
From Verif.Model Require Import Py Dialect ProtocolMeta MsgHeader Struct Mavlink Segmentation.
From Verif.Spec Require Import Bytes Bits Header CrcSpec Frame Segment Describe.
From Verif.Proofs Require Import Base DialectP HeaderP CrcP StructP MavlinkP FieldsP PackP SendP MavlinkMore SegmentP SegStream SegMore.
Import ListNotations.

Lemma header_pack_ok a q s c i : (a < 256 -> q < 256 -> s < 256 -> c < 256 -> i < 256 ->
  header_pack (Z.of_N a) (Z.of_N q) (Z.of_N s) (Z.of_N c) (Z.of_N i) = Ok [254; a; q; s; c; i])%N.
Proof.
  intros. unfold header_pack, struct_pack. change (parse_fmt "<BBBBBB") with (Ok (repeat (1, "B"%char) 6)). cbn [bind].
  assert (P1 : forall z, (0 <= z <= 255)%Z -> pack_one "B" (VInt z) = Ok [Z.to_N z]).
  { intros z Hz. unfold pack_one. cbn [char_size char_unsigned]. change (2 ^ (8 * Z.of_nat 1))%Z with 256%Z.
    replace ((0 <=? z)%Z && (z <? 256)%Z)%bool with true by lia. cbn [le_bytes]. f_equal. f_equal. apply N.mod_small. lia. }
  cbn [repeat pack_items pack_item fst snd pack_rep].
  do 6 (rewrite P1 by lia; cbn [bind fst snd app]). rewrite !N2Z.id. reflexivity.
Qed.

Lemma nat_index_nth l i : NoDup l -> i < length l -> nat_index l (nth i l 0) = Ok i.
Proof.
  revert i; induction l as [|x l IH]; intros i ND Hi; [simpl in Hi; lia|]. inversion ND; subst. simpl. destruct i as [|i].
  - rewrite Nat.eqb_refl. reflexivity.
  - simpl in Hi. destruct (Nat.eqb_spec (nth i l 0) x) as [E|E].
    + exfalso. apply H1. rewrite <- E. apply nth_In. lia.
    + rewrite IH by (auto; lia). reflexivity.
Qed.

Lemma field_at_wire_spec c j : In c mavlink_classes -> j < f_count c ->
  field_at_wire c j < f_count c /\ f_wire c (field_at_wire c j) = j.
Proof.
  intros H Hj. destruct (wire_facts_in c H) as (items & W). destruct (wf_onto _ _ W j Hj) as (i & Hi & E).
  unfold field_at_wire. destruct (filter _ _) as [|x l] eqn:F.
  - exfalso. assert (X : In i []); [|destruct X]. rewrite <- F. apply filter_In. split; [apply in_seq; lia|]. apply Nat.eqb_eq; auto.
  - assert (X : In x (x :: l)) by (left; auto). rewrite <- F in X. apply filter_In in X. destruct X as [X1 X2].
    apply in_seq in X1. apply Nat.eqb_eq in X2. simpl. lia.
Qed.

(* one field *)
Lemma field_step text c f d st j : In c mavlink_classes -> j < f_count c ->
  d_fields d = map (f_value text c (payload f)) (seq 0 (f_count c)) ->
  (do! type_idx <- nat_index (mc_orders c) j in
   do! ty <- index (mc_fieldtypes c) type_idx in
   do! fi <- str_index (mc_fieldnames c) (nth j (mc_ordered c) ""%string) in
   do! val <- index (d_fields d) fi in
   let name := (mc_name c ++ "_" ++ nth j (mc_ordered c) "")%string in
   Ok (dict_set String.eqb (fst st) name (val, ty), snd st ++ [DField name ty])) =
  (let i := field_at_wire c j in
   Ok (dict_set String.eqb (fst st) (full_name c i) (f_value text c (payload f) i, f_type c i),
       snd st ++ [DField (full_name c i) (f_type c i)])).
Proof.
  intros H Hj Ed. pose proof (class_facts_in _ H) as F.
  destruct (field_at_wire_spec c j H Hj) as [Hi Ei]. set (i := field_at_wire c j) in *. 
  assert (X : nat_index (mc_orders c) j = Ok i).
  { rewrite <- Ei. unfold f_wire. apply nat_index_nth; [apply cf_nodup_orders; auto|]. rewrite (cf_orders _ F). exact Hi. }
  rewrite X. cbn [bind].
  assert (Y : index (mc_fieldtypes c) i = Ok (f_type c i)).
  { unfold f_type. apply index_ok. rewrite (cf_types _ F). exact Hi. }
  rewrite Y. cbn [bind].
  assert (Z : nth j (mc_ordered c) ""%string = nth i (mc_fieldnames c) ""%string).
  { rewrite <- Ei. apply (cf_order_name _ F). exact Hi. }
  rewrite Z. rewrite str_index_nth by (try apply cf_nodup; auto). cbn [bind]. rewrite Ed.
  assert (V : index (map (f_value text c (payload f)) (seq 0 (f_count c))) i = Ok (f_value text c (payload f) i)).
  { unfold index. rewrite nth_error_map. rewrite nth_error_nth' with (d := 0) by (rewrite seq_length; exact Hi). rewrite seq_nth by exact Hi. reflexivity. }
  rewrite V. reflexivity.
Qed.

Lemma fields_loop text c f d : In c mavlink_classes -> d_fields d = map (f_value text c (payload f)) (seq 0 (f_count c)) -> forall n st,
  n <= f_count c ->
  fold_res (fun st (idx_field : nat * string) =>
             let '(idx, field) := idx_field in
             do! type_idx <- nat_index (mc_orders c) idx in
             do! ty <- index (mc_fieldtypes c) type_idx in
             do! fi <- str_index (mc_fieldnames c) field in
             do! val <- index (d_fields d) fi in
             let name := (mc_name c ++ "_" ++ field)%string in
             Ok (dict_set String.eqb (fst st) name (val, ty), snd st ++ [DField name ty]))
    (map (fun j => (j, nth j (mc_ordered c) ""%string)) (seq 0 n)) st =
  Ok (fold_left (fun dd x => dict_set String.eqb dd (fst x) (snd x))
        (map (fun j => let i := field_at_wire c j in (full_name c i, (f_value text c (payload f) i, f_type c i))) (seq 0 n)) (fst st),
      snd st ++ map (fun j => let i := field_at_wire c j in DField (full_name c i) (f_type c i)) (seq 0 n)).
Proof.
  intros H Ed. induction n as [|n IH]; intros st Hn.
  - simpl. rewrite app_nil_r. destruct st; reflexivity.
  - rewrite seq_S, !map_app, fold_res_app, IH, fold_left_app by lia. cbn [map fold_res bind fold_left Nat.add].
    rewrite (field_step text c f d) by (auto; lia). cbv zeta. cbn [bind fst snd]. rewrite <- app_assoc. reflexivity.
Qed.

Lemma combine_seq_map {A} (l : list A) d : combine (seq 0 (length l)) l = map (fun j => (j, nth j l d)) (seq 0 (length l)).
Proof.
  apply nth_ext_eq with (d := (0, d)).
  - rewrite combine_length, map_length, seq_length. lia.
  - intros i Hi. rewrite combine_length, seq_length in Hi. rewrite combine_nth by (rewrite seq_length; auto).
    rewrite (nth_map_lt (fun j => (j, nth j l d)) (seq 0 (length l)) i (0, d) 0) by (rewrite seq_length; lia).
    rewrite seq_nth by lia. reflexivity.
Qed.

Lemma msg_step text b acc0 k i c : is_bytes b -> frame_at (fun f => exists d, decode text f = Ok d) b k i -> is_msg i c ->
  msg_fields_step text b acc0 (k, i) =
  Ok (fold_left (fun dd x => dict_set String.eqb dd (fst x) (snd x)) (frame_values text c (frame_bytes b k)) (fst acc0),
      snd acc0 ++ frame_description c (frame_bytes b k)).
Proof.
  intros B Fr M. pose proof Fr as (Hd & N5 & [d Ed]). pose proof M as [Mi Mj].
  unfold msg_fields_step.
  assert (PL : payload_length i = Some (announced b k)).
  { destruct Hd as [L V]. assert (X1 : nth 1 (firstn 6 (skipn k b)) 0%N = nth (k + 1) b 0%N) by (apply nth_hdr; lia).
    assert (X5 : nth 5 (firstn 6 (skipn k b)) 0%N = nth (k + 5) b 0%N) by (apply nth_hdr; lia).
    unfold announced. destruct V as [n q s0 c0 i0 P]. cbn [nth] in X1, X5. rewrite <- X1, Nat2N.id. 
    apply payload_length_spec. rewrite <- N5, <- X5. auto. }
  rewrite PL. cbn [bind]. rewrite (frame_slice (fun _ => Ok tt)) by auto. rewrite Ed. cbn [bind].
  set (f := frame_bytes b k) in *.
  assert (Bf : is_bytes f) by (apply frame_bytes_bytes; auto).
  assert (E0 : nth 0 f 0%N = 254%N).
  { unfold f. rewrite (frame_bytes_nth text) by lia. rewrite Nat.add_0_r. apply (valid_header_254 text); auto. }
  apply (decode_v1_iff text f Bf E0) in Ed. destruct Ed as (c' & F & Dc & Di & Dm & Dq & Ds & Dcm & _ & _ & _ & Df).
  assert (Ecc : c' = c).
  { destruct F as [F _]. apply (is_msg_fun i); auto. unfold f in F. rewrite (frame_bytes_nth text) in F by lia. rewrite N5 in F. auto. }
  rewrite Ecc in Dc, Df, F. rewrite Dc, Di, Dm, Dq, Ds, Dcm.
  rewrite header_pack_ok by (apply is_bytes_nth; auto). cbn [bind].
  assert (LO : length (mc_ordered c) = f_count c) by (apply cf_ordered, class_facts_in; auto).
  rewrite combine_seq_map with (d := ""%string), LO. rewrite (fields_loop text c f d Mi Df (f_count c)) by lia. cbn [bind fst snd].
  f_equal. f_equal. unfold frame_description. rewrite <- !app_assoc. cbn [app]. f_equal. f_equal.
  f_equal. symmetry.
  assert (L6 : length (firstn 6 f) = 6).
  { rewrite firstn_length. unfold f. rewrite (length_frame_bytes b) by (destruct Hd; lia). destruct Hd. unfold frame_end. lia. }
  rewrite (six _ L6). rewrite !nth_firstn by lia. rewrite E0. reflexivity.
Qed.

Lemma last_wins (l : list (string * (fieldval * string))) : forall dd nm v,
  dict_get String.eqb (fold_left (fun dd x => dict_set String.eqb dd (fst x) (snd x)) l dd) nm = Some v <->
  (exists pre post, l = pre ++ (nm, v) :: post /\ ~ In nm (map fst post)) \/
  (~ In nm (map fst l) /\ dict_get String.eqb dd nm = Some v).
Proof.
  induction l as [|[x y] l IH]; intros dd nm v; simpl.
  - split; [auto|]. intros [(pre & post & E & _)|[_ H]]; auto. destruct pre; discriminate.
  - rewrite IH, (dict_get_set _ streqb_spec). split.
    + intros [(pre & post & -> & N)|[N G]].
      * left. exists ((x, y) :: pre), post. auto.
      * destruct (String.eqb_spec nm x) as [->|NE].
        -- injection G as ->. left. exists [], l. auto.
        -- right. split; auto. intros [E|E]; congruence.
    + intros [(pre & post & E & N)|[N G]].
      * destruct pre as [|p pre]; injection E; intros; subst.
        -- right. split; auto. rewrite String.eqb_refl. auto.
        -- left. exists pre, post. auto.
      * right. split; [tauto|]. destruct (String.eqb_spec nm x) as [->|NE]; auto. exfalso. apply N. auto.
Qed.

Lemma msgs_loop text b : is_bytes b -> forall s cs acc0,
  Forall (fun ki => frame_at (fun f => exists d, decode text f = Ok d) b (fst ki) (snd ki)) s ->
  Forall2 (fun ki c => is_msg (snd ki) c) s cs ->
  fold_res (msg_fields_step text b) s acc0 =
  Ok (fold_left (fun dd x => dict_set String.eqb dd (fst x) (snd x))
        (concat (map (fun x => frame_values text (snd x) (frame_bytes b (fst (fst x)))) (combine s cs))) (fst acc0),
      snd acc0 ++ concat (map (fun x => frame_description (snd x) (frame_bytes b (fst (fst x)))) (combine s cs))).
Proof.
  intros B. induction s as [|[k i] s IH]; intros cs acc0 F F2; inversion F2; subst.
  - simpl. rewrite app_nil_r. destruct acc0; reflexivity.
  - inversion F; subst. cbn [fold_res]. rewrite (msg_step text b acc0 k i y) by auto. cbn [bind].
    rewrite (IH l') by auto. cbn [combine map concat fst snd]. rewrite fold_left_app, <- app_assoc. reflexivity.
Qed.

Lemma get_fields_spec text b p v s cs : is_bytes b -> segment_buffer (decode text) b = Ok (p, v, s) ->
  Forall2 (fun ki c => is_msg (snd ki) c) s cs ->
  (s = [] -> get_msg_fields text (decode text) b = Ok BareDict) /\
  (s <> [] -> exists fields,
     get_msg_fields text (decode text) b = Ok (FieldsAndDescription fields
       (concat (map (fun x => frame_description (snd x) (frame_bytes b (fst (fst x)))) (combine s cs)))) /\
     forall nm val, dict_get String.eqb fields nm = Some val <->
       exists pre post, concat (map (fun x => frame_values text (snd x) (frame_bytes b (fst (fst x)))) (combine s cs)) =
         pre ++ (nm, val) :: post /\ ~ In nm (map fst post)).
Proof.
  intros B E F2. pose proof E as E0. apply segment_ok_iff in E; auto. destruct E as ((S1 & _) & _).
  unfold get_msg_fields. rewrite E0. cbn [bind snd].
  split.
  - intros ->. reflexivity.
  - intros NE. destruct s as [|x s]; [congruence|]. rewrite (msgs_loop text b B (x :: s) cs).
    + cbn [bind fst snd app]. eexists. split; [reflexivity|]. intros nm val. rewrite last_wins. split; [|auto].
      intros [H|[_ H]]; auto. discriminate.
    + apply Forall_forall. intros [k i] I. apply S1; auto.
    + auto.
Qed.

Lemma segment_classes text b p v s : is_bytes b -> segment_buffer (decode text) b = Ok (p, v, s) ->
  exists cs, Forall2 (fun ki c => is_msg (snd ki) c) s cs.
Proof.
  intros B E. apply segment_ok_iff in E; auto. destruct E as ((S1 & _) & _).
  assert (S2 : forall k i, In (k, i) s -> exists c, is_msg i c).
  { intros k i I. destruct (S1 _ _ I) as [_ F]. apply decode_frame_inside in F; auto. destruct F as (_ & c & M & _). eauto. }
  clear -S2. induction s as [|[k i] s IH].
  - exists []. constructor.
  - destruct IH as (cs & IH); [intros; eapply S2; right; eauto|]. destruct (S2 k i) as [c M]; [left; auto|].
    exists (c :: cs). constructor; auto.
Qed.
