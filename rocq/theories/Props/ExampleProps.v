(** C103: the two ways of training a model of fields, and the example that shows them. *)
From Coq Require Import String Ascii List NArith ZArith Bool Lia Arith.
From Verif.Model Require Import Py Float Dialect Struct Mavlink Segmentation StatModels ExampleScript.
From Verif.Spec Require Import Bytes Bits Header Frame Segment Describe RealOps Stats ExampleSpec.
From Verif.Proofs Require Import Base DialectP LayoutP BufModelP ExampleP.
From Verif.Props Require Import MavlinkProps SegmentProps StatProps RectifyProps.
Import ListNotations.

(** Segmenting each buffer and adding its fields: every field has, in the order of the buffers, one sample for each buffer that contains it, the
    value in the last message with this field; nothing else is learned, in particular no byte of a header, and the model counts no buffers. *)
Theorem c103_by_fields : forall (FO : fops) text w bs ss sls, window_ok w -> Forall2 (cut_into text) bs ss -> Forall (fun s => s <> []) ss -> Forall2 payloads ss sls ->
  exists m, train_by_fields FO text w bs = (m, Ok tt) /\ bm_size FO m = 0%Z /\
  forall nm, let values := flat_map (fun bsl => newest nm (fst bsl) (snd bsl)) (combine bs sls) in
    match bm_get FO m nm with
    | None => values = []
    | Some f => values <> [] /\ fm_samples FO f = windowed w values /\ fm_name FO f = nm /\ fm_window FO f = w /\
                exists sl x, In sl sls /\ In x sl /\ s_name x = nm /\ fm_type FO f = s_type x
    end.
Proof.
  intros FO text w bs ss sls W F Ne Py. destruct (fields_way FO text w bs ss sls W F Ne Py [] (bm_init FO [] w) (init_inv FO w)) as (m & l & E & I & S & V & O).
  exists m. split; [exact E|]. split; [exact S|]. intros nm. cbv zeta. pose proof (inv_read FO w _ m nm I) as R. cbn [app] in R. rewrite <- V.
  destruct (bm_get FO m nm) as [f|]; [|exact R]. destruct R as (R1 & R2 & R3 & R4 & v & ty & R5 & R6). repeat (split; [assumption|]).
  destruct (O _ R5) as (b & sl & y & H1 & H2 & H3). exists sl, y. split; [apply (in_combine_r _ _ _ _ H1)|]. split; [exact H2|]. unfold slot_sample in H3. injection H3 as -> _ ->. split; [reflexivity|exact R6].
Qed.
Print Assumptions c103_by_fields.

(** Buffers that are all cut into the same messages, no message twice: both ways learn the same samples of all fields of messages.  Only the first
    learns the bytes of the headers and counts the buffers. *)
Theorem c103_same : forall (FO : fops) text w s bs, window_ok w -> bs <> [] -> s <> [] -> Forall (fun b => cut_into text b s) bs -> NoDup (map snd s) ->
  exists m1 m2, train_by_buffers FO text w bs = (m1, Ok tt) /\ train_by_fields FO text w bs = (m2, Ok tt) /\
    bm_size FO m1 = saturated w (length bs) /\ bm_size FO m2 = 0%Z /\
    (forall c i, In c mavlink_classes -> i < f_count c ->
       match bm_get FO m1 (full_name c i), bm_get FO m2 (full_name c i) with
       | None, None => ~ exists k, In (k, mc_id c) s
       | Some f1, Some f2 => (exists k, In (k, mc_id c) s) /\ fm_samples FO f1 = fm_samples FO f2 /\ fm_name FO f1 = fm_name FO f2 /\ fm_type FO f1 = fm_type FO f2 /\ fm_window FO f1 = fm_window FO f2
       | _, _ => False
       end) /\
    (forall k i c nm, In (k, i) s -> is_msg i c ->
       In nm ["magic"; (mc_name c ++ "_mlen"); "seq"; "srcSystem"; (mc_name c ++ "_srcComponent"); (mc_name c ++ "_msgId")]%string ->
       bm_get FO m1 nm <> None /\ bm_get FO m2 nm = None).
Proof.
  intros FO text w s bs W Nb Ns F ND. assert (Pl : exists n, Forall (plain_in n) s) by (destruct F as [|b bs (_ & P & _) _]; [congruence|eauto]). destruct Pl as (n & Pl).
  destruct (payloads_exist n s Pl) as (sl & Py). destruct (layout_exists n s Pl) as (full & L). pose proof (payload_nodup s sl Py ND) as NN.
  assert (F2 : Forall2 (cut_into text) bs (repeat s (length bs))) by (clear -F; induction F; [constructor|cbn; constructor; auto]).
  assert (Py2 : Forall2 payloads (repeat s (length bs)) (repeat sl (length bs))) by (clear -Py; induction bs; [constructor|cbn; constructor; auto]).
  destruct (fields_way FO text w bs _ _ W F2 ltac:(apply Forall_forall; intros x Hx; apply repeat_spec in Hx; subst; exact Ns) Py2 [] _ (init_inv FO w)) as (m2 & l2 & E2 & I2 & S2 & V2 & O2).
  assert (F1 : Forall (fun b => is_bytes b /\ Forall (plain_in (length b)) s) bs) by (eapply Forall_impl; [|exact F]; intros b (B & P & _); auto).
  destruct (buffers_way FO w s full bs W L F1 [] _ (init_inv FO w)) as (m1 & E1 & I1).
  pose proof (buffers_size FO w s full bs W L F1 [] _ 0 (init_inv FO w)) as Sz. rewrite E1 in Sz. cbn [fst] in Sz.
  exists m1, m2. split.
  { unfold train_by_buffers. destruct bs as [|b bs]; [congruence|]. cbn [index nth_error bind]. inversion F as [|? ? (_ & _ & p & v & Eb) _]; subst. rewrite Eb. cbn [snd]. exact E1. }
  split; [exact E2|]. split; [apply Sz; unfold bm_init, saturated; destruct w as [z|]; cbn in *; lia|]. split; [exact S2|]. split.
  - intros c i Hc Hi. set (nm := full_name c i). pose proof (inv_read FO w _ m1 nm I1) as R1. pose proof (inv_read FO w _ m2 nm I2) as R2. cbn [app] in R1, R2.
    rewrite values_first in R1. rewrite (layout_filter s full sl nm L Py ltac:(exists c, i; auto)) in R1. rewrite V2, values_second in R2 by exact NN.
    set (vals := flat_map (fun b => map (slot_value b) (filter (fun x => String.eqb (s_name x) nm) sl)) bs) in *.
    assert (Here : vals = [] <-> ~ exists k, In (k, mc_id c) s).
    { split.
      - intros Z (k & Ik). assert (X : exists x, In x (filter (fun x => String.eqb (s_name x) nm) sl)).
        { destruct (wire_exists c i Hc Hi) as (j & Hj & Ej). clear -Ik Py Hc Hi Hj Ej. unfold nm. induction Py as [|k' i' c' s sl M Py IH]; [destruct Ik|]. destruct Ik as [E|Ik].
          - injection E as -> ->. assert (c' = c) by (eapply is_msg_fun; eauto; split; [exact Hc|reflexivity]). subst c'. rewrite body_skip. exists (Slot (full_name c i) (f_type c i) (k + 6 + f_offset c i) (f_width c i)).
            apply filter_In. split; [|apply String.eqb_refl]. apply in_or_app. left. unfold body_slots. apply in_map_iff. exists j. cbv zeta. rewrite Ej. split; [reflexivity|apply in_seq; lia].
          - destruct (IH Ik) as (x & Hx). exists x. apply filter_In in Hx. apply filter_In. destruct Hx. split; [apply in_or_app; right|]; assumption. }
        destruct X as (x & Hx). destruct bs as [|b bs]; [congruence|]. unfold vals in Z. cbn [flat_map] in Z. apply app_eq_nil in Z. destruct Z as [Z _]. apply map_eq_nil in Z. rewrite Z in Hx. destruct Hx.
      - intros Nk. unfold vals. assert (Z : filter (fun x => String.eqb (s_name x) nm) sl = []); [|rewrite Z; clear; induction bs; [reflexivity|assumption]].
        apply filter_none. intros x Hx. apply String.eqb_neq. intros E. destruct (payload_name s sl nm Py ltac:(rewrite <- E; apply in_map; exact Hx)) as (i' & c' & Ii & [Hc' Hid] & In_).
        assert (c = c') by (eapply (flat_map_inj class_names mavlink_classes); [apply dialect_names| | | |exact In_]; try assumption; unfold nm, class_names; apply in_map, in_seq; lia). subst c'.
        apply in_map_iff in Ii. destruct Ii as ([k i''] & E' & Ik). cbn [snd] in E'. subst. apply Nk. exists k. exact Ik. }
    assert (Ty : forall v ty, In (nm, (v, ty)) (flat_map (fun b => map (slot_sample b) full) bs) -> forall v' ty', In (nm, (v', ty')) l2 -> ty = ty').
    { intros v ty H v' ty' H'. apply in_flat_map in H. destruct H as (b & _ & H). apply in_map_iff in H. destruct H as (x & Ex & Hx). unfold slot_sample in Ex. injection Ex as Ex _ <-.
      destruct (O2 _ H') as (b' & sl' & y & H1 & Hy & Ey). apply in_combine_r, repeat_spec in H1. subst sl'. unfold slot_sample in Ey. injection Ey as Ey _ ->.
      assert (Hx' : In x (filter (fun x => String.eqb (s_name x) nm) sl)) by (rewrite <- (layout_filter s full sl nm L Py ltac:(exists c, i; auto)); apply filter_In; split; [exact Hx|apply String.eqb_eq; exact Ex]).
      assert (Hy' : In y (filter (fun x => String.eqb (s_name x) nm) sl)) by (apply filter_In; split; [exact Hy|apply String.eqb_eq; auto]).
      destruct (filter_one s_name nm sl NN) as [Z|(z & Z)]; rewrite Z in Hx', Hy'; [destruct Hx'|]. destruct Hx' as [<-|[]], Hy' as [<-|[]]. reflexivity. }
    destruct (bm_get FO m1 nm) as [f1|], (bm_get FO m2 nm) as [f2|].
    + destruct R1 as (A1 & A2 & A3 & A4 & v1 & t1 & A5 & A6), R2 as (B1 & B2 & B3 & B4 & v2 & t2 & B5 & B6). split; [|split; [congruence|split; [congruence|split; [|congruence]]]].
      * destruct (in_dec N.eq_dec (mc_id c) (map snd s)) as [D|D]; [apply in_map_iff in D; destruct D as ([k i'] & E & Ik); cbn [snd] in E; subst i'; eauto|].
        exfalso. apply A1, Here. intros (k & Ik). apply D. apply in_map_iff. exists (k, mc_id c). auto.
      * rewrite A6, B6. eauto.
    + destruct R1 as (A1 & _). contradiction.
    + destruct R2 as (A1 & _). contradiction.
    + apply Here. exact R1.
  - intros k i c nm Ik M Hn. change (In nm (header_names c)) in Hn. destruct M as [Hc Hid] eqn:EM. split.
    + pose proof (inv_read FO w _ m1 nm I1) as R1. cbn [app] in R1. rewrite values_first in R1. destruct (bm_get FO m1 nm); [discriminate|]. exfalso.
      destruct (layout_header s full k i c nm L Ik M Hn) as (x & Hx & Ex). destruct bs as [|b bs]; [congruence|]. cbn [flat_map] in R1. apply app_eq_nil in R1. destruct R1 as [Z _]. apply map_eq_nil in Z.
      assert (Hf : In x (filter (fun x => String.eqb (s_name x) nm) full)) by (apply filter_In; split; [exact Hx|apply String.eqb_eq; exact Ex]). rewrite Z in Hf. destruct Hf.
    + pose proof (inv_read FO w _ m2 nm I2) as R2. cbn [app] in R2. rewrite V2, values_second in R2 by exact NN. rewrite (payloads_header s sl c nm Py Hc Hn) in R2.
      destruct (bm_get FO m2 nm) as [f|]; [|reflexivity]. exfalso. destruct R2 as [R2 _]. apply R2. clear. induction bs; [reflexivity|assumption].
Qed.
Print Assumptions c103_same.

(** A buffer in which no message is found ends the second way with ValueError; what was learned before it stays. *)
Theorem c103_no_message : forall (FO : fops) text w bs b bs', cut_into text b [] ->
  train_by_fields FO text w (bs ++ b :: bs') = match train_by_fields FO text w bs with (m, Ok _) => (m, Err ValueError) | r => r end.
Proof. intros. apply fields_empty. assumption. Qed.
Print Assumptions c103_no_message.

(** A message sent twice in a buffer: the second way learns the last of its values, the first both. *)
Definition learned (r : buffer_model Qops * res unit) (nm : string) : option (list pyval) := option_map (fm_samples Qops) (bm_get Qops (fst r) nm).
Definition hb2 : bytes := Eval vm_compute in match message_pack (Msg (class_of 0) (map (fun z => FOne (VInt z)) [2; 3; 81; 6; 4; 3]%Z)) 18 1 1 with Ok f => f | Err _ => [] end.
Theorem c103_twice_refuted : exists bs nm, let text := fun b => b in
  snd (train_by_buffers Qops text None bs) = Ok tt /\ snd (train_by_fields Qops text None bs) = Ok tt /\
  learned (train_by_buffers Qops text None bs) nm = Some [VInt 5; VInt 6; VInt 6; VInt 5] /\ learned (train_by_fields Qops text None bs) nm = Some [VInt 6; VInt 5].
Proof. exists [(hb ++ hb2)%list; (hb2 ++ hb)%list], "HEARTBEAT_custom_mode"%string. vm_compute. repeat split. Qed.
Print Assumptions c103_twice_refuted.

(** Messages at other places than in the first buffer: the first way learns bytes that are not the field, the second learns the field. *)
Theorem c103_moved_refuted : exists bs nm, let text := fun b => b in
  snd (train_by_buffers Qops text None bs) = Ok tt /\ snd (train_by_fields Qops text None bs) = Ok tt /\
  learned (train_by_buffers Qops text None bs) nm = Some [VInt 5; VInt 1280] /\ learned (train_by_fields Qops text None bs) nm = Some [VInt 5; VInt 5].
Proof. exists [hb; (3 :: hb)%N], "HEARTBEAT_custom_mode"%string. vm_compute. repeat split. Qed.
Print Assumptions c103_moved_refuted.

(** The example script saves its first model and ends with ValueError, whatever the rest of it is: no recording is read and no model trained with
    recordings is saved.  The four messages of its buffer are found. *)
Theorem c103_script : forall (FO : fops) erf text rest, exists doc,
  example_script FO erf text rest = ([("test_fields_collection.json"%string, doc)], Err ValueError) /\
  (exists p v, segment_buffer (decode text) good_buffer = Ok (p, v, [(0, 212%N); (27, 218%N); (45, 33%N); (97, 234%N)])) /\
  exists m, load FO doc = Ok m /\ bm_size FO m = 0%Z /\
    option_map (fm_samples FO) (bm_get FO m "GLOBAL_POSITION_INT_lat") = Some [VInt 295124754] /\ bm_get FO m "magic" = None.
Proof.
  intros FO erf text rest. destruct (script_good text) as (p & v & E1), (script_bad text) as (r0 & E0), (script_saved FO text) as (doc & m & E2 & E3 & H & E4 & E5 & E6).
  destruct (script_predict FO erf m H) as ([[[m' vf] vb] sd] & E). exists doc. split; [|split; [exists p, v; exact E1|exists m; auto]].
  unfold example_script. fold script_bits. clear H E4 E5 E6. revert E0 E1 E2 E. generalize (segment_buffer (decode text) bad_buffer) (segment_buffer (decode text) good_buffer) (get_msg_fields text (decode text) good_buffer) script_structure script_bits.
  intros a b c st bits -> -> E2 E. cbn [bind snd]. rewrite E2, E3. cbn [bind]. rewrite E. reflexivity.
Qed.
Print Assumptions c103_script.

Example c103_ex : exists s, s <> [] /\ NoDup (map snd s) /\ Forall (fun b => cut_into (fun b => b) b s) [hb; hb2] /\
  learned (train_by_fields Qops (fun b => b) (Some 4%Z) [hb; hb2]) "HEARTBEAT_custom_mode" = Some [VInt 5; VInt 6] /\
  learned (train_by_buffers Qops (fun b => b) (Some 4%Z) [hb; hb2]) "seq" = Some [VInt 17; VInt 18] /\
  snd (train_by_fields Qops (fun b => b) None [hb; [1; 2; 3]%N; hb2]) = Err ValueError.
Proof.
  exists [(0, 0%N)]. split; [discriminate|]. split; [repeat constructor; auto|]. split; [|vm_compute; repeat split].
  assert (P : forall b : bytes, length b = 17 -> Forall (plain_in (length b)) [(0, 0%N)]).
  { intros b L. constructor; [|constructor]. destruct hb_class as (c & M & NA & Ws & _). exists c. split; [exact M|]. split; [exact NA|]. cbn [fst]. rewrite Ws, L. lia. }
  assert (C : forall b : bytes, is_bytes b -> length b = 17 -> (exists p v, segment_buffer (decode (fun b => b)) b = Ok (p, v, [(0, 0%N)])) -> cut_into (fun b => b) b [(0, 0%N)]).
  { intros b B L E. split; [exact B|]. split; [apply P; exact L|exact E]. }
  constructor; [|constructor; [|constructor]]; (apply C; [unfold hb, hb2; repeat (apply Forall_cons; [vm_compute; reflexivity|]); apply Forall_nil|vm_compute; reflexivity|eexists; eexists; vm_compute; reflexivity]).
Qed.
