(** Histories of a BufferModel. *)
From Coq Require Import String Ascii List NArith ZArith Bool Lia ZifyBool ZifyNat ZifyN Arith.
From Verif.Model Require Import Py Float Dialect ProtocolMeta Struct Crc Mavlink Segmentation StatModels.
From Verif.Spec Require Import Bytes Bits Header Frame Segment Describe RealOps Stats.
From Verif.Proofs Require Import Base BitOpsP DialectP HeaderP HeaderMore StructP CrcP MavlinkP FieldsP PackP SegMore DescribeP StatP LayoutP ValuesP.
Import ListNotations.

Lemma holds_facts a b : holds a b -> is_bytes b /\ buf_length a = Ok (length b) /\ forall s, unpack_values a s = unpack_values (BBytes b) s.
Proof.
  intros [b' B|l b' B L H]; [auto|]. split; auto. rewrite (bits_eq b' l L H). split; [apply (buf_length_bits b')|].
  intros s. apply values_bits; auto.
Qed.

Lemma not_plain n s : ~ Forall (plain_in n) s -> exists a k i t, s = a ++ (k, i) :: t /\ Forall (plain_in n) a /\ ~ plain_in n (k, i).
Proof.
  intros H. destruct (Forall_or_first (plain_in n) (plain_in_dec n) s) as [P|(a & [k i] & b & -> & Pa & NP)]; [contradiction|].
  exists a, k, i, b. auto.
Qed.

Lemma layout_types n s sl : Forall (plain_in n) s -> layout s sl ->
  Forall (fun x => exists sz ch, ctype (s_type x) sz ch /\ s_width x = sz /\ s_type x <> "char"%string) sl.
Proof.
  intros P L. revert P. induction L as [|k i c s sl M L IH]; intros P; [constructor|]. inversion P as [|? ? P1 P2]; subst.
  apply Forall_app. split; [|auto]. destruct P1 as (c' & M' & NA & _). cbn [snd] in M'. rewrite (is_msg_fun _ _ _ M' M) in NA.
  destruct M as [H _]. rewrite msg_slots_split. apply Forall_app. split.
  - assert (U : ctype "uint8_t" 1 "B" /\ "uint8_t"%string <> "char"%string) by (split; [constructor|discriminate]).
    unfold head_slots. repeat (apply Forall_cons; [exists 1, "B"%char; cbn [s_type s_width]; tauto|]). constructor.
  - unfold body_slots. apply Forall_forall. intros x Hx. apply in_map_iff in Hx. destruct Hx as (j & <- & Hj). apply in_seq in Hj.
    cbn [s_type s_width]. destruct (field_at_wire_spec c j H ltac:(lia)) as [Hi _].
    destruct (f_type_ctype c _ H Hi) as (sz & ch & C & W). exists sz, ch. split; auto. split; [|apply plain_not_char; auto].
    rewrite W, plain_array by auto. simpl. lia.
Qed.

Lemma fold_combine {A B C} (f : A -> B) (g : A -> C) l : combine (map f l) (map g l) = map (fun x => (f x, g x)) l.
Proof. induction l; simpl; congruence. Qed.

Lemma NoDup_app_snoc {A} (l : list A) x : NoDup l -> ~ In x l -> NoDup (l ++ [x]).
Proof.
  intros H N. induction H as [|y l Hy H IH]; cbn; [repeat constructor; auto|]. constructor.
  - intros I. apply in_app_or in I. cbn in I. destruct I as [I|[->|[]]]; [auto|]. apply N; left; auto.
  - apply IH. intros I. apply N; right; auto.
Qed.

Section Buf.
Variable FO : fops.
Variable pack : F FO -> res N.
Variable erf : F FO -> F FO.
Notation fm := (field_model FO).
Notation bm := (buffer_model FO).

Lemma ctype_init ty sz ch nm w : ctype ty sz ch -> exists f, fm_init FO nm ty w = Ok f.
Proof using. clear. intros C. destruct C; eexists; reflexivity. Qed.

(** The state of the field [nm] of a model that recorded [l]. *)
Definition field_state (w : option Z) (l : list (string * (pyval * string))) (nm : string) (o : option fm) : Prop :=
  match o with
  | None => under nm l = []
  | Some f => exists p t f0, under nm l = p :: t /\ fm_init FO nm (snd p) w = Ok f0 /\ same_id FO f0 f /\
                fm_samples FO f = windowed w (map fst (p :: t)) /\ coherent FO f
  end.
Definition bm_inv (w : option Z) (l : list (string * (pyval * string))) (m : bm) : Prop :=
  bm_window FO m = w /\ NoDup (map fst (bm_models FO m)) /\ forall nm, field_state w l nm (bm_get FO m nm).

Lemma bm_get_set m k f nm : bm_get FO (bm_set FO m k f) nm = if String.eqb nm k then Some f else bm_get FO m nm.
Proof using. clear. unfold bm_get, bm_set. cbn. apply (dict_get_set _ streqb_spec). Qed.

Lemma dict_set_keys {V} (d : list (string * V)) k v : In k (map fst d) -> map fst (dict_set String.eqb d k v) = map fst d.
Proof using.
  clear. induction d as [|[k' v'] d IH]; cbn; [tauto|]. destruct (String.eqb_spec k k') as [->|N]; [reflexivity|].
  intros [E|I]; [congruence|]. cbn. f_equal. auto.
Qed.

Lemma dict_set_nodup {V} (d : list (string * V)) k v : NoDup (map fst d) -> NoDup (map fst (dict_set String.eqb d k v)).
Proof using.
  clear. intros H. destruct (in_dec String.string_dec k (map fst d)) as [I|I].
  - rewrite dict_set_keys by auto. auto.
  - rewrite (dict_set_fresh _ streqb_spec) by auto. rewrite map_app. cbn. apply NoDup_app_snoc; auto.
Qed.

Lemma under_app nm l l' : under nm (l ++ l') = under nm l ++ under nm l'.
Proof using. clear. unfold under. rewrite filter_app, map_app. reflexivity. Qed.

Lemma under_one nm k x : under nm [(k, x)] = if String.eqb nm k then [x] else [].
Proof using. clear. unfold under. cbn. rewrite String.eqb_sym. destruct (String.eqb nm k); reflexivity. Qed.

Lemma add_sample_inv w l m name v ty sz ch : window_ok w -> bm_inv w l m -> ctype ty sz ch ->
  exists m', bm_add_sample FO m name (SOne v) ty = Ok m' /\ bm_inv w (l ++ [(name, (v, ty))]) m' /\
    bm_size FO m' = bm_size FO m /\ bm_ordered FO m' = bm_ordered FO m /\ bm_descr FO m' = bm_descr FO m.
Proof using.
  clear pack erf. intros WO (W & ND & I) C. unfold bm_add_sample.
  assert (X : exists m1 f p t f0, (match bm_get FO m name with
           | Some _ => Ok m
           | None => do! f <- fm_init FO name ty (bm_window FO m) in Ok (bm_set FO m name f)
           end) = Ok m1 /\ bm_get FO m1 name = Some f /\ (forall nm, nm <> name -> bm_get FO m1 nm = bm_get FO m nm) /\
           under name l ++ [(v, ty)] = p :: t /\ fm_init FO name (snd p) w = Ok f0 /\ same_id FO f0 f /\
           fm_samples FO f = windowed w (values_under name l) /\ coherent FO f /\
           bm_window FO m1 = w /\ NoDup (map fst (bm_models FO m1)) /\ bm_size FO m1 = bm_size FO m /\
           bm_ordered FO m1 = bm_ordered FO m /\ bm_descr FO m1 = bm_descr FO m).
  { pose proof (I name) as In_. destruct (bm_get FO m name) as [f|] eqn:G; cbn [field_state] in In_.
    - destruct In_ as (p & t & f0 & U & E & Id & S & Co). exists m, f, p, (t ++ [(v, ty)]), f0. unfold values_under. rewrite U. auto 20.
    - rewrite W. destruct (ctype_init ty sz ch name w C) as (f0 & E0). rewrite E0. cbn [bind].
      exists (bm_set FO m name f0), f0, (v, ty), [], f0. unfold values_under. rewrite In_. split; auto.
      rewrite bm_get_set, String.eqb_refl. split; auto. split.
      { intros nm Hn. rewrite bm_get_set. apply String.eqb_neq in Hn. rewrite Hn. auto. }
      split; auto. split; auto. split; [apply same_id_refl|]. pose proof (fm_init_facts FO _ _ _ _ E0) as (S0 & _).
      rewrite S0. cbn [map]. rewrite windowed_nil_eq. split; auto. split; [eapply init_coherent; eauto|].
      split; auto. split; [apply dict_set_nodup; auto|]. auto. }
  destruct X as (m1 & f & p & t & f0 & E1 & G1 & Oth & U & E0 & Id & S & Co & W1 & ND1 & Sz & Or & De).
  rewrite E1. cbn [bind]. rewrite G1. eexists. split; [reflexivity|]. split; [|cbn; auto].
  split; [exact W1|]. split; [apply dict_set_nodup; auto|]. intros nm. rewrite bm_get_set.
  destruct (String.eqb_spec nm name) as [->|Hn].
  - cbn [field_state]. exists p, t, f0. rewrite under_app, under_one, String.eqb_refl. split; auto. split; auto.
    assert (Wf : fm_window FO f = w).
    { destruct Id as (_ & _ & _ & <- & _). apply fm_init_facts in E0. tauto. }
    destruct (event_spec FO (fun _ => Err ValueError) (fun x => x) f (EAdd (SOne v)) Co) as (Co' & Id' & S'); [rewrite Wf; auto|].
    cbn [fm_event_step] in *. split; [eapply same_id_trans; eauto|]. split; [|auto].
    rewrite S', S, Wf, windowed_app. f_equal. rewrite <- U, map_app. reflexivity.
  - rewrite Oth by auto. specialize (I nm). unfold field_state in *. rewrite under_app, under_one.
    apply String.eqb_neq in Hn. rewrite Hn, app_nil_r. exact I.
Qed.

Lemma add_fields_inv w fs : Forall (fun x : string * (pyval * string) => exists sz ch, ctype (snd (snd x)) sz ch) fs ->
  forall l m, window_ok w -> bm_inv w l m ->
  exists m', add_fields FO m fs = (m', Ok tt) /\ bm_inv w (l ++ fs) m' /\
    bm_size FO m' = bm_size FO m /\ bm_ordered FO m' = bm_ordered FO m /\ bm_descr FO m' = bm_descr FO m.
Proof using.
  clear pack erf. induction 1 as [|[nm [v ty]] fs (sz & ch & C) _ IH]; intros l m WO I.
  - exists m. rewrite app_nil_r. auto.
  - cbn [add_fields]. cbn [snd] in C. destruct (add_sample_inv w l m nm v ty sz ch WO I C) as (m1 & -> & I1 & S1 & O1 & D1).
    destruct (IH _ _ WO I1) as (m2 & E2 & I2 & S2 & O2 & D2). exists m2. rewrite <- app_assoc in I2. cbn [app] in I2.
    split; auto. split; auto. split; [congruence|]. split; congruence.
Qed.

(** add_buffer *)
Definition next_size (m : bm) : Z := match bm_window FO m with
  | None => (bm_size FO m + 1)%Z | Some w => if (bm_size FO m <? w)%Z then (bm_size FO m + 1)%Z else w end.

Lemma add_buffer_accepted w l m a b s sl : window_ok w -> bm_inv w l m -> holds a b -> Forall (plain_in (length b)) s -> layout s sl ->
  exists m', add_buffer FO m a s = (m', Ok tt) /\ bm_inv w (l ++ map (slot_sample b) sl) m' /\ bm_size FO m' = next_size m /\
    bm_ordered FO m' = bm_ordered FO m /\ bm_descr FO m' = bm_descr FO m.
Proof using.
  clear pack erf. intros WO I Hd P L. destruct (holds_facts a b Hd) as (B & BL & UV). unfold add_buffer.
  rewrite BL. cbn [bind]. rewrite (names_ok _ _ _ L). cbn [bind]. rewrite UV, (values_ok b s sl B P L). cbn [bind fst snd].
  fold (next_size m).
  assert (E : combine (map s_name sl) (combine (map (slot_value b) sl) (map s_type sl)) = map (slot_sample b) sl).
  { rewrite !fold_combine. reflexivity. }
  rewrite E. destruct (add_fields_inv w (map (slot_sample b) sl)) with (l := l)
    (m := BM FO (bm_ordered FO m) (bm_descr FO m) (bm_models FO m) (bm_window FO m) (next_size m)) as (m' & E' & I' & S' & O' & D'); auto.
  - pose proof (layout_types _ _ _ P L) as T. apply Forall_map. eapply Forall_impl; [|exact T]. intros x (sz & ch & C & _). exists sz, ch. exact C.
  - exists m'. auto.
Qed.

Lemma add_buffer_rejected m a b s : holds a b -> ~ Forall (plain_in (length b)) s ->
  add_buffer FO m a s = (m, Err (if forallb (fun ki : nat * N => if get_class (snd ki) then true else false) s then StructError else KeyError)).
Proof using.
  clear pack erf. intros Hd NP. destruct (holds_facts a b Hd) as (B & BL & UV). unfold add_buffer. rewrite BL. cbn [bind].
  destruct (forallb _ s) eqn:K.
  - assert (L : exists sl, layout s sl).
    { clear -K. induction s as [|[k i] s IH]; [exists []; constructor|]. cbn [forallb snd] in K. apply andb_true_iff in K. destruct K as [K1 K2].
      destruct (IH K2) as (sl & L). destruct (get_class i) as [c|] eqn:G; [|discriminate K1]. apply get_class_spec in G.
      exists (msg_slots k c ++ sl). constructor; auto. }
    destruct L as (sl & L). rewrite (names_ok _ _ _ L). cbn [bind]. rewrite UV.
    destruct (not_plain _ _ NP) as (s1 & k & i & s2 & -> & P1 & NP1). rewrite values_first_err by auto.
    rewrite forallb_app in K. cbn [forallb snd] in K. apply andb_true_iff in K. destruct K as [_ K]. apply andb_true_iff in K. destruct K as [K _].
    destruct (get_class i); [|discriminate]. destruct (Nat.leb (k + 6) (length b)); reflexivity.
  - rewrite names_err; [reflexivity|]. intros (sl & L). assert (X : forallb (fun ki : nat * N => if get_class (snd ki) then true else false) s = true).
    { clear -L. induction L as [|k i c s sl M L IH]; auto. cbn [forallb snd]. apply get_class_spec in M. rewrite M. auto. }
    congruence.
Qed.

(** Reads do not change what the object stores. *)
Definition fm_sim (f f' : fm) : Prop := same_id FO f f' /\ fm_samples FO f' = fm_samples FO f /\ coherent FO f'.
Definition bm_sim (m m' : bm) : Prop :=
  bm_window FO m' = bm_window FO m /\ bm_size FO m' = bm_size FO m /\ bm_ordered FO m' = bm_ordered FO m /\ bm_descr FO m' = bm_descr FO m /\
  map fst (bm_models FO m') = map fst (bm_models FO m) /\
  forall nm, match bm_get FO m nm with None => bm_get FO m' nm = None | Some f => exists f', bm_get FO m' nm = Some f' /\ fm_sim f f' end.
Definition all_coherent (m : bm) : Prop := forall nm f, bm_get FO m nm = Some f -> coherent FO f.

Lemma bm_sim_refl m : all_coherent m -> bm_sim m m.
Proof using.
  clear. intros C. repeat split. intros nm. destruct (bm_get FO m nm) as [f|] eqn:G; auto. exists f. split; auto.
  split; [apply same_id_refl|]. split; auto. eapply C; eauto.
Qed.

Lemma bm_sim_trans a b c : bm_sim a b -> bm_sim b c -> bm_sim a c.
Proof using.
  clear. intros (A1 & A2 & A3 & A4 & A5 & A6) (B1 & B2 & B3 & B4 & B5 & B6). repeat split; try congruence. intros nm.
  specialize (A6 nm). specialize (B6 nm). destruct (bm_get FO a nm) as [f|].
  - destruct A6 as (f' & G' & (I1 & S1 & C1)). rewrite G' in B6. destruct B6 as (f'' & G'' & (I2 & S2 & C2)). exists f''. split; auto.
    split; [eapply same_id_trans; eauto|]. split; [congruence|auto].
  - rewrite A6 in B6. auto.
Qed.

Lemma bm_sim_coherent m m' : bm_sim m m' -> all_coherent m -> all_coherent m'.
Proof using.
  clear. intros (_ & _ & _ & _ & K & H) C nm f G. specialize (H nm). destruct (bm_get FO m nm) as [f0|].
  - destruct H as (f' & G' & (_ & _ & Co)). congruence.
  - congruence.
Qed.

Lemma refresh_sim f f' : coherent FO f -> fm_refresh FO f = Ok f' -> fm_sim f f'.
Proof using.
  clear. intros C E. pose proof (refresh_spec FO f C) as H. destruct (stats_of FO (fm_samples FO f)) as [[mu sd]|]; [|congruence].
  destruct H as (f'' & E' & _ & _ & S & Id & C'). rewrite E in E'. injection E' as <-. split; auto.
Qed.
Lemma update_sim f f' : coherent FO f -> fm_update FO f = Ok f' -> fm_sim f f'.
Proof using.
  clear. intros C E. pose proof (update_spec FO f C) as H. destruct (stats_of FO (fm_samples FO f)) as [[mu sd]|]; [|congruence].
  destruct H as (f'' & E' & _ & _ & S & Id & C' & _). rewrite E in E'. injection E' as <-. split; auto.
Qed.

Lemma bm_set_sim m nm f f' : all_coherent m -> bm_get FO m nm = Some f -> fm_sim f f' -> bm_sim m (bm_set FO m nm f').
Proof using.
  clear. intros C G S. repeat split.
  - cbn. apply dict_set_keys. destruct (dict_get String.eqb (bm_models FO m) nm) eqn:E; [|unfold bm_get in G; congruence].
    destruct (in_dec String.string_dec nm (map fst (bm_models FO m))) as [I|I]; auto.
    apply (dict_get_none _ streqb_spec) in I. congruence.
  - intros k. rewrite bm_get_set. destruct (String.eqb_spec k nm) as [->|N].
    + rewrite G. exists f'. auto.
    + destruct (bm_get FO m k) as [g|] eqn:Gk; auto. exists g. split; auto. split; [apply same_id_refl|]. split; auto. eapply C; eauto.
Qed.

Lemma predict_loop_sim bits names : forall vals idx m vf vb sd m' vf' vb' sd', all_coherent m ->
  predict_loop FO erf bits idx names vals (m, vf, vb, sd) = Ok (m', vf', vb', sd') -> bm_sim m m'.
Proof using.
  clear pack. induction names as [|nm names IH]; intros vals idx m vf vb sd m' vf' vb' sd' C E; cbn [predict_loop] in E.
  - injection E as <- _ _ _. apply bm_sim_refl; auto.
  - destruct vals as [|v vals]; [injection E as <- _ _ _; apply bm_sim_refl; auto|].
    destruct (bm_get FO m nm) as [f|] eqn:G; cbn [bind] in E.
    + destruct (fm_classify_value FO erf f v) as [[f1 [val std]]|] eqn:Cl; [|discriminate]. cbn [bind] in E.
      apply classify_state in Cl. pose proof (refresh_sim f f1 (C _ _ G) Cl) as S. pose proof (bm_set_sim m nm f f1 C G S) as S1.
      eapply bm_sim_trans; [exact S1|]. eapply IH; [|exact E]. eapply bm_sim_coherent; eauto.
    + eapply IH; eauto.
Qed.

Lemma predict_sim m a s m' vf vb sd : all_coherent m -> predict FO erf m a s = Ok (m', vf, vb, sd) -> bm_sim m m'.
Proof using.
  clear pack. intros C. unfold predict. destruct (buf_length a) as [n|]; [|discriminate]. cbn [bind].
  destruct (unpack_structure true n s) as [[[bits names] tys]|]; [|discriminate]. cbn [bind].
  destruct (unpack_values a s); [|discriminate]. cbn [bind]. apply predict_loop_sim; auto.
Qed.

Lemma mean_loop_sim bits names : forall types idx m vs m' vs', all_coherent m ->
  mean_loop FO pack bits idx names types (m, vs) = Ok (m', vs') -> bm_sim m m'.
Proof using.
  clear erf. induction names as [|nm names IH]; intros types idx m vs m' vs' C E; cbn [mean_loop] in E.
  - injection E as <- _. apply bm_sim_refl; auto.
  - destruct types as [|ty types]; [injection E as <- _; apply bm_sim_refl; auto|].
    destruct (bm_get FO m nm) as [f|] eqn:G; [|discriminate]. cbn [bind] in E. unfold fm_get_mean in E.
    destruct (fm_refresh FO f) as [f1|] eqn:R; [|discriminate]. cbn [bind] in E.
    destruct (num2bits FO pack (NNum (fm_mean FO f1)) ty) as [l|]; [|discriminate]. cbn [bind] in E.
    destruct (mask_fill bits (Z.of_nat idx) vs l) as [vs1|]; [|discriminate]. cbn [bind] in E.
    pose proof (bm_set_sim m nm f f1 C G (refresh_sim f f1 (C _ _ G) R)) as S1.
    eapply bm_sim_trans; [exact S1|]. eapply IH; [|exact E]. eapply bm_sim_coherent; eauto.
Qed.

Lemma mean_sim m idx n s m' l : all_coherent m -> bitwise_model_mean FO pack m idx n s = Ok (m', l) -> bm_sim m m'.
Proof using.
  clear erf. intros C. unfold bitwise_model_mean. destruct (unpack_structure true n s) as [[[bits names] tys]|]; [|discriminate]. cbn [bind].
  destruct (mean_loop FO pack bits 0 names tys (m, repeat false (n * 8))) as [[m1 vs]|] eqn:E; [|discriminate]. cbn [bind fst snd].
  destruct (map_res (index_z vs) idx); [|discriminate]. cbn [bind]. intros H. injection H as <- _. eapply mean_loop_sim; eauto.
Qed.

Lemma update_all_sim l : forall l', (forall k f, In (k, f) l -> coherent FO f) -> update_all FO l = Ok l' ->
  map fst l' = map fst l /\
  forall nm, match dict_get String.eqb l nm with None => dict_get String.eqb l' nm = None
             | Some f => exists f', dict_get String.eqb l' nm = Some f' /\ fm_sim f f' /\ fm_update FO f = Ok f' end.
Proof using.
  clear pack erf. unfold update_all. induction l as [|[k f] l IH]; intros l' C E; cbn [map_res] in E.
  - injection E as <-. split; auto. intros nm. reflexivity.
  - cbn [fst snd] in E. destruct (fm_update FO f) as [f1|] eqn:U; [|discriminate]. cbn [bind] in E.
    destruct (map_res _ l) as [l1|] eqn:E1; [|discriminate]. cbn [bind] in E. injection E as <-.
    destruct (IH l1) as [K D]; auto. { intros k' f' I. eapply C. right; eauto. }
    split; [cbn; congruence|]. intros nm. cbn [dict_get]. destruct (String.eqb nm k); [|apply D].
    exists f1. split; auto. split; auto. apply update_sim; auto. eapply C; left; eauto.
Qed.

Lemma save_sim m m' j : NoDup (map fst (bm_models FO m)) -> all_coherent m -> save FO m = Ok (m', j) -> bm_sim m m'.
Proof using.
  clear pack erf. intros ND C. unfold save. destruct (update_all FO (bm_models FO m)) as [l|] eqn:U; [|discriminate]. cbn [bind].
  intros E. apply (f_equal (fun r => match r with Ok p => fst p | Err _ => m end)) in E. cbn [fst] in E. subst m'.
  destruct (update_all_sim (bm_models FO m) l) as [K D]; auto.
  { intros k f I. apply (C k). unfold bm_get. apply (dict_in_get _ streqb_spec); auto. }
  repeat split; cbn; auto. intros nm. specialize (D nm). unfold bm_get in *. cbn.
  destruct (dict_get String.eqb (bm_models FO m) nm); auto. destruct D as (f' & ? & ? & _). eauto.
Qed.

Lemma inv_coherent w l m : bm_inv w l m -> all_coherent m.
Proof using.
  clear pack erf. intros (_ & _ & H) nm f G. specialize (H nm). rewrite G in H. cbn in H. destruct H as (? & ? & ? & _ & _ & _ & _ & C). auto.
Qed.

Lemma inv_sim w l m m' : bm_inv w l m -> bm_sim m m' -> bm_inv w l m'.
Proof using.
  clear pack erf. intros (W & ND & H) (S1 & _ & _ & _ & S5 & S6). split; [congruence|]. split; [rewrite S5; auto|].
  intros nm. specialize (H nm). specialize (S6 nm). destruct (bm_get FO m nm) as [f|].
  - destruct S6 as (f' & -> & (Id & S & C)). cbn in *. destruct H as (p & t & f0 & U & E & Id0 & S0 & _).
    exists p, t, f0. split; auto. split; auto. split; [eapply same_id_trans; eauto|]. split; auto. congruence.
  - rewrite S6. exact H.
Qed.

(** One operation. *)
Lemma event_inv w l m e o : window_ok w -> bm_inv w l m -> outcome e o ->
  bm_inv w (l ++ match o with Some x => x | None => [] end) (bm_event_step FO pack erf m e) /\
  bm_size FO (bm_event_step FO pack erf m e) = match o with Some _ => next_size m | None => bm_size FO m end.
Proof using.
  intros WO I O. pose proof (inv_coherent _ _ _ I) as C. destruct O as [a b s sl Hd P L|a b s Hd NP|s|e NA].
  - cbn [bm_event_step]. destruct (add_buffer_accepted w l m a b s sl WO I Hd P L) as (m' & -> & I' & S' & _). auto.
  - cbn [bm_event_step]. rewrite (add_buffer_rejected m a b s Hd NP). rewrite app_nil_r. auto.
  - rewrite app_nil_r. auto.
  - rewrite app_nil_r. destruct e as [a s|a s|idx n s| |d]; cbn [bm_event_step].
    + exfalso. eapply NA; reflexivity.
    + destruct (predict FO erf m a s) as [[[[m' vf] vb] sd]|] eqn:E; auto. apply predict_sim in E; auto. split; [eapply inv_sim; eauto|apply E].
    + destruct (bitwise_model_mean FO pack m idx n s) as [[m' x]|] eqn:E; auto. apply mean_sim in E; auto. split; [eapply inv_sim; eauto|apply E].
    + destruct (save FO m) as [[m' x]|] eqn:E; auto. apply save_sim in E; auto; [|apply I]. split; [eapply inv_sim; eauto|apply E].
    + split; auto. 
Qed.

Lemma next_saturated m n : window_ok (bm_window FO m) -> bm_size FO m = saturated (bm_window FO m) n ->
  next_size m = saturated (bm_window FO m) (S n).
Proof using. clear. unfold next_size, saturated, window_ok. intros W ->. destruct (bm_window FO m) as [z|]; [destruct (Z.ltb_spec (Z.min (Z.of_nat n) z) z)|]; lia. Qed.

Lemma run_inv w h os : window_ok w -> Forall2 outcome h os -> forall l m n, bm_inv w l m -> bm_size FO m = saturated w n ->
  bm_inv w (l ++ recorded os) (bm_run FO pack erf m h) /\ bm_size FO (bm_run FO pack erf m h) = saturated w (n + accepted os).
Proof using.
  intros WO. induction 1 as [|e o h os O F2 IH]; intros l m n I S.
  - cbn. rewrite app_nil_r, Nat.add_0_r. auto.
  - cbn [bm_run fold_left]. fold (bm_run FO pack erf (bm_event_step FO pack erf m e) h).
    destruct (event_inv w l m e o WO I O) as [I1 S1].
    assert (S2 : bm_size FO (bm_event_step FO pack erf m e) = saturated w (n + accepted [o])).
    { rewrite S1. destruct o; unfold accepted; cbn; [|rewrite Nat.add_0_r; auto]. 
      destruct I as (W & _). rewrite <- W in *. rewrite (next_saturated m n) by auto. f_equal. lia. }
    destruct (IH _ _ _ I1 S2) as [I3 S3]. rewrite <- app_assoc in I3. split; [exact I3|].
    rewrite S3. f_equal. unfold accepted. cbn [filter]. destruct o; cbn [filter length]; lia.
Qed.

Lemma init_inv w : bm_inv w [] (bm_init FO [] w).
Proof using. clear. split; [reflexivity|]. split; [constructor|]. intros nm. reflexivity. Qed.

Lemma history_inv w h os : window_ok w -> Forall2 outcome h os ->
  bm_inv w (recorded os) (bm_run FO pack erf (bm_init FO [] w) h) /\
  bm_size FO (bm_run FO pack erf (bm_init FO [] w) h) = saturated w (accepted os).
Proof using.
  intros WO F2. destruct (run_inv w h os WO F2 [] (bm_init FO [] w) 0) as [A B]; auto using init_inv.
  cbn. destruct w; cbn in *; lia.
Qed.

End Buf.
