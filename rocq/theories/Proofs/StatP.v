(** num2bits and FieldModel. *)
From Coq Require Import String Ascii List NArith ZArith Bool Lia ZifyBool ZifyNat ZifyN Arith.
From Verif.Model Require Import Py Float Dialect ProtocolMeta Struct Crc Mavlink Segmentation StatModels.
From Verif.Spec Require Import Bytes Bits Header Frame Segment Describe RealOps Stats.
From Verif.Proofs Require Import Base BitOpsP DialectP HeaderP HeaderMore StructP CrcP MavlinkP FieldsP PackP.
Import ListNotations.

Lemma int_wire ty sz : integer_type ty sz -> exists f ch, dict_get String.eqb format_strings ty = Some f /\ ctype ty sz ch /\
  parse_fmt f = Ok [(1, ch)] /\ ch <> "s"%char /\ (c_signed ty = char_signed ch) /\ (char_unsigned ch = negb (char_signed ch)) /\
  char_size ch = Some sz /\ c_size ty = sz /\ str_contains "uint" ty = negb (c_signed ty) /\ str_contains "int" ty = true /\
  String.eqb ty "char" = false.
Proof.
  intros (ch & C & NF & NC). destruct C; try tauto; do 2 eexists; repeat split; try constructor; try discriminate.
Qed.

Lemma pack1_int ty sz ch f z : ctype ty sz ch -> ch <> "s"%char -> ty <> "float"%string -> ty <> "char"%string ->
  parse_fmt f = Ok [(1, ch)] ->
  struct_pack f [VInt z] = do! b <- pack_one ch (VInt z) in Ok b.
Proof.
  intros C NS NF NC P. unfold struct_pack. rewrite P. cbn [bind pack_items]. rewrite pack_item_eq. cbn [fst snd].
  destruct (Ascii.eqb_spec ch "s"); [contradiction|]. cbn [pack_rep]. destruct (pack_one ch (VInt z)); cbn [bind fst snd]; auto.
  rewrite !app_nil_r. reflexivity.
Qed.

Lemma pack_one_int ty sz ch z : ctype ty sz ch -> ty <> "float"%string -> ty <> "char"%string ->
  (c_ok ty (VInt z) -> exists b, pack_one ch (VInt z) = Ok b /\ is_bytes b /\ length b = sz /\ c_scalar ty b = VInt z) /\
  (~ c_ok ty (VInt z) -> pack_one ch (VInt z) = Err StructError).
Proof.
  intros C NF NC. split.
  - intros K. destruct (c_ok_pack ty sz ch (VInt z) C NC K) as (b & E). exists b. split; auto.
    destruct (pack_one_ok ch (VInt z) b E I) as (n & E1 & E2 & E3 & E4).
    assert (En : n = sz) by (destruct (ctype_size _ _ _ C); congruence). rewrite En in E2.
    split; auto. split; auto. rewrite <- (unpack_one_c ty sz ch b C NC E3 E2). apply E4. clear -C NC. destruct C; discriminate || tauto.
  - intros K. unfold c_ok in K. destruct C; try tauto; unfold pack_one; cbn -[Z.pow Z.mul Z.of_nat le_bytes Z.div] in *;
    match goal with |- context[if ?x then _ else _] => destruct x eqn:E end; auto; exfalso; apply K; split; auto; lia.
Qed.

Lemma c_scalar_inj ty sz a b : integer_type ty sz -> is_bytes a -> is_bytes b -> length a = sz -> length b = sz ->
  c_scalar ty a = c_scalar ty b -> a = b.
Proof.
  intros (ch & C & NF & NC) Ba Bb La Lb E. apply le_val_inj; auto; [congruence|].
  pose proof (le_val_bound _ Ba) as Va. pose proof (le_val_bound _ Bb) as Vb. rewrite La in Va. rewrite Lb in Vb. rewrite pow256 in Va, Vb.
  unfold c_scalar in E. rewrite (le_number_val a), (le_number_val b) in E. destruct (String.eqb_spec ty "float"); [contradiction|].
  destruct (ctype_size _ _ _ C) as [S1 _]. rewrite S1 in E.
  apply (f_equal (fun v => match v with VInt z => z | _ => 0%Z end)) in E. cbv beta iota zeta in E.
  assert (P : (0 < 2 ^ (8 * Z.of_nat sz))%Z) by (apply Z.pow_pos_nonneg; lia).
  assert (H2 : (2 ^ (8 * Z.of_nat sz) = 2 * (2 ^ (8 * Z.of_nat sz) / 2))%Z).
  { clear -C. destruct C; reflexivity. }
  set (m := (2 ^ (8 * Z.of_nat sz))%Z) in *. clearbody m.
  destruct (c_signed ty); [|lia].
  assert (Ra : (0 <= Z.of_N (le_val a) < m)%Z) by lia. assert (Rb : (0 <= Z.of_N (le_val b) < m)%Z) by lia.
  rewrite (signed_wrap _ m P H2 Ra), (signed_wrap _ m P H2 Rb) in E. clear -E Ra Rb. destruct (Z.ltb_spec (2 * Z.of_N (le_val a)) m), (Z.ltb_spec (2 * Z.of_N (le_val b)) m); lia.
Qed.

(** [bits] are the bits of the byte string [b]. *)
Lemma bits_eq b bits : length bits = 8 * length b -> (forall p, p < 8 * length b -> nth p bits false = bit_of b p) ->
  bits = bytes_bits b.
Proof.
  intros L H. apply nth_ext_eq with (d := false); [rewrite length_bytes_bits; auto|]. intros i Hi. rewrite L in Hi.
  rewrite H, nth_bytes_bits; auto.
Qed.

Section Generic.
Variable FO : fops.
Variable pack : F FO -> res N.
Variable erf : F FO -> F FO.

Lemma num2bits_int ty sz x z : integer_type ty sz ->
  (if (negb (c_signed ty) && negb (fle FO (fz FO 0) x))%bool then Ok 0%Z else fround FO x) = Ok z ->
  (forall bits, num2bits FO pack (NNum x) ty = Ok bits <->
     c_ok ty (VInt z) /\ exists b, is_bytes b /\ length b = sz /\ c_scalar ty b = VInt z /\ bits = bytes_bits b) /\
  (num2bits FO pack (NNum x) ty = Err StructError <-> ~ c_ok ty (VInt z)).
Proof using.
  clear erf. intros I E. destruct (int_wire ty sz I) as (f & ch & Df & C & P & NS & SG & UN & CS & S1 & U1 & U2 & U3).
  destruct I as (ch' & C' & NF & NC).
  assert (M : num2bits FO pack (NNum x) ty = do! b <- pack_one ch (VInt z) in Ok (bytes_bits b)).
  { unfold num2bits. rewrite U3, U1, U2, Df. cbn [bind].
    assert (Q : (do! b <- do! z <- (if (negb (c_signed ty) && negb (fle FO (fz FO 0) x))%bool then Ok 0%Z else fround FO x) in struct_pack f [VInt z] in Ok (bytes_bits b))
        = do! b <- pack_one ch (VInt z) in Ok (bytes_bits b)).
    { rewrite E. cbn [bind]. rewrite (pack1_int ty sz ch f z C NS NF NC P). destruct (pack_one ch (VInt z)); reflexivity. }
    rewrite <- Q. destruct (c_signed ty); cbn [negb andb].
    - reflexivity.
    - destruct (fle FO (fz FO 0) x); reflexivity. }
  destruct (pack_one_int ty sz ch z C NF NC) as [K1 K2].
  assert (DEC : c_ok ty (VInt z) \/ ~ c_ok ty (VInt z)).
  { unfold c_ok. destruct (c_signed ty); [destruct (Z_le_dec (- (2 ^ (8 * Z.of_nat (c_size ty)) / 2)) z), (Z_lt_dec z (2 ^ (8 * Z.of_nat (c_size ty)) / 2))|
      destruct (Z_le_dec 0 z), (Z_lt_dec z (2 ^ (8 * Z.of_nat (c_size ty))))]; intuition. }
  rewrite M. destruct DEC as [K|K].
  - destruct (K1 K) as (b & -> & B1 & B2 & B3). cbn [bind]. split.
    + intros bits. split.
      * intros H. injection H as <-. split; auto. exists b. auto.
      * intros (_ & b' & B1' & B2' & B3' & ->). f_equal. f_equal.
        apply (c_scalar_inj ty sz); auto; [exists ch; auto|congruence].
    + split; [discriminate|contradiction].
  - rewrite (K2 K). cbn [bind]. split; [|split; auto].
    intros bits. split; [discriminate|]. intros [K' _]. contradiction.
Qed.

Lemma num2bits_char num : num2bits FO pack num "char" = Err TypeError \/ num2bits FO pack num "char" = Err StructError.
Proof using. clear erf. destruct num; [left|right|left]; reflexivity. Qed.

Lemma num2bits_float x : num2bits FO pack (NNum x) "float" = do! p <- pack x in Ok (bytes_bits (le_bytes 4 p)).
Proof using. clear erf. unfold num2bits. cbn -[le_bytes]. destruct (pack x); cbn -[le_bytes]; rewrite ?app_nil_r; reflexivity. Qed.

(** FieldModel: window *)
Definition keep (w : option Z) (l : list pyval) : list pyval :=
  match w with
  | Some w => if (w <? Z.of_nat (length l))%Z then slice_from l (- w) else l
  | None => l
  end.

Lemma keep_windowed w l : window_ok w -> keep w l = windowed w l.
Proof using.
  clear. destruct w as [w|]; [|reflexivity]. simpl. intros H. unfold slice_from, norm_bound, last_n.
  destruct (Z.leb_spec w 0).
  - replace w with 0%Z by lia. change (- 0)%Z with 0%Z. simpl. destruct (0 <? Z.of_nat (length l))%Z; auto.
    rewrite Nat.min_0_r. reflexivity.
  - destruct (Z.ltb_spec w (Z.of_nat (length l))).
    + destruct (Z.ltb_spec (- w) 0); [|lia]. f_equal. lia.
    + replace (length l - Z.to_nat w) with 0 by lia. reflexivity.
Qed.

Lemma windowed_app w (l l' : list pyval) : windowed w (windowed w l ++ l') = windowed w (l ++ l').
Proof using.
  clear. destruct w as [w|]; [|reflexivity]. simpl. destruct (Z.leb_spec w 0); auto.
  unfold last_n. rewrite !app_length, skipn_length. set (n := Z.to_nat w).
  destruct (Nat.le_gt_cases (length l) n).
  - replace (length l - n) with 0 by lia. simpl. f_equal. lia.
  - replace (length l - (length l - n)) with n by lia.
    rewrite !skipn_app, !skipn_length, skipn_skipn. f_equal; f_equal; lia.
Qed.

Lemma windowed_idem w (l : list pyval) : windowed w (windowed w l) = windowed w l.
Proof using. clear. pose proof (windowed_app w l []) as H. rewrite !app_nil_r in H. exact H. Qed.

Lemma add_samples m s : fm_samples FO (fm_add_sample FO m s) = keep (fm_window FO m) (fm_samples FO m ++ arg_samples s).
Proof using. destruct s; reflexivity. Qed.

Lemma fm_init_facts name ty w m : fm_init FO name ty w = Ok m ->
  fm_samples FO m = [] /\ fm_window FO m = w /\ fm_name FO m = name /\ fm_type FO m = ty /\ fm_up2date FO m = false /\
  fm_mean FO m = fz FO 0 /\ fm_std FO m = fz FO 0.
Proof using.
  clear. unfold fm_init. destruct (dict_get _ _ _); [|discriminate].
  destruct (_ || _)%bool; [|destruct (str_contains "int" ty); [|destruct (str_contains "float" ty); [|discriminate]]];
    intros H; injection H as <-; cbn; auto 10.
Qed.

(** Everything but statistics and samples is constant. *)
Definition same_id (m m' : field_model FO) : Prop :=
  fm_name FO m = fm_name FO m' /\ fm_type FO m = fm_type FO m' /\ fm_len FO m = fm_len FO m' /\ fm_window FO m = fm_window FO m' /\
  fm_int FO m = fm_int FO m' /\ fm_signed FO m = fm_signed FO m'.

(** Invariant of the cache. *)
Definition coherent (m : field_model FO) : Prop :=
  (fm_up2date FO m = true -> fm_samples FO m <> [] /\ norm_fit FO (fm_samples FO m) = Ok (fm_mean FO m, fm_std FO m)) /\
  (fm_samples FO m = [] -> fm_mean FO m = fz FO 0 /\ fm_std FO m = fz FO 0).

Lemma update_spec m : coherent m ->
  match stats_of FO (fm_samples FO m) with
  | Ok (mu, sd) => exists m', fm_update FO m = Ok m' /\ fm_mean FO m' = mu /\ fm_std FO m' = sd /\
                     fm_samples FO m' = fm_samples FO m /\ same_id m m' /\ coherent m' /\
                     (fm_samples FO m <> [] -> fm_up2date FO m' = true)
  | Err e => fm_update FO m = Err e
  end.
Proof using.
  clear. intros [C1 C2]. unfold fm_update, stats_of. destruct (fm_samples FO m) as [|v l] eqn:E.
  - exists m. destruct (C2 eq_refl). unfold same_id, coherent. rewrite E. intuition.
  - rewrite <- E. destruct (norm_fit FO (fm_samples FO m)) as [[mu sd]|e] eqn:N; cbn [bind]; auto.
    eexists. split; [reflexivity|]. cbn. unfold same_id, coherent. cbn. rewrite E in *. rewrite N. intuition; try discriminate.
Qed.

Lemma refresh_spec m : coherent m ->
  match stats_of FO (fm_samples FO m) with
  | Ok (mu, sd) => exists m', fm_refresh FO m = Ok m' /\ fm_mean FO m' = mu /\ fm_std FO m' = sd /\
                     fm_samples FO m' = fm_samples FO m /\ same_id m m' /\ coherent m'
  | Err e => fm_refresh FO m = Err e
  end.
Proof using.
  clear. intros C. unfold fm_refresh. destruct (fm_up2date FO m) eqn:U; cbn [negb].
  - destruct C as [C1 C2]. destruct (C1 U) as [NE Fi]. unfold stats_of.
    destruct (fm_samples FO m) as [|v l] eqn:E; [contradiction|]. rewrite Fi. exists m. unfold same_id, coherent. rewrite E.
    repeat split; auto; discriminate.
  - pose proof (update_spec m C) as H. destruct (stats_of FO (fm_samples FO m)) as [[mu sd]|e]; auto.
    destruct H as (m' & ? & ? & ? & ? & ? & ? & ?). exists m'. auto 10.
Qed.

Lemma same_id_refl m : same_id m m.
Proof using. unfold same_id. auto 10. Qed.
Lemma same_id_trans a b c : same_id a b -> same_id b c -> same_id a c.
Proof using. unfold same_id. intuition; congruence. Qed.

Lemma windowed_nil w (l : list pyval) : windowed w l = [] -> l = [].
Proof using.
  clear. destruct w as [w|]; [|auto]. simpl. destruct (Z.leb_spec w 0); auto. unfold last_n. intros E.
  apply (f_equal (@length _)) in E. rewrite skipn_length in E. destruct l; auto. exfalso. cbn [length] in E. lia.
Qed.

Lemma event_spec m e : coherent m -> window_ok (fm_window FO m) ->
  coherent (fm_event_step FO pack erf m e) /\ same_id m (fm_event_step FO pack erf m e) /\
  fm_samples FO (fm_event_step FO pack erf m e) =
    match e with EAdd s => windowed (fm_window FO m) (fm_samples FO m ++ arg_samples s) | _ => fm_samples FO m end.
Proof using.
  intros C WO. pose proof (refresh_spec m C) as H.
  assert (R : forall (m' : field_model FO), fm_refresh FO m = Ok m' -> coherent m' /\ same_id m m' /\ fm_samples FO m' = fm_samples FO m).
  { intros m' E. destruct (stats_of FO (fm_samples FO m)) as [[mu sd]|e']; [|congruence].
    destruct H as (m'' & E' & ? & ? & ? & ? & ?). rewrite E in E'. injection E' as <-. auto. }
  pose proof (conj C (conj (same_id_refl m) (eq_refl (fm_samples FO m)))) as Same.
  destruct e; cbn [fm_event_step].
  - split; [|split; [unfold same_id; cbn; auto 10|rewrite add_samples; apply keep_windowed; auto]].
    split; [cbn; discriminate|]. intros E. rewrite add_samples, keep_windowed in E by auto. apply windowed_nil in E.
    apply app_eq_nil in E. destruct E as [E _]. destruct C as [_ C2]. apply C2; auto.
  - unfold fm_get_mean. destruct (fm_refresh FO m) as [m'|]; cbn [bind]; auto.
  - unfold fm_get_std. destruct (fm_refresh FO m) as [m'|]; cbn [bind]; auto.
  - unfold fm_classify_value. destruct (fm_refresh FO m) as [m'|]; cbn [bind]; auto.
    destruct (fle FO (fm_std FO m') (fz FO 0)); auto. destruct (value_num FO v); auto.
  - unfold fm_bitwise_mean. destruct (fm_refresh FO m) as [m'|]; cbn [bind]; auto.
    destruct (num2bits FO pack (NNum (fm_mean FO m')) (fm_type FO m')); cbn [bind]; auto.
Qed.

Lemma run_spec h : forall m, coherent m -> window_ok (fm_window FO m) ->
  fm_samples FO m = windowed (fm_window FO m) (fm_samples FO m) ->
  coherent (fm_run FO pack erf m h) /\ same_id m (fm_run FO pack erf m h) /\
  fm_samples FO (fm_run FO pack erf m h) = windowed (fm_window FO m) (fm_samples FO m ++ added h).
Proof using.
  induction h as [|e h IH]; intros m C W S.
  - cbn. rewrite app_nil_r. auto using same_id_refl.
  - cbn [fm_run fold_left]. destruct (event_spec m e C W) as (C' & Id & S'). fold (fm_run FO pack erf (fm_event_step FO pack erf m e) h).
    pose proof Id as (_ & _ & _ & W' & _). rewrite W' in W, S, S'.
    destruct (IH _ C' W) as (C2 & Id2 & S2).
    { rewrite S'. destruct e; auto. symmetry. apply windowed_idem. }
    split; auto. split; [eapply same_id_trans; eauto|]. rewrite S2, S', W'.
    destruct e; cbn [added flat_map]; auto. rewrite windowed_app, <- app_assoc. reflexivity.
Qed.

Lemma init_coherent name ty w m : fm_init FO name ty w = Ok m -> coherent m.
Proof using. intros H. apply fm_init_facts in H. destruct H as (S & _ & _ & _ & U & M & D). split; [rewrite U; discriminate|auto]. Qed.

Lemma windowed_nil_eq w : windowed w (@nil pyval) = [].
Proof using. clear. destruct w as [w|]; [|reflexivity]. simpl. destruct (w <=? 0)%Z; reflexivity. Qed.

Lemma history_spec name ty w m h : fm_init FO name ty w = Ok m -> window_ok w ->
  coherent (fm_run FO pack erf m h) /\ same_id m (fm_run FO pack erf m h) /\
  fm_samples FO (fm_run FO pack erf m h) = windowed w (added h).
Proof using.
  intros E W. pose proof (init_coherent _ _ _ _ E) as C. apply fm_init_facts in E. destruct E as (S & Ew & _).
  destruct (run_spec h m C) as (A & B & D); [rewrite Ew; auto|rewrite S; symmetry; apply windowed_nil_eq|].
  rewrite S, Ew in D. auto.
Qed.

(** Reads. *)
Lemma read_spec m : coherent m ->
  value_of (fm_get_mean FO m) = (do! s <- stats_of FO (fm_samples FO m) in Ok (fst s)) /\
  value_of (fm_get_std FO m) = (do! s <- stats_of FO (fm_samples FO m) in Ok (snd s)) /\
  value_of (fm_bitwise_mean FO pack m) = (do! s <- stats_of FO (fm_samples FO m) in num2bits FO pack (NNum (fst s)) (fm_type FO m)).
Proof using.
  intros C. pose proof (refresh_spec m C) as H. unfold fm_get_mean, fm_get_std, fm_bitwise_mean.
  destruct (stats_of FO (fm_samples FO m)) as [[mu sd]|e].
  - destruct H as (m' & -> & <- & <- & _ & Id & _). cbn [bind value_of fst snd].
    destruct Id as (_ & -> & _). split; [|split]; auto. destruct (num2bits _ _ _ _); reflexivity.
  - rewrite H. auto.
Qed.

(** What classify_value answers given the statistics. *)
Definition verdict (s : F FO * F FO) (v : pyval) : res (F FO * F FO) :=
  if fle FO (snd s) (fz FO 0)
  then Ok (if match value_num FO v with Some x => feq FO x (fst s) | None => false end then (fz FO 1, fz FO 0) else (fz FO 0, fz FO 0))
  else match value_num FO v with
       | None => Err TypeError
       | Some x => Ok (fsub FO (fz FO 1) (erf (fdiv FO (fdiv FO (fabs FO (fsub FO (fst s) x)) (snd s)) (fsqrt FO (fz FO 2)))), snd s)
       end.

Lemma classify_spec m v : coherent m ->
  value_of (fm_classify_value FO erf m v) = (do! s <- stats_of FO (fm_samples FO m) in verdict s v).
Proof using.
  clear pack. intros C. pose proof (refresh_spec m C) as H. unfold fm_classify_value, verdict.
  destruct (stats_of FO (fm_samples FO m)) as [[mu sd]|e].
  - destruct H as (m' & -> & <- & <- & _). cbn [bind fst snd].
    destruct (fle FO (fm_std FO m') (fz FO 0)); auto. destruct (value_num FO v); auto.
  - rewrite H. auto.
Qed.

(** classify_value only refreshes the object. *)
Lemma classify_state m v m' r : fm_classify_value FO erf m v = Ok (m', r) -> fm_refresh FO m = Ok m'.
Proof using.
  clear pack. unfold fm_classify_value. destruct (fm_refresh FO m) as [m2|]; cbn [bind]; [|discriminate].
  destruct (fle FO (fm_std FO m2) (fz FO 0)); [|destruct (value_num FO v); [|discriminate]]; intros H; injection H as <- _; auto.
Qed.

End Generic.
