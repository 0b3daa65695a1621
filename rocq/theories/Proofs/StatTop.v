(** Properties of the statistical models in terms of histories. *)
From Coq Require Import String Ascii List NArith ZArith Bool Lia ZifyBool ZifyNat ZifyN Arith Sorting.Permutation Sorting.Sorted Reals Lra.
From Verif.Model Require Import Py Float Dialect ProtocolMeta Struct Crc Mavlink Segmentation StatModels.
From Verif.Spec Require Import Bytes Bits Header Frame Segment Describe RealOps Stats.
From Verif.Proofs Require Import Base BitOpsP DialectP HeaderP HeaderMore StructP CrcP MavlinkP FieldsP PackP RealP StatP LayoutP ValuesP BufModelP PredictP MeanP SaveP StatReal.
Import ListNotations.
Local Close Scope R_scope.

Lemma num2bits_float_bytes (FO : fops) pack x p : pack x = Ok p -> (p < 2 ^ 32)%N ->
  exists b, is_bytes b /\ length b = 4 /\ c_scalar "float" b = VF32 p /\ num2bits FO pack (NNum x) "float" = Ok (bytes_bits b).
Proof.
  intros P L. exists (le_bytes 4 p). split; [apply le_bytes_is_bytes|]. split; [apply length_le_bytes|].
  split; [|rewrite num2bits_float, P; reflexivity].
  unfold c_scalar. cbn [String.eqb Ascii.eqb Bool.eqb]. f_equal. rewrite le_number_val. apply le_val_le_bytes. exact L.
Qed.

Lemma num2bits_no_number (FO : fops) pack num ty sz : integer_type ty sz -> (forall x, num <> NNum x) -> num2bits FO pack num ty = Err TypeError.
Proof.
  intros I N. destruct (int_wire ty sz I) as (f & ch & _ & _ & _ & _ & _ & _ & _ & _ & U & IT & NC).
  unfold num2bits. rewrite NC. destruct (str_contains "uint" ty); [|rewrite IT]; destruct num; try reflexivity; exfalso; eapply N; reflexivity.
Qed.

Lemma int_in_range ty sz ch b : ctype ty sz ch -> ty <> "float"%string -> ty <> "char"%string -> is_bytes b -> length b = sz -> c_ok ty (c_scalar ty b).
Proof.
  intros C NF NC Hb L. pose proof (le_val_bound b Hb) as B. rewrite <- le_number_val, L in B. unfold c_scalar, c_ok.
  assert (CS : c_size ty = sz) by (destruct C; reflexivity). rewrite CS.
  assert (E : String.eqb ty "float" = false) by (apply String.eqb_neq; exact NF). rewrite E. split; [exact NF|].
  assert (M : (2 ^ (8 * Z.of_nat sz) = Z.of_N (256 ^ N.of_nat sz))%Z).
  { rewrite N2Z.inj_pow. change (Z.of_N 256) with (2 ^ 8)%Z. rewrite <- Z.pow_mul_r by lia. f_equal. lia. }
  assert (P : (0 < 2 ^ (8 * Z.of_nat sz))%Z) by (apply Z.pow_pos_nonneg; lia).
  assert (Ev : (2 ^ (8 * Z.of_nat sz) = 2 * (2 ^ (8 * Z.of_nat sz) / 2))%Z).
  { destruct sz; [exfalso; clear - C; inversion C|]. replace (8 * Z.of_nat (S sz))%Z with (1 + (7 + 8 * Z.of_nat sz))%Z by lia.
    rewrite Z.pow_add_r by lia. change (2 ^ 1)%Z with 2%Z. rewrite (Z.mul_comm 2), Z.div_mul by lia. lia. }
  set (m := (2 ^ (8 * Z.of_nat sz))%Z) in *. clearbody m.
  destruct (c_signed ty); [|lia]. pose proof (Z.mod_pos_bound (Z.of_N (le_number b) + m / 2) m P). lia.
Qed.

Section Top.
Variable FO : fops.
Variable pack : F FO -> res N.
Variable erf : F FO -> F FO.

Lemma reach_inv w os m : window_ok w -> reachable FO pack erf w os m ->
  bm_inv FO w (recorded os) m /\ bm_size FO m = saturated w (accepted os) /\ all_coherent FO m.
Proof.
  intros W (h & H & ->). destruct (history_inv FO pack erf w h os W H) as [A B]. split; auto. split; auto. eapply inv_coherent; eauto.
Qed.

Lemma fm_init_total name ty w : (exists m, fm_init FO name ty w = Ok m) <-> exists sz ch, ctype ty sz ch.
Proof.
  split.
  - intros [m H]. unfold fm_init in H. destruct (dict_get String.eqb field_lengths ty) as [n|] eqn:G; [|discriminate].
    apply (dict_get_in _ streqb_spec) in G. cbn in G.
    repeat (destruct G as [G|G]; [assert (ty = fst (ty, n)) as -> by reflexivity; rewrite <- G; cbn [fst]; do 2 eexists; constructor|]). destruct G.
  - intros (sz & ch & C). eapply ctype_init; eauto.
Qed.

Lemma model_fields w os m : window_ok w -> reachable FO pack erf w os m ->
  bm_size FO m = saturated w (accepted os) /\ NoDup (map fst (bm_models FO m)) /\
  forall nm, match bm_get FO m nm with
             | None => values_under nm (recorded os) = []
             | Some f => values_under nm (recorded os) <> [] /\ fm_samples FO f = windowed w (values_under nm (recorded os)) /\
                         fm_name FO f = nm /\ fm_window FO f = w /\
                         exists v ty t, under nm (recorded os) = (v, ty) :: t /\ fm_type FO f = ty
             end.
Proof.
  intros W R. destruct (reach_inv w os m W R) as (I & S & _). split; auto. destruct I as (_ & ND & I). split; auto.
  intros nm. specialize (I nm). unfold field_state in I. unfold values_under. destruct (bm_get FO m nm) as [f|]; [|rewrite I; reflexivity].
  destruct I as ([v ty] & t & f0 & U & I0 & SI & Sm & _). rewrite U. cbn [snd] in I0.
  destruct (fm_init_facts FO _ _ _ _ I0) as (_ & A2 & A3 & A4 & _). destruct SI as (S1 & S2 & _ & S4 & _).
  split; [discriminate|]. split; [exact Sm|]. split; [congruence|]. split; [congruence|]. exists v, ty, t. split; [reflexivity|congruence].
Qed.

Lemma add_spec w os m a s : window_ok w -> reachable FO pack erf w os m ->
  (forall b, holds a b -> Forall (plain_in (length b)) s -> snd (add_buffer FO m a s) = Ok tt) /\
  (forall b, holds a b -> ~ Forall (plain_in (length b)) s ->
     ((forall k i, In (k, i) s -> exists c, is_msg i c) -> add_buffer FO m a s = (m, Err StructError)) /\
     (~ (forall k i, In (k, i) s -> exists c, is_msg i c) -> add_buffer FO m a s = (m, Err KeyError))) /\
  (a = BOther -> add_buffer FO m a s = (m, Err ValueError)).
Proof.
  intros W R. destruct (reach_inv w os m W R) as (I & S & _). split; [|split].
  - intros b H P. destruct (layout_exists _ _ P) as [sl L].
    destruct (add_buffer_accepted FO w (recorded os) m a b s sl W I H P L) as (m' & E & _). rewrite E. reflexivity.
  - intros b H P. rewrite (add_buffer_rejected FO m a b s H P). split; intros K.
    + replace (forallb _ s) with true; [reflexivity|]. symmetry. apply forallb_forall. intros [k i] In1. cbn [snd].
      destruct (K k i In1) as [c C]. apply get_class_spec in C. rewrite C. reflexivity.
    + replace (forallb _ s) with false; [reflexivity|]. symmetry. apply not_true_is_false. intros T. apply K. rewrite forallb_forall in T.
      intros k i In1. specialize (T (k, i) In1). cbn [snd] in T. destruct (get_class i) as [c|] eqn:G; [|discriminate].
      exists c. apply get_class_spec. exact G.
  - intros ->. reflexivity.
Qed.

(** One structure. *)
Lemma under_once nm sl x b : nth_error (filter (fun y => String.eqb (s_name y) nm) sl) 0 = Some x ->
  length (filter (fun y => String.eqb (s_name y) nm) sl) = 1 -> under nm (map (slot_sample b) sl) = [(slot_value b x, s_type x)].
Proof.
  intros H L. assert (E : under nm (map (slot_sample b) sl) = map (fun y => (slot_value b y, s_type y)) (filter (fun y => String.eqb (s_name y) nm) sl)).
  { clear. unfold under. induction sl as [|y t IH]; [reflexivity|]. cbn [map filter slot_sample fst].
    destruct (String.eqb (s_name y) nm); cbn [map snd]; rewrite IH; reflexivity. }
  rewrite E. destruct (filter _ sl) as [|y [|z t]]; cbn in *; try discriminate. injection H as <-. reflexivity.
Qed.

Lemma under_flat nm os : under nm (recorded os) = flat_map (fun o => match o with Some l => under nm l | None => [] end) os.
Proof.
  induction os as [|o os IH]; [reflexivity|]. unfold recorded in *. cbn [flat_map]. rewrite under_app, IH. destruct o; reflexivity.
Qed.

Lemma once_per_buffer nm s sl x : layout s sl -> filter (fun y => String.eqb (s_name y) nm) sl = [x] ->
  forall bs os, Forall2 (fun b o => o = Some (map (slot_sample b) sl)) bs os ->
  values_under nm (recorded os) = map (fun b => slot_value b x) bs /\ accepted os = length bs.
Proof.
  intros L1 F bs os H. induction H as [|b o bs os E H IH]; [split; reflexivity|].
  destruct IH as [A B]. subst o. split.
  - unfold values_under in *. rewrite under_flat in *. cbn [flat_map map]. rewrite map_app, A.
    rewrite (under_once nm sl x b) by (rewrite F; reflexivity). reflexivity.
  - unfold accepted in *. cbn [filter length]. rewrite B. reflexivity.
Qed.

Lemma same_structure w s sl nm x bs : window_ok w -> layout s sl -> filter (fun y => String.eqb (s_name y) nm) sl = [x] ->
  bs <> [] -> Forall (fun b => is_bytes b /\ Forall (plain_in (length b)) s) bs ->
  let m := bm_run FO pack erf (bm_init FO [] w) (map (fun b => VAdd (BBytes b) s) bs) in
  bm_size FO m = saturated w (length bs) /\
  exists f, bm_get FO m nm = Some f /\ fm_samples FO f = windowed w (map (fun b => slot_value b x) bs).
Proof.
  intros W L F NE H m.
  assert (O : exists os, Forall2 (fun b o => o = Some (map (slot_sample b) sl)) bs os /\ Forall2 outcome (map (fun b => VAdd (BBytes b) s) bs) os).
  { clear - L H. induction H as [|b bs [Hb P] H IH]; [exists []; split; constructor|]. destruct IH as (os & A & B).
    exists (Some (map (slot_sample b) sl) :: os). split; constructor; auto. econstructor; eauto. constructor; auto. }
  destruct O as (os & O1 & O2). destruct (once_per_buffer nm s sl x L F bs os O1) as [V A].
  assert (R : reachable FO pack erf w os m) by (eexists; split; [exact O2|reflexivity]).
  destruct (model_fields w os m W R) as (S & _ & M). rewrite A in S. split; auto. specialize (M nm). rewrite V in M.
  destruct (bm_get FO m nm) as [f|]; [|destruct bs; [contradiction|discriminate]]. exists f. split; [reflexivity|]. apply M.
Qed.

Lemma predict_reach w os m a b s sl : window_ok w -> reachable FO pack erf w os m -> holds a b -> Forall (plain_in (length b)) s -> layout s sl ->
  match map_res (fun x => field_entry FO erf m (s_name x, slot_value b x)) sl with
  | Err e => predict FO erf m a s = Err e
  | Ok es => exists m' vf vb sd, predict FO erf m a s = Ok (m', vf, vb, sd) /\
      length es = length sl /\ length vb = 8 * length b /\ length sd = 8 * length b /\
      vf = map (fun xe => match snd xe with Some r => Some (s_name (fst xe), fst r, snd r) | None => None end) (combine sl es) /\
      (forall p q, p < 8 * length b -> owner sl p q ->
         nth p vb None = (if (q <? 0)%Z then None else option_map fst (nth (Z.to_nat q) es None)) /\
         nth p sd None = (if (q <? 0)%Z then None else option_map snd (nth (Z.to_nat q) es None)))
  end.
Proof. intros W R. apply predict_spec. apply (reach_inv w os m W R). Qed.

Lemma predict_rejects m a b s : holds a b -> ~ Forall (plain_in (length b)) s -> exists e, predict FO erf m a s = Err e.
Proof.
  intros H NP. destruct (holds_facts _ _ H) as (_ & L & _). destruct (not_plain _ _ NP) as (s1 & k & i & t & -> & P1 & N1).
  destruct (structure_first_err (length b) s1 k i t P1 N1) as (_ & _ & _ & e & E). exists e. unfold predict. rewrite L. cbn [bind]. rewrite E. reflexivity.
Qed.

Lemma mean_reach w os m idx n s sl : window_ok w -> reachable FO pack erf w os m -> Forall (plain_in n) s -> disjoint_structure s -> layout s sl ->
  match map_res (field_mean_bits FO pack m) sl with
  | Err e => bitwise_model_mean FO pack m idx n s = Err e
  | Ok bs => length bs = length sl /\ exists picture, length picture = 8 * n /\
      value_of (bitwise_model_mean FO pack m idx n s) = map_res (index_z picture) idx /\
      forall p, p < 8 * n ->
        (forall j x, nth_error sl j = Some x -> bit_in x p -> nth p picture false = nth (p - 8 * s_first x) (nth j bs []) false) /\
        ((forall x, In x sl -> ~ bit_in x p) -> nth p picture false = false)
  end.
Proof.
  intros W R P D L. destruct (reach_inv w os m W R) as (_ & _ & C). pose proof (mean_spec FO pack m idx n s sl C P D L) as H.
  change (field_mean_bits FO pack m) with (mean_bits FO pack m).
  destruct (map_res (mean_bits FO pack m) sl) as [bs|e]; [|exact H]. destruct H as (A & m' & pic & B & V & _ & E). split; auto. exists pic. auto.
Qed.

Lemma save_load_reach w h os m1 doc : window_ok w -> Forall2 outcome h os -> Forall written_event h ->
  let m := bm_run FO pack erf (bm_init FO [] w) h in
  save FO m = Ok (m1, doc) ->
  exists m2, load FO doc = Ok m2 /\ bm_window FO m2 = bm_window FO m /\ bm_size FO m2 = bm_size FO m /\
    bm_descr FO m2 = bm_descr FO m /\ bm_ordered FO m2 = bm_ordered FO m /\
    Permutation (bm_models FO m2) (bm_models FO m1) /\ Sorted (fun x y => String.leb (fst x) (fst y) = true) (bm_models FO m2) /\
    (forall nm, match bm_get FO m nm, bm_get FO m2 nm with
                | None, None => True
                | Some f, Some f' => fm_name FO f' = fm_name FO f /\ fm_type FO f' = fm_type FO f /\ fm_window FO f' = fm_window FO f /\
                                     fm_samples FO f' = fm_samples FO f
                | _, _ => False
                end) /\
    forall a s, results_of (predict FO erf m2 a s) = results_of (predict FO erf m a s).
Proof.
  intros W H G m E. destruct (save_load_predict FO pack erf w h os m1 doc W H G E) as (m2 & A1 & A2 & A3 & A4 & A5 & A6 & A7 & A8 & A9).
  fold m in A2, A3, A4, A5, A9. exists m2. repeat (split; [assumption|]). split; [|exact A9].
  destruct (history_inv FO pack erf w h os W H) as [I _]. fold m in I. pose proof (inv_coherent FO _ _ _ I) as C.
  destruct (save_sim FO m m1 doc (proj1 (proj2 I)) C E) as (_ & _ & _ & _ & _ & SIM).
  intros nm. specialize (SIM nm). rewrite A8. destruct (bm_get FO m nm) as [f|]; [|rewrite SIM; auto].
  destruct SIM as (f' & -> & (S1 & S2 & _ & S4 & _) & SS & _). repeat split; congruence.
Qed.

Lemma save_works w os m : window_ok w -> reachable FO pack erf w os m ->
  ((exists r, save FO m = Ok r) <-> forall nm, exists st, stats_of FO (windowed w (values_under nm (recorded os))) = Ok st).
Proof.
  intros W R. destruct (reach_inv w os m W R) as (I & _ & C). rewrite (save_total FO m (proj1 (proj2 I)) C).
  destruct (model_fields w os m W R) as (_ & _ & M). split.
  - intros H nm. specialize (M nm). destruct (bm_get FO m nm) as [f|] eqn:G.
    + destruct M as (_ & <- & _). eapply H; eauto.
    + rewrite M. replace (windowed w []) with (@nil pyval) by (symmetry; apply windowed_nil_eq). eexists; reflexivity.
  - intros H nm f G. specialize (M nm). rewrite G in M. destruct M as (_ & -> & _). apply H.
Qed.
End Top.

Lemma equal_samples_bit pack erf w os m idx n s sl j x b p z bit : window_ok w -> reachable Rops pack erf w os m ->
  Forall (plain_in n) s -> disjoint_structure s -> layout s sl -> nth_error sl j = Some x -> bit_in x p ->
  is_bytes b -> length b = n -> integer_type (s_type x) (s_width x) -> slot_value b x = VInt z ->
  values_under (s_name x) (recorded os) <> [] -> Forall (fun v => v = VInt z) (windowed w (values_under (s_name x) (recorded os))) ->
  nth_error idx bit = Some (Z.of_nat p) ->
  forall r, value_of (bitwise_model_mean Rops pack m idx n s) = Ok r -> nth_error r bit = Some (bit_of b p).
Proof.
  intros W R P D L J BI Hb Ln IT SV NE All Ix r E.
  destruct (reach_inv Rops pack erf w os m W R) as (I & _ & C).
  pose proof (mean_spec Rops pack m idx n s sl C P D L) as H.
  destruct (map_res (mean_bits Rops pack m) sl) as [bs|e] eqn:MB; [|rewrite H in E; discriminate].
  destruct H as (LB & m' & pic & LP & V & _ & PB).
  pose proof (layout_bounds n s sl P L) as BD. rewrite Forall_forall in BD. specialize (BD x (nth_error_In _ _ J)).
  assert (CO : c_ok (s_type x) (VInt z)).
  { rewrite <- SV. destruct IT as (ch & CT & NF & NC). unfold slot_value. apply (int_in_range (s_type x) (s_width x) ch); auto.
    - apply is_bytes_firstn, is_bytes_skipn. exact Hb.
    - rewrite firstn_length, skipn_length. lia. }
  destruct (mean_bits_equal pack w (recorded os) m x b z I Hb IT ltac:(lia) SV CO NE All) as (bits & MX & LBits & NB).
  assert (BJ : nth j bs [] = bits).
  { assert (G : forall (l : list slot) rs j x, map_res (mean_bits Rops pack m) l = Ok rs -> nth_error l j = Some x ->
        mean_bits Rops pack m x = Ok (nth j rs [])).
    { clear. induction l as [|y t IH]; intros rs j x M N; [destruct j; discriminate|]. cbn [map_res] in M.
      destruct (mean_bits Rops pack m y) as [v|] eqn:Q; cbn [bind] in M; [|discriminate].
      destruct (map_res (mean_bits Rops pack m) t) as [vs|] eqn:T; cbn [bind] in M; [|discriminate].
      inversion M; subst. destruct j; cbn [nth_error nth] in *; [congruence|]. eapply IH; eauto. }
    pose proof (G sl bs j x MB J) as Q. congruence. }
  assert (PN : p < 8 * n) by (destruct BI; lia).
  destruct (PB p PN) as [PB1 _]. specialize (PB1 j x J BI). rewrite BJ, NB in PB1 by exact BI.
  rewrite V in E.
  assert (G : forall l r k q, map_res (index_z pic) l = Ok r -> nth_error l k = Some q -> exists v, index_z pic q = Ok v /\ nth_error r k = Some v).
  { clear. induction l as [|y t IH]; intros r k q M N; [destruct k; discriminate|]. cbn [map_res] in M.
    destruct (index_z pic y) as [v|] eqn:Q; cbn [bind] in M; [|discriminate].
    destruct (map_res (index_z pic) t) as [vs|] eqn:T; cbn [bind] in M; [|discriminate].
    inversion M; subst. destruct k; cbn [nth_error] in *; [exists v; split; congruence|]. eapply IH; eauto. }
  destruct (G idx r bit _ E Ix) as (v & IV & RV).
  rewrite (index_z_ok pic (Z.of_nat p) p false) in IV by (auto; lia). rewrite RV. congruence.
Qed.
