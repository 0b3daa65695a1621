(** save and load. *)
From Coq Require Import String Ascii List NArith ZArith Bool Lia ZifyBool ZifyNat ZifyN Arith Sorting.Permutation Sorting.Sorted.
From Verif.Model Require Import Py Float Dialect ProtocolMeta Struct Crc Mavlink Segmentation StatModels.
From Verif.Spec Require Import Bytes Bits Header Frame Segment Describe RealOps Stats.
From Verif.Proofs Require Import Base BitOpsP DialectP HeaderP HeaderMore StructP CrcP MavlinkP FieldsP PackP SegMore DescribeP StatP LayoutP ValuesP BufModelP PredictP.
Import ListNotations.

(** sort_keys *)
Definition key_le {A} (x y : string * A) : Prop := String.leb (fst x) (fst y) = true.

Lemma insert_key_perm {A} (x : string * A) l : Permutation (insert_key x l) (x :: l).
Proof. induction l as [|y l IH]; cbn; auto. destruct (String.leb (fst x) (fst y)); auto. rewrite IH. apply perm_swap. Qed.
Lemma sort_keys_perm {A} (l : list (string * A)) : Permutation (sort_keys l) l.
Proof. induction l as [|x l IH]; cbn; auto. rewrite insert_key_perm. constructor. auto. Qed.

Lemma insert_key_map {A B} (g : A -> B) (x : string * A) l :
  insert_key (fst x, g (snd x)) (map (fun kv => (fst kv, g (snd kv))) l) = map (fun kv => (fst kv, g (snd kv))) (insert_key x l).
Proof. induction l as [|y l IH]; cbn; auto. destruct (String.leb (fst x) (fst y)); cbn; auto. rewrite IH. reflexivity. Qed.
Lemma sort_keys_map {A B} (g : A -> B) l :
  sort_keys (map (fun kv : string * A => (fst kv, g (snd kv))) l) = map (fun kv => (fst kv, g (snd kv))) (sort_keys l).
Proof. induction l as [|x l IH]; cbn; auto. fold (sort_keys (map (fun kv : string * A => (fst kv, g (snd kv))) l)). rewrite IH. apply insert_key_map. Qed.

Lemma insert_key_sorted {A} (x : string * A) l : Sorted key_le l -> Sorted key_le (insert_key x l).
Proof.
  induction l as [|y l IH]; cbn; intros H; [repeat constructor|]. destruct (String.leb (fst x) (fst y)) eqn:E.
  - constructor; auto.
  - assert (E' : key_le y x). { unfold key_le. destruct (String.leb_total (fst y) (fst x)); congruence. }
    inversion H as [|? ? H1 H2]; subst. constructor; auto. destruct l as [|z l]; cbn; [constructor; auto|].
    inversion H2; subst. destruct (String.leb (fst x) (fst z)); constructor; auto.
Qed.
Lemma sort_keys_sorted {A} (l : list (string * A)) : Sorted key_le (sort_keys l).
Proof. induction l; cbn; [constructor|apply insert_key_sorted; auto]. Qed.

Lemma dict_get_perm {A} (l l' : list (string * A)) k : NoDup (map fst l) -> Permutation l l' -> dict_get String.eqb l' k = dict_get String.eqb l k.
Proof.
  intros ND P. assert (ND' : NoDup (map fst l')) by (eapply Permutation_NoDup; [apply Permutation_map; exact P|auto]).
  destruct (dict_get String.eqb l k) as [v|] eqn:G.
  - apply (dict_get_iff _ streqb_spec) in G; auto. apply (dict_get_iff _ streqb_spec); auto. eapply Permutation_in; eauto.
  - apply (dict_get_none _ streqb_spec) in G. apply (dict_get_none _ streqb_spec). intros I. apply G.
    eapply Permutation_in; [apply Permutation_sym, Permutation_map; exact P|auto].
Qed.

(** Hexadecimal *)
Lemma hex_digit_val n : (n < 16)%N -> hex_val (hex_digit n) = Some n.
Proof.
  intros H. assert (T : forallb (fun n => match hex_val (hex_digit n) with Some m => N.eqb m n | None => false end) (map N.of_nat (seq 0 16)) = true) by (vm_compute; reflexivity).
  rewrite forallb_forall in T. specialize (T n). destruct (hex_val (hex_digit n)) as [m|].
  - f_equal. apply N.eqb_eq, T. apply in_map_iff. exists (N.to_nat n). split; [lia|apply in_seq; lia].
  - exfalso. assert (false = true); [|discriminate]. apply T. apply in_map_iff. exists (N.to_nat n). split; [lia|apply in_seq; lia].
Qed.
Lemma from_hex_of b : is_bytes b -> from_hex (hex_of b) = Ok b.
Proof.
  induction 1 as [|x b Hx B IH]; [reflexivity|]. cbn [hex_of from_hex].
  assert ((x / 16 < 16)%N) by (apply N.div_lt_upper_bound; lia). assert ((x mod 16 < 16)%N) by (apply N.mod_lt; lia).
  rewrite !hex_digit_val by auto. rewrite IH. cbn [bind]. f_equal. f_equal. symmetry. apply N.div_mod. lia.
Qed.
Lemma hex_of_even b : String.length (hex_of b) = 2 * length b.
Proof. induction b; cbn [hex_of String.length length]; lia. Qed.

Definition good_item (it : descr_item) : Prop := match it with BHeader b => is_bytes b | BStr s => s = "crc"%string | BField _ _ => True end.

Section Save.
Variable FO : fops.
Variable pack : F FO -> res N.
Variable erf : F FO -> F FO.
Notation fm := (field_model FO).
Notation bm := (buffer_model FO).

Lemma load_descr_ok it : good_item it -> load_descr FO (json_descr FO it) = Ok it.
Proof using.
  clear. destruct it as [b|s|n t]; cbn [good_item json_descr load_descr].
  - intros B. destruct (String.eqb_spec (hex_of b) "crc") as [E|E].
    + pose proof (hex_of_even b) as L. rewrite E in L. cbn in L. lia.
    + rewrite from_hex_of by auto. reflexivity.
  - intros ->. reflexivity.
  - reflexivity.
Qed.

Lemma load_descr_all d : Forall good_item d -> map_res (load_descr FO) (map (json_descr FO) d) = Ok d.
Proof using. clear. induction 1 as [|x d H _ IH]; cbn [map map_res]; auto. rewrite load_descr_ok by auto. cbn [bind]. rewrite IH. reflexivity. Qed.

Lemma samples_back l : map_res (jsample FO) (map (JSample FO) l) = Ok l.
Proof using. clear. induction l as [|x l IH]; cbn [map map_res jsample bind]; auto. rewrite IH. reflexivity. Qed.

Lemma load_field_ok name f0 f1 f : fm_init FO name (fm_type FO f) (fm_window FO f) = Ok f0 -> same_id FO f0 f1 -> coherent FO f1 ->
  fm_samples FO f1 = windowed (fm_window FO f) (fm_samples FO f1) -> window_ok (fm_window FO f) ->
  fm_update FO f1 = Ok f -> load_field FO name (json_field FO f) = Ok f.
Proof using.
  clear pack erf. intros E0 Id Co S WO U.
  destruct (update_sim FO f1 f Co U) as (Id1 & S1 & Co1).
  assert (Id0 : same_id FO f0 f) by (eapply same_id_trans; eauto).
  unfold load_field.
  change (jget FO "field_type" (json_field FO f)) with (Ok (JStr FO (fm_type FO f))). cbn [bind jstr].
  change (jget FO "window_size" (json_field FO f)) with (Ok (json_window FO (fm_window FO f))). cbn [bind].
  assert (JW : jwindow FO (json_window FO (fm_window FO f)) = Ok (fm_window FO f)) by (destruct (fm_window FO f); reflexivity).
  rewrite JW. cbn [bind]. rewrite E0. cbn [bind].
  change (jget FO "samples" (json_field FO f)) with (Ok (JArr FO (map (JSample FO) (fm_samples FO f)))). cbn [bind].
  rewrite samples_back. cbn [bind].
  apply fm_init_facts in E0. destruct E0 as (A1 & A2 & A3 & A4 & A5 & A6 & A7).
  assert (K : keep (fm_window FO f) (fm_samples FO f) = fm_samples FO f).
  { rewrite keep_windowed by auto. rewrite S1. auto. }
  assert (Q : fm_add_sample FO f0 (SList (fm_samples FO f)) =
     FM FO (fm_name FO f) (fm_type FO f) (fm_len FO f) (fz FO 0) (fz FO 0) (fm_samples FO f) false (fm_window FO f) (fm_int FO f) (fm_signed FO f)).
  { unfold fm_add_sample. rewrite A1, A2, A6, A7. cbn [app]. fold (keep (fm_window FO f) (fm_samples FO f)). rewrite K.
    destruct Id0 as (-> & -> & -> & _ & -> & ->). reflexivity. }
  rewrite Q. unfold fm_update in *. cbn [fm_samples fm_name fm_type fm_len fm_window fm_int fm_signed].
  destruct (fm_samples FO f1) as [|v l] eqn:E1.
  - injection U as <-. rewrite E1. f_equal. destruct Co as [C1 C2]. destruct (C2 E1) as [M D].
    assert (Up : fm_up2date FO f1 = false). { destruct (fm_up2date FO f1); auto. destruct (C1 eq_refl). congruence. }
    destruct f1 as [a1 a2 a3 a4 a5 a6 a7 a8 a9 a10]. cbn in *. subst. reflexivity.
  - destruct (norm_fit FO (v :: l)) as [[mu sd]|] eqn:N; [|discriminate]. cbn [bind fst snd] in U. injection U as <-. 
    cbn [fm_samples fm_name fm_type fm_len fm_window fm_int fm_signed fm_mean fm_std fm_up2date]. rewrite N. reflexivity.
Qed.

Lemma load_models l : forall obj, (forall k f, In (k, f) l -> load_field FO k (json_field FO f) = Ok f) ->
  NoDup (map fst (bm_models FO obj) ++ map fst l) ->
  fold_res (fun obj (kv : string * json FO) => do! f <- load_field FO (fst kv) (snd kv) in Ok (bm_set FO obj (fst kv) f))
    (map (fun kf => (fst kf, json_field FO (snd kf))) l) obj =
  Ok (BM FO (bm_ordered FO obj) (bm_descr FO obj) (bm_models FO obj ++ l) (bm_window FO obj) (bm_size FO obj)).
Proof using.
  clear pack erf. induction l as [|[k f] l IH]; intros obj H ND.
  - cbn. rewrite app_nil_r. destruct obj; reflexivity.
  - cbn [map fold_res fst snd]. rewrite (H k f) by (left; auto). cbn [bind]. cbn [map] in ND.
    rewrite IH.
    + cbn. f_equal. rewrite (dict_set_fresh _ streqb_spec). { rewrite <- app_assoc. reflexivity. }
      apply NoDup_remove_2 in ND. intros I. apply ND. apply in_or_app. left; auto.
    + intros k' f' I. apply H. right; auto.
    + cbn. rewrite (dict_set_fresh _ streqb_spec).
      * rewrite map_app, <- app_assoc. exact ND.
      * apply NoDup_remove_2 in ND. intros I. apply ND. apply in_or_app. left; auto.
Qed.

Definition described (m : bm) : Prop :=
  (bm_descr FO m = None /\ bm_ordered FO m = None) \/
  (exists d, bm_descr FO m = Some d /\ bm_ordered FO m = Some (flat_map (fun it => match it with BField n _ => [n] | _ => [] end) d) /\ Forall good_item d).

Lemma save_load w l m m1 doc : window_ok w -> bm_inv FO w l m -> described m -> save FO m = Ok (m1, doc) ->
  exists m2, load FO doc = Ok m2 /\ bm_window FO m2 = bm_window FO m /\ bm_size FO m2 = bm_size FO m /\
    bm_descr FO m2 = bm_descr FO m /\ bm_ordered FO m2 = bm_ordered FO m /\
    bm_models FO m2 = sort_keys (bm_models FO m1) /\ (forall nm, bm_get FO m2 nm = bm_get FO m1 nm).
Proof using.
  clear pack erf. intros WO I Ds Sv. pose proof (inv_coherent FO w l m I) as Co. destruct I as (W & ND & I). unfold save in Sv.
  destruct (update_all FO (bm_models FO m)) as [l1|] eqn:U; [|discriminate]. cbn [bind] in Sv.
  pose proof (f_equal (fun r => match r with Ok p => fst p | Err _ => m end) Sv) as E1.
  pose proof (f_equal (fun r => match r with Ok p => snd p | Err _ => JNull FO end) Sv) as E2. cbn [fst snd] in E1, E2. subst m1. clear Sv.
  destruct (update_all_sim FO (bm_models FO m) l1) as [K D]; auto.
  { intros k f Ik. apply (Co k). unfold bm_get. apply (dict_in_get _ streqb_spec); auto. }
  set (models := JObj FO (sort_keys (map (fun kf : string * fm => (fst kf, json_field FO (snd kf))) l1))) in *.
  set (descr := match bm_descr FO m with None => JNull FO | Some d => JArr FO (map (json_descr FO) d) end) in *.
  assert (Q : jget FO "field_models" doc = Ok models /\ jget FO "buffer_description" doc = Ok descr /\
     jget FO "window_size" doc = Ok (json_window FO (bm_window FO m)) /\ jget FO "model_size" doc = Ok (JInt FO (bm_size FO m))).
  { rewrite <- E2. repeat split; reflexivity. }
  destruct Q as (Q1 & Q2 & Q3 & Q4). unfold load. rewrite Q1, Q2, Q3, Q4. clear Q1 Q2 Q3 Q4 E2. unfold models. cbn [bind].
  assert (JW : jwindow FO (json_window FO (bm_window FO m)) = Ok (bm_window FO m)) by (destruct (bm_window FO m); reflexivity).
  rewrite JW. cbn [bind].
  assert (ND1 : NoDup (map fst l1)) by (rewrite K; auto).
  assert (P1 : Permutation (sort_keys l1) l1) by apply sort_keys_perm.
  rewrite (sort_keys_map (json_field FO)).
  rewrite (load_models (sort_keys l1) (bm_init FO [] None)).
  2:{ intros k f Ik. apply (Permutation_in _ P1) in Ik. apply (dict_in_get _ streqb_spec) in Ik; auto.
      specialize (D k). specialize (I k). unfold bm_get in I. destruct (dict_get String.eqb (bm_models FO m) k) as [f1|]; [|congruence].
      destruct D as (f' & G' & (Id1 & S1 & C1) & U'). assert (f' = f) by congruence. subst f'.
      cbn [field_state] in I. destruct I as (p & t & f0 & _ & E0 & Id0 & S0 & C0).
      pose proof (fm_init_facts FO _ _ _ _ E0) as (_ & W0 & _ & T0 & _).
      assert (Wf : fm_window FO f = w). { destruct Id1 as (_ & _ & _ & X & _), Id0 as (_ & _ & _ & Y & _). congruence. }
      assert (Tf : fm_type FO f = snd p). { destruct Id1 as (_ & X & _), Id0 as (_ & Y & _). congruence. }
      apply (load_field_ok k f0 f1 f); auto; rewrite ?Wf, ?Tf; auto. rewrite S0. symmetry. apply windowed_idem. }
  2:{ cbn. eapply Permutation_NoDup; [apply Permutation_map, Permutation_sym; exact P1|auto]. }
  cbn [bind bm_init bm_ordered bm_descr bm_models bm_window bm_size app].
  assert (G : forall nm, dict_get String.eqb (sort_keys l1) nm = dict_get String.eqb l1 nm).
  { intros nm. apply dict_get_perm; auto. apply Permutation_sym; auto. }
  unfold descr. destruct Ds as [[D1 D2]|(d & D1 & D2 & Gd)]; rewrite D1, ?D2.
  - cbn [bind bm_ordered bm_descr bm_models]. eexists. split; [reflexivity|]. unfold bm_get. cbn. auto 10.
  - rewrite load_descr_all by auto. cbn [bind bm_set_description bm_ordered bm_descr bm_models]. eexists. split; [reflexivity|].
    unfold bm_get. cbn. auto 10.
Qed.

(** When save raises. *)
Lemma save_total m : NoDup (map fst (bm_models FO m)) -> all_coherent FO m ->
  ((exists r, save FO m = Ok r) <-> forall nm f, bm_get FO m nm = Some f -> exists st, stats_of FO (fm_samples FO f) = Ok st).
Proof using.
  clear pack erf. intros ND Co. unfold save.
  assert (X : (exists l1, update_all FO (bm_models FO m) = Ok l1) <-> forall k f, In (k, f) (bm_models FO m) -> exists f', fm_update FO f = Ok f').
  { unfold update_all. generalize (bm_models FO m). clear. induction l as [|[k f] l IH]; cbn [map_res].
    - split; [intros _ k f []|eauto].
    - split.
      + intros (l1 & E). cbn [fst snd] in E. destruct (fm_update FO f) as [f1|] eqn:U; [|discriminate]. cbn [bind] in E.
        destruct (map_res _ l) as [l2|] eqn:E2; [|discriminate]. intros k' f' [Ef|I]; [injection Ef as <- <-; eauto|].
        apply (proj1 IH (ex_intro _ l2 eq_refl) k' f' I).
      + intros H. destruct (H k f ltac:(left; auto)) as (f1 & U). cbn [fst snd]. rewrite U. cbn [bind].
        destruct (proj2 IH) as (l2 & ->); [intros k' f' I; apply (H k'); right; auto|]. cbn [bind]. eauto. }
  split.
  - intros (r & E) nm f G. destruct (update_all FO (bm_models FO m)) as [l1|] eqn:U; [|discriminate].
    pose proof (proj1 X (ex_intro _ l1 eq_refl) nm f (dict_get_in _ streqb_spec _ _ G)) as (f' & Uf).
    pose proof (update_spec FO f (Co _ _ G)) as Sp. destruct (stats_of FO (fm_samples FO f)); [eauto|congruence].
  - intros H. destruct (proj2 X) as (l1 & ->); [|cbn [bind]; eauto]. intros k f I.
    assert (G : bm_get FO m k = Some f) by (apply (dict_in_get _ streqb_spec); auto). destruct (H k f G) as ([mu sd] & E).
    pose proof (update_spec FO f (Co _ _ G)) as Sp. rewrite E in Sp. destruct Sp as (f' & ? & _). eauto.
Qed.

(** Predictions only depend on the samples. *)
Definition agree (m m' : bm) : Prop := forall nm,
  match bm_get FO m nm, bm_get FO m' nm with
  | None, None => True
  | Some f, Some f' => fm_samples FO f' = fm_samples FO f /\ coherent FO f /\ coherent FO f'
  | _, _ => False
  end.
Definition results {A B C D} (r : res (A * B * C * D)) : res (B * C * D) := do! x <- r in Ok (snd (fst (fst x)), snd (fst x), snd x).

Lemma predict_loop_agree bits names : forall vals idx m m' vf vb sd, agree m m' ->
  results (predict_loop FO erf bits idx names vals (m, vf, vb, sd)) = results (predict_loop FO erf bits idx names vals (m', vf, vb, sd)).
Proof using.
  clear pack. induction names as [|nm names IH]; intros vals idx m m' vf vb sd A; cbn [predict_loop]; [reflexivity|].
  destruct vals as [|v vals]; [reflexivity|]. pose proof (A nm) as An.
  destruct (bm_get FO m nm) as [f|] eqn:G, (bm_get FO m' nm) as [f'|] eqn:G'; try contradiction; cbn [bind].
  - destruct An as (S & C & C'). pose proof (classify_spec FO erf f v C) as K. pose proof (classify_spec FO erf f' v C') as K'.
    rewrite S, <- K in K'. clear K.
    destruct (fm_classify_value FO erf f v) as [[f1 [val std]]|e] eqn:Cl, (fm_classify_value FO erf f' v) as [[f1' [val' std']]|e'] eqn:Cl';
      cbn [value_of] in K'; try discriminate; injection K' as <-; [|reflexivity]. subst std'. cbn [bind]. apply IH.
    apply classify_state in Cl. apply classify_state in Cl'. apply refresh_sim in Cl; auto. apply refresh_sim in Cl'; auto.
    intros k. rewrite !bm_get_set. destruct (String.eqb k nm); [|apply A]. destruct Cl as (_ & S1 & C1), Cl' as (_ & S2 & C2).
    split; [congruence|auto].
  - apply IH. auto.
Qed.

Lemma predict_agree m m' a s : agree m m' -> results (predict FO erf m a s) = results (predict FO erf m' a s).
Proof using.
  clear pack. intros A. unfold predict. destruct (buf_length a) as [n|]; cbn [bind]; [|reflexivity].
  destruct (unpack_structure true n s) as [[[bits names] tys]|]; cbn [bind]; [|reflexivity].
  destruct (unpack_values a s); cbn [bind]; [|reflexivity]. apply predict_loop_agree; auto.
Qed.

(** Descriptions of reachable models. *)
Definition good_event (e : bm_event) : Prop := match e with VDescribe d => Forall good_item d | _ => True end.

Lemma step_described w l m e o : window_ok w -> bm_inv FO w l m -> outcome e o -> good_event e -> described m -> described (bm_event_step FO pack erf m e).
Proof using.
  intros WO I O Ge D. pose proof (inv_coherent FO w l m I) as Co.
  assert (X : forall m', bm_descr FO m' = bm_descr FO m -> bm_ordered FO m' = bm_ordered FO m -> described m').
  { intros m' E1 E2. unfold described. rewrite E1, E2. auto. }
  destruct O as [a b s sl Hd P L|a b s Hd NP|s|e NA]; cbn [bm_event_step].
  - destruct (add_buffer_accepted FO w l m a b s sl WO I Hd P L) as (m' & -> & _ & _ & E1 & E2). apply X; auto.
  - rewrite (add_buffer_rejected FO m a b s Hd NP). auto.
  - auto.
  - destruct e as [a s|a s|idx n s| |d]; cbn [bm_event_step].
    + exfalso. eapply NA; reflexivity.
    + destruct (predict FO erf m a s) as [[[[m' vf] vb] sd]|] eqn:E; auto. apply predict_sim in E; auto. apply X; apply E.
    + destruct (bitwise_model_mean FO pack m idx n s) as [[m' x]|] eqn:E; auto. apply mean_sim in E; auto. apply X; apply E.
    + destruct (save FO m) as [[m' x]|] eqn:E; auto. apply save_sim in E; auto; [|apply I]. apply X; apply E.
    + right. exists d. auto.
Qed.

Lemma run_described w h os : window_ok w -> Forall2 outcome h os -> Forall good_event h -> described (bm_run FO pack erf (bm_init FO [] w) h).
Proof using.
  intros WO. assert (G : forall l m, bm_inv FO w l m -> described m -> Forall2 outcome h os -> Forall good_event h -> described (bm_run FO pack erf m h)).
  { revert os. induction h as [|e h IH]; intros os l m I D F2 Gd; auto. inversion F2 as [|? o ? os' O F2']; subst. inversion Gd; subst.
    cbn [bm_run fold_left]. fold (bm_run FO pack erf (bm_event_step FO pack erf m e) h).
    eapply IH; [apply (event_inv FO pack erf w l m e o WO I O)| |exact F2'|auto]. eapply step_described; eauto. }
  intros F2 Gd. eapply G; eauto; [apply init_inv|left; auto].
Qed.

Lemma sim_agree m m' : all_coherent FO m -> bm_sim FO m m' -> agree m m'.
Proof using.
  clear. intros Co (_ & _ & _ & _ & _ & S) nm. specialize (S nm). destruct (bm_get FO m nm) as [f|] eqn:G.
  - destruct S as (f' & -> & (_ & S1 & C1)). split; auto. split; auto. eapply Co; eauto.
  - rewrite S. auto.
Qed.

Lemma save_load_predict w h os m1 doc : window_ok w -> Forall2 outcome h os -> Forall good_event h ->
  let m := bm_run FO pack erf (bm_init FO [] w) h in
  save FO m = Ok (m1, doc) ->
  exists m2, load FO doc = Ok m2 /\ bm_window FO m2 = bm_window FO m /\ bm_size FO m2 = bm_size FO m /\
    bm_descr FO m2 = bm_descr FO m /\ bm_ordered FO m2 = bm_ordered FO m /\
    Permutation (bm_models FO m2) (bm_models FO m1) /\ Sorted key_le (bm_models FO m2) /\ (forall nm, bm_get FO m2 nm = bm_get FO m1 nm) /\
    forall a s, results (predict FO erf m2 a s) = results (predict FO erf m a s).
Proof using.
  intros WO F2 Gd m Sv. destruct (history_inv FO pack erf w h os WO F2) as [I _]. fold m in I.
  pose proof (run_described w h os WO F2 Gd) as Ds. fold m in Ds.
  destruct (save_load w _ m m1 doc WO I Ds Sv) as (m2 & L & A1 & A2 & A3 & A4 & A5 & A6). exists m2.
  split; auto. split; auto. split; auto. split; auto. split; auto. rewrite A5. split; [apply sort_keys_perm|]. split; [apply sort_keys_sorted|].
  split; auto. intros a s. symmetry. apply predict_agree. apply save_sim in Sv; [|apply I|eapply inv_coherent; eauto].
  pose proof (sim_agree m m1 (inv_coherent _ _ _ _ I) Sv) as Ag. intros nm. rewrite A6. apply Ag.
Qed.
End Save.
