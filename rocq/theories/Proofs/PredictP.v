(** predict, find_damaged_fields, bitwise_model_mean. *)
From Coq Require Import String Ascii List NArith ZArith Bool Lia ZifyBool ZifyNat ZifyN Arith Sorting.Permutation Sorting.Sorted.
From Verif.Model Require Import Py Float Dialect ProtocolMeta Struct Crc Mavlink Segmentation StatModels.
From Verif.Spec Require Import Bytes Bits Header Frame Segment Describe RealOps Stats.
From Verif.Proofs Require Import Base BitOpsP DialectP HeaderP HeaderMore StructP CrcP MavlinkP FieldsP PackP SegMore DescribeP StatP LayoutP ValuesP BufModelP.
Import ListNotations.

Lemma map_res_ext {A B} (f g : A -> res B) l : (forall x, In x l -> f x = g x) -> map_res f l = map_res g l.
Proof.
  induction l as [|x l IH]; cbn [map_res]; intros H; auto. rewrite (H x) by (left; auto). rewrite IH; auto. intros y Hy. apply H. right; auto.
Qed.

Lemma length_mask_set {A} bits idx (v : A) l : length bits = length l -> length (mask_set bits idx v l) = length l.
Proof. intros E. unfold mask_set. rewrite map_length, combine_length. lia. Qed.
Lemma nth_mask_set {A} bits idx (v : A) l p d : length bits = length l -> p < length l ->
  nth p (mask_set bits idx v l) d = if Z.eqb (nth p bits 0%Z) idx then v else nth p l d.
Proof.
  intros E Hp. unfold mask_set. rewrite nth_map_lt with (d' := (0%Z, d)) by (rewrite combine_length; lia).
  rewrite combine_nth by auto. reflexivity.
Qed.

Lemma nth_error_nth_iff {A} (l : list A) j x d : nth_error l j = Some x <-> j < length l /\ nth j l d = x.
Proof.
  split.
  - intros H. split; [apply nth_error_Some; congruence|]. apply nth_error_nth with (d := d) in H. auto.
  - intros [H <-]. apply nth_error_nth'. auto.
Qed.

Section Pred.
Variable FO : fops.
Variable pack : F FO -> res N.
Variable erf : F FO -> F FO.
Notation fm := (field_model FO).
Notation bm := (buffer_model FO).

Definition entry (m : bm) (nv : string * pyval) : res (option (F FO * F FO)) :=
  match bm_get FO m (fst nv) with
  | None => Ok None
  | Some f => do! r <- value_of (fm_classify_value FO erf f (snd nv)) in Ok (Some r)
  end.

Lemma entry_sim m m' nv : all_coherent FO m -> bm_sim FO m m' -> entry m' nv = entry m nv.
Proof using.
  clear pack. intros C S. pose proof (bm_sim_coherent FO m m' S C) as C'. destruct S as (_ & _ & _ & _ & _ & S). specialize (S (fst nv)). unfold entry.
  destruct (bm_get FO m (fst nv)) as [f|] eqn:G.
  - destruct S as (f' & G' & (_ & Sm & _)). rewrite G'. rewrite !classify_spec; [|eapply C; eauto|eapply C'; eauto]. rewrite Sm. reflexivity.
  - rewrite S. reflexivity.
Qed.

Definition over {A} (es : list (option (F FO * F FO))) (idx : nat) (q : Z) (sel : F FO * F FO -> A) (old : option A) : option A :=
  if (Z.leb (Z.of_nat idx) q && Z.ltb q (Z.of_nat (idx + length es)))%bool
  then match nth (Z.to_nat q - idx) es None with Some r => Some (sel r) | None => old end else old.

Lemma over_cons {A} e es idx q (sel : F FO * F FO -> A) old :
  over (e :: es) idx q sel old = over es (S idx) q sel (if Z.eqb q (Z.of_nat idx) then match e with Some r => Some (sel r) | None => old end else old).
Proof using.
  clear. unfold over. cbn [length]. destruct (Z.eqb_spec q (Z.of_nat idx)) as [->|N].
  - replace (Z.of_nat idx <=? Z.of_nat idx)%Z with true by lia. replace (Z.of_nat idx <? Z.of_nat (idx + S (length es)))%Z with true by lia.
    replace (Z.of_nat (S idx) <=? Z.of_nat idx)%Z with false by lia. rewrite Nat2Z.id, Nat.sub_diag. reflexivity.
  - replace (idx + S (length es)) with (S idx + length es) by lia.
    destruct ((Z.of_nat idx <=? q) && (q <? Z.of_nat (S idx + length es)))%Z%bool eqn:E1.
    + replace ((Z.of_nat (S idx) <=? q) && (q <? Z.of_nat (S idx + length es)))%Z%bool with true by lia.
      replace (Z.to_nat q - idx) with (S (Z.to_nat q - S idx)) by lia. reflexivity.
    + replace ((Z.of_nat (S idx) <=? q) && (q <? Z.of_nat (S idx + length es)))%Z%bool with false by lia. reflexivity.
Qed.

Lemma predict_loop_spec bits nvs : forall idx m vf vb sd, all_coherent FO m -> length bits = length vb -> length bits = length sd ->
  idx + length nvs <= length vf ->
  match map_res (entry m) nvs with
  | Err e => predict_loop FO erf bits idx (map fst nvs) (map snd nvs) (m, vf, vb, sd) = Err e
  | Ok es => exists m' vf' vb' sd',
      predict_loop FO erf bits idx (map fst nvs) (map snd nvs) (m, vf, vb, sd) = Ok (m', vf', vb', sd') /\
      length es = length nvs /\ length vf' = length vf /\ length vb' = length vb /\ length sd' = length sd /\
      (forall j, nth j vf' None = over es idx (Z.of_nat j) (fun r => (nth (j - idx) (map fst nvs) ""%string, fst r, snd r)) (nth j vf None)) /\
      (forall p, p < length bits -> nth p vb' None = over es idx (nth p bits 0%Z) fst (nth p vb None)) /\
      (forall p, p < length bits -> nth p sd' None = over es idx (nth p bits 0%Z) snd (nth p sd None))
  end.
Proof using.
  clear pack. induction nvs as [|[nm v] nvs IH]; intros idx m vf vb sd C Lb Ls Lv.
  - cbn. exists m, vf, vb, sd. unfold over. cbn [length]. repeat split; auto; intros.
    + replace ((Z.of_nat idx <=? Z.of_nat j) && (Z.of_nat j <? Z.of_nat (idx + 0)))%Z%bool with false by lia. auto.
    + replace ((Z.of_nat idx <=? nth p bits 0) && (nth p bits 0 <? Z.of_nat (idx + 0)))%Z%bool with false by lia. auto.
    + replace ((Z.of_nat idx <=? nth p bits 0) && (nth p bits 0 <? Z.of_nat (idx + 0)))%Z%bool with false by lia. auto.
  - cbn [map_res map fst snd predict_loop length] in *. unfold entry at 1. cbn [fst snd].
    destruct (bm_get FO m nm) as [f|] eqn:G; cbn [bind].
    + destruct (fm_classify_value FO erf f v) as [[f1 [val std]]|e] eqn:Cl; cbn [bind value_of]; [|reflexivity].
      pose proof (classify_state FO erf _ _ _ _ Cl) as R. pose proof (refresh_sim FO f f1 (C _ _ G) R) as S0.
      pose proof (bm_set_sim FO m nm f f1 C G S0) as S1. pose proof (bm_sim_coherent FO _ _ S1 C) as C1.
      assert (E : map_res (entry (bm_set FO m nm f1)) nvs = map_res (entry m) nvs).
      { apply map_res_ext. intros x _. apply entry_sim; auto. }
      specialize (IH (S idx) (bm_set FO m nm f1) (set_nth vf idx (Some (nm, val, std)))
        (mask_set bits (Z.of_nat idx) (Some val) vb) (mask_set bits (Z.of_nat idx) (Some std) sd) C1).
      rewrite !length_mask_set, length_set_nth in IH by auto. specialize (IH Lb Ls ltac:(lia)). rewrite E in IH.
      destruct (map_res (entry m) nvs) as [es|e]; cbn [bind]; [|exact IH].
      destruct IH as (m' & vf' & vb' & sd' & E' & L0 & L1 & L2 & L3 & V1 & V2 & V3).
      exists m', vf', vb', sd'. split; auto. cbn [length]. repeat split; auto.
      * intros j. rewrite V1, over_cons, nth_set_nth.
        destruct (Z.eqb_spec (Z.of_nat j) (Z.of_nat idx)).
        -- assert (j = idx) by lia. subst j. rewrite Nat.eqb_refl. replace (Nat.ltb idx (length vf)) with true by lia.
           cbn [andb]. rewrite Nat.sub_diag. unfold over.
           replace ((Z.of_nat (S idx) <=? Z.of_nat idx)%Z) with false by lia. reflexivity.
        -- replace (Nat.eqb j idx) with false by lia. cbn [andb]. unfold over.
           destruct ((Z.of_nat (S idx) <=? Z.of_nat j) && (Z.of_nat j <? Z.of_nat (S idx + length es)))%Z%bool eqn:Q; auto.
           destruct (nth (Z.to_nat (Z.of_nat j) - S idx) es None); auto. replace (j - idx) with (S (j - S idx)) by lia. reflexivity.
      * intros p Hp. rewrite V2, nth_mask_set, over_cons by (auto; lia). reflexivity.
      * intros p Hp. rewrite V3, nth_mask_set, over_cons by (auto; lia). reflexivity.
    + specialize (IH (S idx) m vf vb sd C Lb Ls ltac:(lia)).
      destruct (map_res (entry m) nvs) as [es|e]; cbn [bind]; [|exact IH].
      destruct IH as (m' & vf' & vb' & sd' & E' & L0 & L1 & L2 & L3 & V1 & V2 & V3).
      exists m', vf', vb', sd'. split; auto. cbn [length]. repeat split; auto.
      * intros j. rewrite V1, over_cons. destruct (Z.eqb_spec (Z.of_nat j) (Z.of_nat idx)); [|].
        -- unfold over. replace ((Z.of_nat (S idx) <=? Z.of_nat j)%Z) with false by lia. reflexivity.
        -- unfold over. destruct ((Z.of_nat (S idx) <=? Z.of_nat j) && (Z.of_nat j <? Z.of_nat (S idx + length es)))%Z%bool eqn:Q; auto.
           destruct (nth (Z.to_nat (Z.of_nat j) - S idx) es None); auto. replace (j - idx) with (S (j - S idx)) by lia. reflexivity.
      * intros p Hp. rewrite V2, over_cons by auto. destruct (Z.eqb _ _); reflexivity.
      * intros p Hp. rewrite V3, over_cons by auto. destruct (Z.eqb _ _); reflexivity.
Qed.

Lemma owner_range sl p q : owner sl p q -> q = (-1)%Z \/ (0 <= q < Z.of_nat (length sl))%Z.
Proof using. clear. intros [[-> _]|(pre & x & post & -> & -> & _)]; auto. right. rewrite app_length. cbn [length]. lia. Qed.

(** What predict returns. *)
Lemma predict_spec m a b s sl : all_coherent FO m -> holds a b -> Forall (plain_in (length b)) s -> layout s sl ->
  match map_res (fun x => entry m (s_name x, slot_value b x)) sl with
  | Err e => predict FO erf m a s = Err e
  | Ok es => exists m' vf vb sd, predict FO erf m a s = Ok (m', vf, vb, sd) /\
      length es = length sl /\ length vb = 8 * length b /\ length sd = 8 * length b /\
      vf = map (fun xe => match snd xe with Some r => Some (s_name (fst xe), fst r, snd r) | None => None end) (combine sl es) /\
      (forall p q, p < 8 * length b -> owner sl p q ->
         nth p vb None = (if (q <? 0)%Z then None else option_map fst (nth (Z.to_nat q) es None)) /\
         nth p sd None = (if (q <? 0)%Z then None else option_map snd (nth (Z.to_nat q) es None)))
  end.
Proof using.
  clear pack. intros C Hd P L. destruct (holds_facts a b Hd) as (B & BL & UV). unfold predict. rewrite BL. cbn [bind].
  destruct (structure_ok _ _ _ P L) as (bits & -> & [Lb BM]). cbn [bind]. rewrite UV, (values_ok b s sl B P L). cbn [bind].
  set (nvs := map (fun x => (s_name x, slot_value b x)) sl).
  assert (E1 : map s_name sl = map fst nvs) by (unfold nvs; rewrite map_map; reflexivity).
  assert (E2 : map (slot_value b) sl = map snd nvs) by (unfold nvs; rewrite map_map; reflexivity).
  assert (Ln : length nvs = length sl) by (unfold nvs; rewrite map_length; auto).
  rewrite E1, E2, map_length.
  pose proof (predict_loop_spec bits nvs 0 m (repeat None (length nvs)) (repeat None (length bits)) (repeat None (length bits)) C) as H.
  rewrite !repeat_length in H. specialize (H eq_refl eq_refl ltac:(lia)).
  assert (E3 : map_res (fun x => entry m (s_name x, slot_value b x)) sl = map_res (entry m) nvs).
  { unfold nvs. clear. induction sl as [|x sl IH]; cbn [map map_res]; auto. rewrite IH. reflexivity. }
  rewrite E3. destruct (map_res (entry m) nvs) as [es|e]; [|exact H].
  destruct H as (m' & vf & vb & sd & E & L0 & L1 & L2 & L3 & V1 & V2 & V3). exists m', vf, vb, sd. split; auto.
  split; [lia|]. split; [lia|]. split; [lia|]. split.
  - apply nth_ext_eq with (d := None).
    + rewrite map_length, combine_length. lia.
    + intros j Hj. rewrite V1. rewrite nth_map_lt with (d' := (Slot "" "" 0 0, None)) by (rewrite combine_length; lia).
      rewrite combine_nth by lia. cbn [fst snd]. unfold over. replace ((Z.of_nat 0 <=? Z.of_nat j) && (Z.of_nat j <? Z.of_nat (0 + length es)))%Z%bool with true by lia.
      rewrite Nat2Z.id, !Nat.sub_0_r. destruct (nth j es None) as [r|].
      * do 3 f_equal. rewrite <- E1. rewrite nth_map_lt with (d' := Slot "" "" 0 0) by lia. reflexivity.
      * apply nth_repeat.
  - intros p q Hp O. specialize (V2 p ltac:(lia)). specialize (V3 p ltac:(lia)). specialize (BM p Hp).
    rewrite (owner_fun _ _ _ _ BM O) in V2, V3. rewrite V2, V3. rewrite !nth_repeat. unfold over.
    destruct (owner_range _ _ _ O) as [->|R].
    + cbn. auto.
    + replace ((Z.of_nat 0 <=? q) && (q <? Z.of_nat (0 + length es)))%Z%bool with true by lia. replace (q <? 0)%Z with false by lia.
      rewrite Nat.sub_0_r. destruct (nth (Z.to_nat q) es None); auto.
Qed.

End Pred.

(** Sorting *)
Lemma insert_z_perm x l : Permutation (insert_z x l) (x :: l).
Proof. induction l as [|y l IH]; cbn; auto. destruct (x <=? y)%Z; auto. rewrite IH. apply perm_swap. Qed.
Lemma sort_z_perm l : Permutation (sort_z l) l.
Proof. induction l as [|x l IH]; cbn; auto. rewrite insert_z_perm. constructor. auto. Qed.
Lemma insert_z_sorted x l : Sorted Z.le l -> Sorted Z.le (insert_z x l).
Proof.
  induction l as [|y l IH]; cbn; intros H; [repeat constructor|]. destruct (Z.leb_spec x y).
  - constructor; auto.
  - inversion H as [|? ? H1 H2]; subst. constructor; auto. destruct l as [|z l]; cbn; [constructor; lia|].
    inversion H2; subst. destruct (x <=? z)%Z; constructor; lia.
Qed.
Lemma sort_z_sorted l : Sorted Z.le (sort_z l).
Proof. induction l; cbn; [constructor|apply insert_z_sorted; auto]. Qed.

Lemma sorted_perm_unique l l' : Sorted Z.le l -> Sorted Z.le l' -> Permutation l l' -> l = l'.
Proof.
  intros S S' P. apply Sorted_StronglySorted in S; [|intros x y z; lia]. apply Sorted_StronglySorted in S'; [|intros x y z; lia].
  revert l' S' P. induction S as [|x l S IH F]; intros l' S' P; [apply Permutation_nil in P; auto|].
  destruct S' as [|y l' S' F']; [apply Permutation_sym, Permutation_nil in P; discriminate|].
  assert (x = y).
  { rewrite Forall_forall in F, F'. assert (In y (x :: l)) as [->|I1] by (apply Permutation_in with (y :: l'); [apply Permutation_sym; auto|left; auto]); auto.
    assert (In x (y :: l')) as [->|I2] by (apply Permutation_in with (x :: l); [auto|left; auto]); auto.
    specialize (F _ I1). specialize (F' _ I2). lia. }
  subst y. f_equal. apply IH; auto. apply Permutation_cons_inv in P. auto.
Qed.
