(** find_damaged_fields and bitwise_model_mean. *)
From Coq Require Import String Ascii List NArith ZArith Bool Lia ZifyBool ZifyNat ZifyN Arith Sorting.Permutation Sorting.Sorted Reals Lra.
From Verif.Model Require Import Py Float Dialect ProtocolMeta Struct Crc Mavlink Segmentation StatModels.
From Verif.Spec Require Import Bytes Bits Header Frame Segment Describe RealOps Stats.
From Verif.Proofs Require Import Base BitOpsP DialectP HeaderP HeaderMore StructP CrcP MavlinkP FieldsP PackP SegMore DescribeP RealP StatP LayoutP ValuesP BufModelP PredictP.
Import ListNotations.
Local Close Scope R_scope.

Definition dstep (bits : list Z) (names : list (string * nat)) (acc : list (string * nat)) (error : Z) : res (list (string * nat)) :=
  if (error <? Z.of_nat (length bits))%Z then
    do! i <- index_z bits error in
    if (0 <=? i)%Z then do! x <- index_z names i in Ok (acc ++ [x]) else Ok acc
  else Ok acc.

Lemma index_z_ok {A} (l : list A) e p d : p < length l -> (e = Z.of_nat p \/ e = Z.of_nat p - Z.of_nat (length l))%Z -> index_z l e = Ok (nth p l d).
Proof.
  intros Hp E. unfold index_z. assert (J : (if (e <? 0)%Z then (e + Z.of_nat (length l))%Z else e) = Z.of_nat p).
  { destruct (Z.ltb_spec e 0); lia. }
  rewrite J. replace ((Z.of_nat p <? 0) || (Z.of_nat (length l) <=? Z.of_nat p))%Z%bool with false by lia. rewrite Nat2Z.id.
  rewrite (nth_error_nth' l p d Hp). reflexivity.
Qed.

Lemma index_z_err {A} (l : list A) e : (e < - Z.of_nat (length l))%Z -> index_z l e = Err IndexError.
Proof.
  intros H. unfold index_z. destruct (Z.ltb_spec e 0); [|lia].
  replace ((e + Z.of_nat (length l) <? 0) || (Z.of_nat (length l) <=? e + Z.of_nat (length l)))%Z%bool with true by lia. reflexivity.
Qed.

Definition numbered (sl : list slot) : list (string * nat) := combine (map s_name sl) (seq 0 (length (map s_name sl))).

Lemma nth_numbered sl j x : nth_error sl j = Some x -> j < length (numbered sl) /\ nth j (numbered sl) (""%string, 0) = (s_name x, j).
Proof.
  intros H. apply (nth_error_nth_iff _ _ _ (Slot "" "" 0 0)) in H. destruct H as [Hj <-]. unfold numbered.
  split; [rewrite combine_length, seq_length, map_length; lia|].
  rewrite combine_nth by (rewrite seq_length; auto). rewrite seq_nth by (rewrite map_length; auto).
  rewrite nth_map_lt with (d' := Slot "" "" 0 0) by auto. reflexivity.
Qed.

Lemma dstep_spec n sl bits acc e : bit_map n sl bits -> (- (8 * Z.of_nat n) <= e)%Z ->
  exists l, damage n sl e l /\ dstep bits (numbered sl) acc e = Ok (acc ++ l).
Proof.
  intros [L B] He. unfold dstep. rewrite L. destruct (Z.ltb_spec e (Z.of_nat (8 * n))) as [H|H].
  - set (p := Z.to_nat (if (e <? 0)%Z then e + 8 * Z.of_nat n else e)).
    assert (Hp : p < 8 * n /\ (e = Z.of_nat p \/ e = Z.of_nat p - 8 * Z.of_nat n)%Z).
    { unfold p. destruct (Z.ltb_spec e 0); lia. }
    destruct Hp as [Hp Ep]. rewrite (index_z_ok bits e p 0%Z) by lia. cbn [bind]. specialize (B p Hp).
    destruct (owner_range _ _ _ B) as [E|R].
    + exists []. rewrite E in *. cbn [Z.leb]. rewrite app_nil_r. split; auto. right. exists p. auto.
    + destruct (Z.leb_spec 0 (nth p bits 0%Z)); [|lia].
      destruct (nth_error sl (Z.to_nat (nth p bits 0%Z))) as [x|] eqn:Ex.
      2:{ apply nth_error_None in Ex. lia. }
      destruct (nth_numbered _ _ _ Ex) as [Ln Nn].
      rewrite (index_z_ok _ _ (Z.to_nat (nth p bits 0%Z)) (""%string, 0)) by (auto; lia). cbn [bind]. rewrite Nn.
      eexists. split; [|reflexivity]. right. exists p. split; auto. split; auto. right. exists (Z.to_nat (nth p bits 0%Z)), x.
      rewrite Z2Nat.id by lia. auto.
  - exists []. rewrite app_nil_r. split; auto. left. split; [lia|auto].
Qed.

Lemma dfold_spec n sl bits es : bit_map n sl bits -> Forall (fun e => (- (8 * Z.of_nat n) <= e)%Z) es -> forall acc,
  exists ls, Forall2 (damage n sl) es ls /\ fold_res (dstep bits (numbered sl)) es acc = Ok (acc ++ concat ls).
Proof.
  intros B. induction 1 as [|e es He _ IH]; intros acc.
  - exists []. cbn. rewrite app_nil_r. auto.
  - destruct (dstep_spec n sl bits acc e B He) as (l & D & E). cbn [fold_res]. rewrite E. cbn [bind].
    destruct (IH (acc ++ l)) as (ls & D2 & E2). exists (l :: ls). rewrite E2. cbn [concat]. rewrite app_assoc. auto.
Qed.

Lemma damage_fun n sl e l l' : damage n sl e l -> damage n sl e l' -> (- (8 * Z.of_nat n) <= e)%Z -> l = l'.
Proof.
  intros [[A ->]|(p & Hp & Ep & D)] [[A' ->]|(p' & Hp' & Ep' & D')] He; auto; try lia.
  assert (p = p') by lia. subst p'. destruct D as [[O ->]|(j & x & N & O & ->)], D' as [[O' ->]|(j' & x' & N' & O' & ->)]; auto;
    pose proof (owner_fun _ _ _ _ O O'); try lia. assert (j = j') by lia. subst j'. rewrite N in N'. injection N' as ->. auto.
Qed.

Lemma find_spec errors s n sl : Forall (plain_in n) s -> layout s sl ->
  (Forall (fun e => (- (8 * Z.of_nat n) <= e)%Z) errors ->
     exists es ls, Permutation es errors /\ Sorted Z.le es /\ Forall2 (damage n sl) es ls /\
       find_damaged_fields errors s n = Ok (Some (concat ls))) /\
  (Exists (fun e => (e < - (8 * Z.of_nat n))%Z) errors -> find_damaged_fields errors s n = Ok None).
Proof.
  intros P L. destruct (structure_ok _ _ _ P L) as (bits & E & B). unfold find_damaged_fields. rewrite E. cbn [bind].
  fold (numbered sl). fold (dstep bits (numbered sl)). split; intros H.
  - assert (H' : Forall (fun e => (- (8 * Z.of_nat n) <= e)%Z) (sort_z errors)).
    { rewrite Forall_forall in *. intros e I. apply H. eapply Permutation_in; [apply sort_z_perm|auto]. }
    destruct (dfold_spec n sl bits _ B H' []) as (ls & D & F). exists (sort_z errors), ls. rewrite F.
    split; [apply sort_z_perm|]. split; [apply sort_z_sorted|]. auto.
  - pose proof (sort_z_perm errors) as Pm. destruct (sort_z errors) as [|e es] eqn:Es.
    + apply Permutation_nil in Pm. subst. inversion H.
    + assert (He : (e < - (8 * Z.of_nat n))%Z).
      { apply Exists_exists in H. destruct H as (e' & I & He). pose proof (sort_z_sorted errors) as St. rewrite Es in St.
        apply Sorted_StronglySorted in St; [|intros x y z; lia]. inversion St as [|? ? _ F]; subst. 
        apply (Permutation_in _ (Permutation_sym Pm)) in I. destruct I as [->|I]; auto. rewrite Forall_forall in F. specialize (F _ I). lia. }
      cbn [fold_res]. unfold dstep at 1. destruct B as [Lb _]. rewrite Lb. destruct (Z.ltb_spec e (Z.of_nat (8 * n))); [|lia].
      rewrite index_z_err by lia. reflexivity.
Qed.

(** Disjoint structures *)
Definition clash_free (x y : slot) : Prop := forall p, bit_in x p -> ~ bit_in y p.

Lemma slots_range k c x : In c mavlink_classes -> In x (msg_slots k c) -> k <= s_first x /\ s_first x + s_width x <= k + 6 + wire_size c.
Proof.
  intros H I. rewrite msg_slots_split in I. apply in_app_or in I. destruct I as [I|I].
  - unfold head_slots in I. cbn [In] in I. repeat destruct I as [<-|I]; cbn [s_first s_width]; try lia.
  - unfold body_slots in I. apply in_map_iff in I. destruct I as (j & <- & Hj). apply in_seq in Hj. cbn [s_first s_width].
    destruct (field_at_wire_spec c j H ltac:(lia)) as [Hi _]. pose proof (offset_bound c _ H Hi). lia.
Qed.

Lemma contiguous_range xs : forall f, contiguous f xs -> Forall (fun x => f <= s_first x) xs.
Proof.
  induction xs as [|x xs IH]; intros f C; constructor; destruct C as [E C]; [lia|].
  eapply Forall_impl; [|apply IH; exact C]. cbv beta. intros y. lia.
Qed.
Lemma contiguous_pairs xs : forall f, contiguous f xs -> ForallOrdPairs clash_free xs.
Proof.
  induction xs as [|x xs IH]; intros f C; constructor; destruct C as [E C]; [|eapply IH; eauto].
  eapply Forall_impl; [|apply contiguous_range; exact C]. cbv beta. intros y Hy p Bx By. unfold bit_in in *. lia.
Qed.

Lemma FOP_app {A} (R : A -> A -> Prop) l l' : ForallOrdPairs R l -> ForallOrdPairs R l' -> (forall x y, In x l -> In y l' -> R x y) ->
  ForallOrdPairs R (l ++ l').
Proof.
  induction 1 as [|x l F H IH]; cbn; intros H' C; auto. constructor.
  - apply Forall_app. split; auto. apply Forall_forall. intros y Hy. apply C; auto.
  - apply IH; auto.
Qed.

Lemma contiguous_app xs ys : forall f, contiguous f xs -> contiguous (f + total xs) ys -> contiguous f (xs ++ ys).
Proof.
  induction xs as [|x xs IH]; intros f C D; unfold total in *; cbn [map app contiguous] in *.
  - simpl in D. rewrite Nat.add_0_r in D. auto.
  - destruct C as [E C]. split; auto. apply IH; auto. rewrite list_sum_cons, Nat.add_assoc in D. auto.
Qed.

Lemma msg_contiguous k c : In c mavlink_classes -> contiguous k (msg_slots k c).
Proof.
  intros H. rewrite msg_slots_split. apply contiguous_app.
  - cbn. repeat split; lia.
  - change (total (head_slots k c)) with 6. apply (body_contiguous k c H).
Qed.

Lemma disjoint_slots s sl : layout s sl -> disjoint_structure s -> ForallOrdPairs clash_free sl.
Proof.
  intros L D. induction L as [|k i c s sl M L IH]; [constructor|]. inversion D as [|? ? D1 D2]; subst. pose proof M as [H _].
  apply FOP_app; [eapply contiguous_pairs, msg_contiguous; auto|auto|]. intros x y Ix Iy p Bx By.
  assert (exists k' i' c', In (k', i') s /\ is_msg i' c' /\ In y (msg_slots k' c')) as (k' & i' & c' & I' & M' & Iy').
  { clear -L Iy. induction L as [|k i c s sl M L IH]; [destruct Iy|]. apply in_app_or in Iy. destruct Iy as [Iy|Iy].
    - exists k, i, c. split; [left; auto|auto].
    - destruct (IH Iy) as (k' & i' & c' & I & X). exists k', i', c'. split; [right; auto|auto]. }
  rewrite Forall_forall in D1. specialize (D1 _ I' c c' M M'). cbn [fst snd] in D1.
  pose proof (slots_range k c x H Ix). pose proof (slots_range k' c' y (proj1 M') Iy'). unfold bit_in in *. lia.
Qed.

Lemma FOP_nth {A} (R : A -> A -> Prop) l : ForallOrdPairs R l -> forall i j x y, i < j -> nth_error l i = Some x -> nth_error l j = Some y -> R x y.
Proof.
  induction 1 as [|a l F H IH]; intros i j x y Hij Ni Nj; [destruct i; discriminate|].
  destruct j; [lia|]. cbn in Nj. destruct i; cbn in Ni.
  - injection Ni as ->. rewrite Forall_forall in F. apply F. eapply nth_error_In; eauto.
  - apply (IH i j); auto. lia.
Qed.

Lemma owner_disjoint sl j x p : ForallOrdPairs clash_free sl -> nth_error sl j = Some x -> (owner sl p (Z.of_nat j) <-> bit_in x p).
Proof.
  intros D N. split.
  - intros [[E _]|(pre & y & post & -> & E & B & _)]; [lia|]. assert (j = length pre) by lia. subst j.
    rewrite nth_error_app2 in N by lia. rewrite Nat.sub_diag in N. injection N as ->. auto.
  - intros B. right. destruct (nth_error_split _ _ N) as (pre & post & -> & L). exists pre, x, post. split; auto. split; [lia|]. split; auto.
    intros y Iy By. destruct (In_nth_error _ _ Iy) as (k & Nk).
    apply (FOP_nth _ _ D j (S (j + k)) x y) with (p := p); auto; try lia.
    rewrite nth_error_app2 by lia. replace (S (j + k) - length pre) with (S k) by lia. auto.
Qed.

(** mask_fill on a contiguous region. *)
Lemma mask_fill_contig idx : forall bits l vs lo, length l = length bits -> lo + length vs <= length bits ->
  (forall p, p < length bits -> (nth p bits 0%Z = idx <-> lo <= p < lo + length vs)) ->
  exists l', mask_fill bits idx l vs = Ok l' /\ length l' = length l /\
    forall p, p < length bits -> nth p l' false = if (Nat.leb lo p && Nat.ltb p (lo + length vs))%bool then nth (p - lo) vs false else nth p l false.
Proof.
  induction bits as [|q bits IH]; intros l vs lo L Lo H.
  - destruct l; [|discriminate]. destruct vs; [|cbn in Lo; lia]. exists []. cbn. repeat split; auto. intros; lia.
  - destruct l as [|x l]; [discriminate|]. cbn [mask_fill length] in *. pose proof (H 0 ltac:(lia)) as H0. cbn [nth] in H0.
    destruct (Z.eqb_spec q idx) as [E|E].
    + apply H0 in E. assert (lo = 0) by lia. subst lo. destruct vs as [|v vs]; [cbn in E; lia|]. cbn [length] in *.
      destruct (IH l vs 0) as (l' & F & L' & N); [lia|lia| |].
      { intros p Hp. specialize (H (S p) ltac:(lia)). cbn [nth] in H. rewrite H. lia. }
      rewrite F. cbn [bind]. exists (v :: l'). split; auto. split; [cbn; lia|]. intros [|p] Hp; cbn [nth].
      * replace (0 <=? 0) with true by lia. cbn. reflexivity.
      * rewrite N by lia. replace ((0 <=? p) && (p <? 0 + length vs))%bool with ((0 <=? S p) && (S p <? 0 + S (length vs)))%bool by lia.
        destruct ((0 <=? S p) && (S p <? 0 + S (length vs)))%bool; auto. rewrite !Nat.sub_0_r. reflexivity.
    + destruct vs as [|v vs].
      * destruct (IH l [] 0) as (l' & F & L' & N); [lia|cbn; lia| |].
        { intros p Hp. specialize (H (S p) ltac:(lia)). cbn [nth length] in *. rewrite H. lia. }
        rewrite F. cbn [bind]. exists (x :: l'). split; auto. split; [cbn; lia|]. cbn [length]. intros [|p] Hp.
        -- cbn [nth]. replace ((lo <=? 0) && (0 <? lo + 0))%bool with false by lia. reflexivity.
        -- cbn [nth]. rewrite N by lia. cbn [length]. replace ((0 <=? p) && (p <? 0 + 0))%bool with false by lia.
           replace ((lo <=? S p) && (S p <? lo + 0))%bool with false by lia. reflexivity.
      * assert (lo <> 0). { intros ->. apply E, H0. cbn [length]. lia. }
        destruct (IH l (v :: vs) (lo - 1)) as (l' & F & L' & N); [lia|lia| |].
        { intros p Hp. specialize (H (S p) ltac:(lia)). cbn [nth] in H. rewrite H. lia. }
        rewrite F. cbn [bind]. exists (x :: l'). split; auto. split; [cbn; lia|]. intros [|p] Hp; cbn [nth].
        -- replace ((lo <=? 0))%bool with false by lia. reflexivity.
        -- rewrite N by lia. replace ((lo - 1 <=? p) && (p <? lo - 1 + length (v :: vs)))%bool with ((lo <=? S p) && (S p <? lo + length (v :: vs)))%bool by (cbn [length]; lia).
           replace (p - (lo - 1)) with (S p - lo) by lia. reflexivity.
Qed.

Section Mean.
Variable FO : fops.
Variable pack : F FO -> res N.
Variable erf : F FO -> F FO.
Notation fm := (field_model FO).
Notation bm := (buffer_model FO).

Lemma num2bits_length num ty sz ch bits : ctype ty sz ch -> num2bits FO pack num ty = Ok bits -> length bits = 8 * sz.
Proof using.
  clear erf. intros C E. destruct (String.eqb_spec ty "char") as [->|NC].
  { destruct (num2bits_char FO pack num) as [X|X]; congruence. }
  destruct (String.eqb_spec ty "float") as [->|NF].
  { destruct num as [x| |]; try discriminate E. rewrite num2bits_float in E. destruct (pack x) as [q|]; [|discriminate]. cbn [bind] in E.
    assert (E' : bits = bytes_bits (le_bytes 4 q)) by congruence. rewrite E', length_bytes_bits, length_le_bytes. inversion C; auto. }
  assert (I : integer_type ty sz) by (exists ch; auto).
  destruct num as [x| |]; [|clear I; destruct C; try tauto; discriminate E|clear I; destruct C; try tauto; discriminate E].
  destruct (if (negb (c_signed ty) && negb (fle FO (fz FO 0) x))%bool then Ok 0%Z else fround FO x) as [z|e] eqn:R.
  - destruct (num2bits_int FO pack ty sz x z I R) as [H _]. apply H in E. destruct E as (_ & b & _ & Lb & _ & ->). rewrite length_bytes_bits, Lb. auto.
  - exfalso. destruct (int_wire ty sz I) as (f & ch' & Df & _ & _ & _ & _ & _ & _ & _ & U1 & U2 & U3).
    unfold num2bits in E. rewrite U3, U1, U2, Df in E. destruct (c_signed ty); cbn [negb andb] in *.
    + rewrite R in E. discriminate.
    + destruct (fle FO (fz FO 0) x); cbn [negb] in *; [rewrite R in E; discriminate|discriminate].
Qed.

Definition mean_bits (m : bm) (x : slot) : res (list bool) :=
  match bm_get FO m (s_name x) with
  | None => Err KeyError
  | Some f => do! mu <- value_of (fm_get_mean FO f) in num2bits FO pack (NNum mu) (s_type x)
  end.

Lemma mean_bits_sim m m' x : all_coherent FO m -> bm_sim FO m m' -> mean_bits m' x = mean_bits m x.
Proof using.
  clear erf. intros C S. pose proof (bm_sim_coherent FO m m' S C) as C'. destruct S as (_ & _ & _ & _ & _ & S). specialize (S (s_name x)). unfold mean_bits.
  destruct (bm_get FO m (s_name x)) as [f|] eqn:G.
  - destruct S as (f' & G' & (_ & Sm & _)). rewrite G'. 
    destruct (read_spec FO pack f (C _ _ G)) as (-> & _). destruct (read_spec FO pack f' (C' _ _ G')) as (-> & _). rewrite Sm. reflexivity.
  - rewrite S. reflexivity.
Qed.

Lemma mean_loop_spec n sl bits : bit_map n sl bits -> ForallOrdPairs clash_free sl ->
  Forall (fun x => s_first x + s_width x <= n) sl -> Forall (fun x => exists ch, ctype (s_type x) (s_width x) ch) sl ->
  forall sl2 sl1 m vals, sl = sl1 ++ sl2 -> all_coherent FO m -> length vals = 8 * n ->
  match map_res (mean_bits m) sl2 with
  | Err e => mean_loop FO pack bits (length sl1) (map s_name sl2) (map s_type sl2) (m, vals) = Err e
  | Ok bs => exists m' vals', mean_loop FO pack bits (length sl1) (map s_name sl2) (map s_type sl2) (m, vals) = Ok (m', vals') /\
      length vals' = 8 * n /\ length bs = length sl2 /\
      forall p, p < 8 * n ->
        (forall j x, nth_error sl2 j = Some x -> bit_in x p -> nth p vals' false = nth (p - 8 * s_first x) (nth j bs []) false) /\
        ((forall x, In x sl2 -> ~ bit_in x p) -> nth p vals' false = nth p vals false)
  end.
Proof using.
  clear erf. intros [Lb B] D W T. induction sl2 as [|x sl2 IH]; intros sl1 m vals Esl C Lv.
  - cbn. exists m, vals. repeat split; auto. intros [|j] y N; discriminate.
  - cbn [map_res map mean_loop]. unfold mean_bits at 1. destruct (bm_get FO m (s_name x)) as [f|] eqn:G; cbn [bind]; [|reflexivity].
    unfold fm_get_mean. destruct (fm_refresh FO f) as [f1|e] eqn:R; cbn [bind value_of]; [|reflexivity].
    destruct (num2bits FO pack (NNum (fm_mean FO f1)) (s_type x)) as [b0|e] eqn:Nb; cbn [bind]; [|reflexivity].
    assert (Nx : nth_error sl (length sl1) = Some x) by (rewrite Esl, nth_error_app2, Nat.sub_diag by lia; reflexivity).
    pose proof (nth_error_In _ _ Nx) as Ix. rewrite Forall_forall in W, T. destruct (T _ Ix) as (ch & Ct). pose proof (W _ Ix) as Wx. cbv beta in Wx.
    pose proof (num2bits_length _ _ _ _ _ Ct Nb) as Lb0.
    destruct (mask_fill_contig (Z.of_nat (length sl1)) bits vals b0 (8 * s_first x)) as (v1 & F1 & L1 & N1); [lia|lia| |].
    { intros p Hp. rewrite Lb in Hp. specialize (B p Hp). pose proof (owner_disjoint sl (length sl1) x p D Nx) as O. unfold bit_in in O. split.
      - intros E. rewrite E in B. apply O in B. lia.
      - intros Hr. assert (O' : owner sl p (Z.of_nat (length sl1))) by (apply O; lia). eapply owner_fun; eauto. }
    rewrite F1. cbn [bind].
    pose proof (bm_set_sim FO m (s_name x) f f1 C G (refresh_sim FO f f1 (C _ _ G) R)) as S1. pose proof (bm_sim_coherent FO _ _ S1 C) as C1.
    specialize (IH (sl1 ++ [x]) (bm_set FO m (s_name x) f1) v1). rewrite <- app_assoc in IH. specialize (IH Esl C1 ltac:(lia)).
    assert (E : map_res (mean_bits (bm_set FO m (s_name x) f1)) sl2 = map_res (mean_bits m) sl2).
    { apply map_res_ext. intros y _. apply mean_bits_sim; auto. }
    rewrite E, app_length in IH. cbn [length] in IH. replace (length sl1 + 1) with (S (length sl1)) in IH by lia.
    destruct (map_res (mean_bits m) sl2) as [bs|e]; cbn [bind]; [|exact IH].
    destruct IH as (m' & v' & Em & Lv' & Lbs & Q). exists m', v'. split; auto. split; auto. split; [cbn; lia|].
    intros p Hp. destruct (Q p Hp) as [Q1 Q2]. specialize (N1 p ltac:(lia)). split.
    + intros [|j] y Ny By; cbn [nth_error nth] in *.
      * injection Ny as <-. rewrite Q2.
        -- rewrite N1. unfold bit_in in By. replace ((8 * s_first x <=? p) && (p <? 8 * s_first x + length b0))%bool with true by lia. auto.
        -- intros z Iz Bz. destruct (In_nth_error _ _ Iz) as (k & Nk).
           apply (FOP_nth _ _ D (length sl1) (S (length sl1 + k)) x z) with (p := p); auto; try lia.
           rewrite Esl, nth_error_app2 by lia. replace (S (length sl1 + k) - length sl1) with (S k) by lia. auto.
      * apply Q1; auto.
    + intros No. rewrite Q2 by (intros z Iz; apply No; right; auto). rewrite N1. pose proof (No x ltac:(left; auto)) as Nox. unfold bit_in in Nox.
      replace ((8 * s_first x <=? p) && (p <? 8 * s_first x + length b0))%bool with false by lia. auto.
Qed.

Lemma layout_bounds n s sl : Forall (plain_in n) s -> layout s sl -> Forall (fun x => s_first x + s_width x <= n) sl.
Proof using.
  clear. intros P L. revert P. induction L as [|k i c s sl M L IH]; intros P; [constructor|]. inversion P as [|? ? P1 P2]; subst.
  apply Forall_app. split; auto. destruct P1 as (c' & M' & _ & W). cbn [fst snd] in *. rewrite (is_msg_fun _ _ _ M' M) in W.
  apply Forall_forall. intros x Ix. pose proof (slots_range k c x (proj1 M) Ix). lia.
Qed.

Lemma mean_spec m idx n s sl : all_coherent FO m -> Forall (plain_in n) s -> disjoint_structure s -> layout s sl ->
  match map_res (mean_bits m) sl with
  | Err e => bitwise_model_mean FO pack m idx n s = Err e
  | Ok bs => length bs = length sl /\ exists m' picture, length picture = 8 * n /\
      value_of (bitwise_model_mean FO pack m idx n s) = map_res (index_z picture) idx /\
      (forall r, bitwise_model_mean FO pack m idx n s = Ok r -> fst r = m') /\
      forall p, p < 8 * n ->
        (forall j x, nth_error sl j = Some x -> bit_in x p -> nth p picture false = nth (p - 8 * s_first x) (nth j bs []) false) /\
        ((forall x, In x sl -> ~ bit_in x p) -> nth p picture false = false)
  end.
Proof using.
  clear erf. intros C P D L. unfold bitwise_model_mean. destruct (structure_ok _ _ _ P L) as (bits & -> & B). cbn [bind].
  pose proof (mean_loop_spec n sl bits B (disjoint_slots s sl L D) (layout_bounds n s sl P L)) as H.
  assert (T : Forall (fun x => exists ch, ctype (s_type x) (s_width x) ch) sl).
  { eapply Forall_impl; [|apply (layout_types n s sl P L)]. intros x (sz & ch & Ct & -> & _). eauto. }
  specialize (H T sl [] m (repeat false (n * 8)) eq_refl C). rewrite repeat_length in H. specialize (H ltac:(lia)). cbn [length] in H.
  destruct (map_res (mean_bits m) sl) as [bs|e]; [|rewrite H; reflexivity].
  destruct H as (m' & pic & -> & Lp & Lbs & Q). cbn [bind fst snd]. split; auto. exists m', pic. split; auto. split; [|split].
  - destruct (map_res (index_z pic) idx); reflexivity.
  - intros r. destruct (map_res (index_z pic) idx); [|discriminate]. cbn [bind]. intros E. injection E as <-. reflexivity.
  - intros p Hp. destruct (Q p Hp) as [Q1 Q2]. split; auto. intros No. rewrite Q2 by auto. apply nth_repeat.
Qed.
End Mean.
