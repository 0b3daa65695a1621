(** Proofs about the rectification of a received word. *)
From Coq Require Import String List ZArith NArith Arith Bool Lia Reals Lra Sorting.Sorted.
From Verif.Model Require Import Py Float Dialect Struct Mavlink Segmentation StatModels InfoTheory Perf DecoderBase Rectify.
From Verif.Spec Require Import RealOps Bytes Bits Header Frame Segment Stats EmleSpec DecoderSpec WeightedSpec FlipSpec RectifySpec.
From Verif.Proofs Require Import Base FieldsP RealP SegmentP SegMore SegStream StatP StatReal LayoutP ValuesP BufModelP PredictP MeanP StatTop PerfP DecoderP EntropyDecP WeightedP FlipP.
Import ListNotations.
Local Close Scope R_scope.

(** ** Lengths of the results of predict *)
Lemma predict_loop_lengths FO erf bits : forall names vals idx m vf vb sd m' vf' vb' sd', length bits = length vb -> length bits = length sd ->
  predict_loop FO erf bits idx names vals (m, vf, vb, sd) = Ok (m', vf', vb', sd') -> length vb' = length bits /\ length sd' = length bits.
Proof.
  induction names as [|nm names IH]; intros vals idx m vf vb sd m' vf' vb' sd' L1 L2 E; cbn [predict_loop] in E; [inversion E; subst; auto|].
  destruct vals as [|v vals]; [inversion E; subst; auto|]. destruct (bm_get FO m nm) as [f|].
  - destruct (fm_classify_value FO erf f v) as [[f' [va st]]|]; cbn [bind] in E; [|discriminate]. eapply IH in E; auto; rewrite length_mask_set; auto.
  - cbn [bind] in E. eapply IH in E; auto.
Qed.
Lemma unpack_length n s bits names types : unpack_structure true n s = Ok (bits, names, types) -> length bits = 8 * n.
Proof. intro E. apply structure_iff in E. destruct E as (_ & sl & _ & [L _] & _). exact L. Qed.
Lemma predict_lengths FO erf m l s m' vf vb sd : predict FO erf m (BBits l) s = Ok (m', vf, vb, sd) -> length vb = 8 * (length l / 8) /\ length sd = 8 * (length l / 8).
Proof.
  intro E. unfold predict in E. cbn [buf_length bind] in E. destruct (unpack_structure true (length l / 8) s) as [[[bits names] types]|] eqn:U; cbn [bind] in E; [|discriminate].
  destruct (unpack_values (BBits l) s) as [fields|]; cbn [bind] in E; [|discriminate]. apply unpack_length in U. rewrite <- U. eapply predict_loop_lengths; [| |exact E]; rewrite repeat_length; reflexivity.
Qed.

(** ** Reading the picture of the means at some positions *)
Lemma mean_value FO pack m idx n s : bitwise_model_mean FO pack m idx n s =
  do! r <- bitwise_model_mean FO pack m [] n s in
  do! picture <- value_of (bitwise_model_mean FO pack m (map Z.of_nat (seq 0 (8 * n))) n s) in do! l <- map_res (index_z picture) idx in Ok (fst r, l).
Proof.
  unfold bitwise_model_mean. destruct (unpack_structure true n s) as [[[bits names] types]|] eqn:U; [|reflexivity]. cbn [bind].
  destruct (mean_loop FO pack bits 0 names types (m, repeat false (n * 8))) as [[m' l]|] eqn:El; [|reflexivity]. cbn [bind fst snd map_res].
  assert (L : length l = 8 * n).
  { assert (G : forall names types i m vals m' vals', length vals = length bits -> mean_loop FO pack bits i names types (m, vals) = Ok (m', vals') -> length vals' = length bits).
    { clear. assert (Lf : forall (bb : list Z) idx (l vs r : list bool), length l = length bb -> mask_fill bb idx l vs = Ok r -> length r = length bb).
      { induction bb as [|b bb IH]; intros idx [|x l] vs r L E; cbn in L; try discriminate; cbn [mask_fill] in E; [destruct vs; inversion E; reflexivity|].
        destruct (Z.eqb b idx); [destruct vs as [|v vs]; [discriminate|]|];
          match type of E with (do! _ <- ?t in _) = _ => destruct t eqn:F; cbn [bind] in E; [|discriminate] end; inversion E; subst; cbn [length]; f_equal; (eapply IH; [|exact F]); lia. }
      induction names as [|nm names IH]; intros types i m vals m' vals' L E; cbn [mean_loop] in E; [inversion E; subst; auto|]. destruct types as [|ty types]; [inversion E; subst; auto|].
      destruct (bm_get FO m nm) as [f|]; cbn [bind] in E; [|discriminate]. destruct (fm_get_mean FO f) as [[f' mu]|]; cbn [bind] in E; [|discriminate].
      destruct (num2bits FO pack (NNum mu) ty) as [b|]; cbn [bind] in E; [|discriminate]. destruct (mask_fill bits (Z.of_nat i) vals b) as [v2|] eqn:F; cbn [bind] in E; [|discriminate].
      eapply IH; [|exact E]. eapply Lf; eauto. }
    pose proof (unpack_length _ _ _ _ _ U) as Lb. assert (Lr : length (repeat false (n * 8)) = length bits) by (rewrite repeat_length; lia). pose proof (G _ _ _ _ _ _ _ Lr El). lia. }
  assert (P : map_res (index_z l) (map Z.of_nat (seq 0 (8 * n))) = Ok l).
  { rewrite <- L. clear. transitivity (Ok (A := list bool) (map (fun i => nth i l false) (seq 0 (length l)))); [|f_equal; rewrite (map_seq_nth (fun x => x)); apply map_id].
    assert (H : forall k, In k (seq 0 (length l)) -> k < length l) by (intros k Hk; apply in_seq in Hk; lia). revert H. generalize (seq 0 (length l)) as ks. induction ks as [|k ks IH]; intro H; [reflexivity|].
    cbn [map map_res]. rewrite (index_z_ok l (Z.of_nat k) k false) by (auto; apply H; left; reflexivity). cbn [bind]. rewrite IH by (intros; apply H; right; auto). reflexivity. }
  rewrite P. cbn [bind value_of]. reflexivity.
Qed.

(** ** Weights and forcing *)
Lemma scale_where_spec mask (k : R) l : length mask <= length l ->
  exists r, scale_where Rops mask k l = Ok r /\ length r = length l /\ forall p, p < length l -> nth p r 0%R = (if nth p mask false then nth p l 0 * k else nth p l 0)%R.
Proof.
  intro L. unfold scale_where. change (F Rops) with R in *. destruct (Nat.leb_spec (length mask) (length l)); [|lia]. eexists. split; [reflexivity|]. split.
  - rewrite app_length, map_length, combine_length, skipn_length. lia.
  - intros p Hp. destruct (Nat.lt_ge_cases p (length mask)) as [H1|H1].
    + rewrite app_nth1 by (rewrite map_length, combine_length; lia). rewrite nth_map_lt with (d' := (false, 0%R)) by (rewrite combine_length; lia).
      assert (Ec : nth p (combine mask l) (false, 0%R) = (nth p mask false, nth p l 0%R)).
      { clear - H1 Hp. revert l p H1 Hp. induction mask as [|b mask IH]; intros [|x l] [|p] H1 Hp; cbn in *; try lia; auto. apply IH; lia. }
      rewrite Ec. cbn [fst snd fmul Rops]. reflexivity.
    + rewrite app_nth2 by (rewrite map_length, combine_length; lia). rewrite map_length, combine_length. rewrite nth_skipn. rewrite (nth_overflow mask) by lia.
      f_equal. lia.
Qed.
Lemma above_spec t x : above Rops t x = true <-> exists v, x = Some v /\ (t < v)%R.
Proof.
  destruct x as [v|]; cbn; [|split; [discriminate|intros (v & Q & _); discriminate]]. rewrite Rltb_spec. split; [intro; eauto|intros (w & Q & H); inversion Q; subst; exact H].
Qed.
Lemma below_spec t x : below Rops t x = true <-> exists v, x = Some v /\ (v < t)%R.
Proof.
  destruct x as [v|]; cbn; [|split; [discriminate|intros (v & Q & _); discriminate]]. rewrite Rltb_spec. split; [intro; eauto|intros (w & Q & H); inversion Q; subst; exact H].
Qed.
Lemma impossible_spec v d : (at_most Rops 0%R v && equals Rops 0%R d)%bool = true <-> impossible v d.
Proof.
  unfold impossible. rewrite andb_true_iff. destruct v as [v|], d as [d|]; cbn [at_most equals fle feq Rops]; split.
  - intros [H1 H2]. apply (proj1 (Rleb_spec _ _)) in H1. apply (proj1 (Reqb_spec _ _)) in H2. subst. eauto.
  - intros (x & E1 & H & E2). inversion E1; inversion E2; subst. split; [apply Rleb_spec; exact H|apply Reqb_spec; reflexivity].
  - intros [_ H]. discriminate.
  - intros (x & _ & _ & H). discriminate.
  - intros [H _]. discriminate.
  - intros (x & H & _). discriminate.
  - intros [H _]. discriminate.
  - intros (x & H & _). discriminate.
Qed.
Lemma forced_in vb sd p : length vb = length sd -> In p (forced_wrong Rops vb sd) <-> impossible (nth p vb None) (nth p sd None).
Proof.
  intro L. unfold forced_wrong. rewrite flatnonzero_in. destruct (Nat.lt_ge_cases p (length vb)) as [H|H].
  - rewrite nth_map_lt with (d' := (None, None)) by (rewrite combine_length; lia). rewrite combine_nth by exact L. cbn [fst snd fz Rops]. apply impossible_spec.
  - rewrite nth_overflow by (rewrite map_length, combine_length; lia). rewrite !nth_overflow by lia. split; [discriminate|]. intros (x & Q & _). discriminate.
Qed.
Lemma forced_bound vb sd p : length vb = length sd -> In p (forced_wrong Rops vb sd) -> p < length vb.
Proof.
  intros L H. apply forced_in in H; [|exact L]. destruct (Nat.lt_ge_cases p (length vb)); [assumption|]. rewrite (nth_overflow vb) in H by lia. destruct H as (x & Q & _). discriminate.
Qed.
Lemma flatnonzero_sorted l : StronglySorted lt (flatnonzero l).
Proof. unfold flatnonzero. apply (sel_sorted (seq 0 _)). apply seq_sorted. Qed.

(** Values written at distinct positions. *)
Lemma put_map {A} (l : list A) idx (f : nat -> A) d : NoDup idx -> Forall (fun i => i < length l) idx ->
  exists r, put l idx (map f idx) = Ok r /\ length r = length l /\ (forall p, In p idx -> nth p r d = f p) /\ (forall p, ~ In p idx -> nth p r d = nth p l d).
Proof.
  intros N H. eexists. split; [apply put_ok; [exact H|rewrite map_length; reflexivity]|]. split; [apply fold_set_length|]. split.
  - intros p Hp. apply fold_set_in.
    + rewrite map_fst_combine; [exact N|rewrite map_length; reflexivity].
    + clear - Hp. induction idx as [|i t IH]; [destruct Hp|]. cbn [map combine]. destruct Hp as [->|Hp]; [left; reflexivity|right; auto].
    + rewrite Forall_forall in H. auto.
  - intros p Hp. apply fold_set_out. rewrite map_fst_combine; [exact Hp|rewrite map_length; reflexivity].
Qed.

Lemma hard_bits obs : map (Z.eqb 1) (hard Rops obs) = received_bits obs.
Proof.
  unfold hard, received_bits. rewrite map_map. apply map_ext. intro x. cbn [flt fz Rops]. unfold sign_bit, Rltb. destruct (Rlt_dec x 0); reflexivity.
Qed.

Definition forces pack (m : buffer_model Rops) n s vb sd picture : Prop :=
  (exists p, impossible (nth p vb None) (nth p sd None)) -> value_of (bitwise_model_mean Rops pack m (map Z.of_nat (seq 0 (8 * n))) n s) = Ok picture.

(** The word after weighting and forcing. *)
Lemma adjust_spec pack (c : rect_conf Rops) m1 s (obs : list R) vb sd picture : length vb = 8 * (length obs / 8) -> length sd = 8 * (length obs / 8) -> forces pack m1 (length obs / 8) s vb sd picture ->
  exists m2 l0 l, scale_plain Rops (map (above Rops (1 - rc_valid_thr c)%R) vb) (map (below Rops (rc_invalid_thr c)) vb)
      (factor_of Rops c (rc_valid_factor c) (bm_size Rops m1)) (factor_of Rops c (rc_invalid_factor c) (bm_size Rops m1)) obs = Ok (map (above Rops (1 - rc_valid_thr c)%R) vb, map (below Rops (rc_invalid_thr c)) vb, l0) /\
    force Rops pack m1 s (factor_of Rops c (rc_valid_factor c) (bm_size Rops m1)) (forced_wrong Rops vb sd) obs l0 = Ok (m2, l) /\
    adjusted c (bm_size Rops m1) vb sd picture obs l.
Proof.
  intros Lv Ls Fo. assert (Lvs : length vb = length sd) by (etransitivity; [exact Lv|symmetry; exact Ls]). assert (Ln : 8 * (length obs / 8) <= length obs) by (pose proof (Nat.mul_div_le (length obs) 8); lia).
  assert (Ea : forall f, factor_of Rops c f (bm_size Rops m1) = approached c f (bm_size Rops m1)).
  { intro f. unfold factor_of, approached. rewrite confidence_R. destruct (rc_learning c); [|reflexivity]. cbn [fadd fmul fsub fz Rops]. lra. }
  rewrite !Ea. set (vf := approached c (rc_valid_factor c) (bm_size Rops m1)). set (iv := approached c (rc_invalid_factor c) (bm_size Rops m1)).
  destruct (scale_where_spec (map (above Rops (1 - rc_valid_thr c)%R) vb) vf obs) as (l1 & E1 & L1 & N1); [rewrite map_length; change (F Rops) with R in *; lia|].
  destruct (scale_where_spec (map (below Rops (rc_invalid_thr c)) vb) iv l1) as (l2 & E2 & L2 & N2); [rewrite map_length; change (F Rops) with R in *; lia|].
  assert (W : forall p, p < length obs -> nth p l2 0%R = (nth p obs 0 * weight_of (rc_valid_thr c) (rc_invalid_thr c) vf iv (nth p vb None))%R).
  { intros p Hp. rewrite N2 by (change (F Rops) with R in *; lia). rewrite N1 by exact Hp. destruct (Nat.lt_ge_cases p (length vb)) as [H|H].
    - rewrite !nth_map_lt with (d' := @None R) by exact H. unfold weight_of. destruct (nth p vb None) as [x|]; cbn [above below flt Rops].
      + unfold Rltb. destruct (Rlt_dec (1 - rc_valid_thr c) x), (Rlt_dec x (rc_invalid_thr c)); change (F Rops) with R; ring.
      + change (F Rops) with R; ring.
    - rewrite !(nth_overflow (map _ vb)) by (rewrite map_length; exact H). rewrite (nth_overflow vb) by exact H. cbn; change (F Rops) with R; ring. }
  unfold scale_plain. change (F Rops) with R in *. rewrite E1. cbn [bind]. rewrite E2. cbn [bind]. unfold force. destruct (forced_wrong Rops vb sd) as [|f0 ft] eqn:Ef.
  - exists m1, l2, l2. split; [reflexivity|]. split; [reflexivity|]. split; [lia|]. intros p Hp. split; [|intros _; apply W; exact Hp].
    intro Hi. apply forced_in in Hi; [|exact Lvs]. rewrite Ef in Hi. destruct Hi.
  - assert (Hf0 : In f0 (forced_wrong Rops vb sd)) by (rewrite Ef; left; reflexivity). assert (No : obs <> []).
    { intros ->. pose proof (forced_bound vb sd f0 Lvs Hf0). cbn in *. lia. }
    destruct (peak_ex obs No) as (pk & Epk & Ppk). rewrite <- Ef. set (forced := forced_wrong Rops vb sd) in *. rewrite mean_value.
    assert (Ev : value_of (bitwise_model_mean Rops pack m1 (map Z.of_nat (seq 0 (8 * (length obs / 8)))) (length obs / 8) s) = Ok picture).
    { apply Fo. exists f0. apply forced_in; [exact Lvs|exact Hf0]. }
    assert (Em : exists m2, bitwise_model_mean Rops pack m1 [] (length obs / 8) s = Ok (m2, [])).
    { unfold bitwise_model_mean in Ev |- *. destruct (unpack_structure true (length obs / 8) s) as [[[b n] t]|]; cbn [bind value_of] in Ev; [|discriminate]. cbn [bind].
      destruct (mean_loop Rops pack b 0 n t (m1, repeat false (length obs / 8 * 8))) as [[m2 pic]|]; cbn [bind value_of] in Ev; [|discriminate]. eexists. reflexivity. }
    assert (Lp : length picture = 8 * (length obs / 8)).
    { unfold value_of in Ev. destruct (bitwise_model_mean Rops pack m1 (map Z.of_nat (seq 0 (8 * (length obs / 8)))) (length obs / 8) s) as [[m3 pic]|] eqn:Eb; [|discriminate]. inversion Ev; subst pic.
      unfold bitwise_model_mean in Eb. destruct (unpack_structure true (length obs / 8) s) as [[[b n] t]|]; cbn [bind] in Eb; [|discriminate].
      destruct (mean_loop Rops pack b 0 n t (m1, repeat false (length obs / 8 * 8))) as [[m4 pic]|]; cbn [bind] in Eb; [|discriminate]. match type of Eb with (do! _ <- ?t in _) = _ => destruct t eqn:Er end; cbn [bind] in Eb; [|discriminate].
      inversion Eb; subst. apply map_res_length in Er. rewrite map_length, seq_length in Er. exact Er. }
    destruct Em as (m2 & Em). change (F Rops) with R in *. rewrite Em, Ev. cbn [bind fst]. assert (Hb : forall p, In p forced -> p < length picture) by (intros p Hp; apply forced_bound in Hp; [|exact Lvs]; change (F Rops) with R in *; lia).
    assert (Er : map_res (index_z picture) (map Z.of_nat forced) = Ok (map (fun p => nth p picture false) forced)).
    { clear - Hb. revert Hb. generalize forced as ks. induction ks as [|k ks IH]; intro H; [reflexivity|]. cbn [map map_res]. rewrite (index_z_ok picture (Z.of_nat k) k false) by (auto; apply H; left; reflexivity).
      cbn [bind]. rewrite IH by (intros; apply H; right; auto). reflexivity. }
    rewrite Er. cbn [bind]. assert (Epk' : pymax Rops (map (fabs Rops) obs) = Ok pk) by exact Epk. change (F Rops) with R in *. rewrite Epk'. cbn [bind]. rewrite map_map.
    destruct (put_map l2 forced (fun p => fmul Rops (fmul Rops (fz Rops (if nth p picture false then -1 else 1)) pk) (if flt Rops vf (fz Rops 1) then fz Rops 1 else vf)) 0%R) as (l3 & E3 & L3 & N3 & N3').
    { apply sorted_lt_nodup. apply flatnonzero_sorted. }
    { apply Forall_forall. intros p Hp. apply forced_bound in Hp; [|exact Lvs]. change (F Rops) with R in *; lia. }
    change (F Rops) with R in *. exists m2, l2, l3. split; [reflexivity|]. split; [change (F Rops) with R in *; rewrite E3; reflexivity|]. split; [lia|]. intros p Hp. split.
    + intros Hi pk' Ppk'. assert (pk' = pk) by (eapply largest_unique; [exact Ppk'|exact Ppk]). subst pk'. rewrite N3 by (apply forced_in; [exact Lvs|exact Hi]). cbn [fmul fz flt Rops].
      assert (Emx : (if Rltb vf 1 then 1%R else vf) = Rmax vf 1). { unfold Rltb, Rmax. destruct (Rlt_dec vf 1), (Rle_dec vf 1); lra. } fold vf. rewrite <- Emx. destruct (nth p picture false); reflexivity.
    + intro Hi. rewrite N3' by (intro Q; apply Hi, forced_in; [exact Lvs|exact Q]). apply W. exact Hp.
Qed.

(** ** Messages found *)
Lemma ones_in valid p : In p (ones valid) <-> nth p valid 0%Z = 1%Z.
Proof.
  unfold ones. rewrite flatnonzero_in. destruct (Nat.lt_ge_cases p (length valid)) as [H|H].
  - rewrite nth_map_lt with (d' := 0%Z) by exact H. destruct (Z.eqb_spec 1 (nth p valid 0%Z)) as [E|E]; split; intro Q; try reflexivity; try discriminate; auto.
  - rewrite !nth_overflow by (rewrite ?map_length; exact H). split; discriminate.
Qed.
Lemma found_covered text b p v s : is_bytes b -> segment_buffer (decode text) b = Ok (p, v, s) ->
  length v = 8 * length b /\ (forall q, covered b s (q / 8) <-> nth q v 0%Z = 1%Z) /\ Forall (fun x => x = 0%Z \/ x = 1%Z) v.
Proof.
  intros B E. destruct (segment_parts (decode text) b p v s B E) as [_ [L V]]. split; [exact L|].
  assert (Ins : forall j, covered b s j -> j < length b).
  { intros j (k & i & Hi & Hj). pose proof (proj1 (segment_ok_iff (decode text) b B p v s) E) as ((Sg & _) & _). destruct (Sg k i Hi) as [_ Fr].
    pose proof (decode_frame_inside text b k i B Fr) as [Q _]. lia. }
  assert (C : forall q, q < length v -> (nth q v 0%Z = 1%Z <-> covered b s (q / 8)) /\ (nth q v 0%Z = 0%Z <-> ~ covered b s (q / 8))).
  { intros q Hq. assert (Q : q = 8 * (q / 8) + q mod 8) by (apply Nat.div_mod; lia). rewrite Q at 1 3. apply V; [apply Nat.div_lt_upper_bound; lia|apply Nat.mod_upper_bound; lia]. }
  split.
  - intro q. destruct (Nat.lt_ge_cases q (length v)) as [H|H]; [symmetry; apply C; exact H|]. rewrite nth_overflow by exact H. split; [|discriminate]. intro K. apply Ins in K.
    assert (8 * (q / 8) <= q) by (apply Nat.mul_div_le; lia). exfalso. assert (length b <= q / 8) by (apply Nat.div_le_lower_bound; lia). lia.
  - apply Forall_forall. intros x Hx. apply (In_nth _ _ 0%Z) in Hx. destruct Hx as (q & Hq & <-). destruct (C q Hq) as [C1 C0].
    destruct (Z.eq_dec (nth q v 0%Z) 1) as [K|K]; [right; exact K|left]. apply C0. intro Q. apply K, C1, Q.
Qed.
Lemma hard_map l : hard Rops l = map sign_bit l.
Proof. unfold hard. apply map_ext. intro x. cbn [flt fz Rops]. unfold sign_bit, Rltb. destruct (Rlt_dec x 0); reflexivity. Qed.

Lemma confirm_spec text info vf obs w : length w = length obs -> informative (length obs) info ->
  exists out v seg, confirm Rops (decode text) info vf obs w = Ok (out, v) /\ length out = length obs /\ pad_valid v (length out) = Ok seg /\ reinforced text info vf obs w out seg.
Proof.
  intros Lw I. unfold confirm. change (F Rops) with R in *. rewrite !hard_map. destruct (I (map sign_bit obs)) as (b & Eb & Bb & Lb); [apply map_length|]. rewrite Eb. cbn [bind].
  destruct (segment_decode_total text b Bb) as (p & v & s & Es). rewrite Es. cbn [bind]. destruct (found_covered text b p v s Bb Es) as (Lv & Cv & Bv).
  assert (Pad : forall b s v (out : list R), length v = 8 * length b -> 8 * length b <= length obs -> (forall q, covered b s (q / 8) <-> nth q v 0%Z = 1%Z) -> Forall (fun x => x = 0%Z \/ x = 1%Z) v -> length out = length obs ->
    exists seg, pad_valid v (length out) = Ok seg /\ length seg = length obs /\ forall q, q < length obs -> (nth q seg false = true <-> covered b s (q / 8))).
  { clear. intros b s v out Lv Lb Cv Bv Lo. unfold pad_valid. destruct (Nat.leb_spec (length v) (length out)); [|lia]. eexists. split; [reflexivity|]. split; [rewrite app_length, map_length, repeat_length; lia|].
    intros q Hq. rewrite Cv. destruct (Nat.lt_ge_cases q (length v)) as [H1|H1].
    - rewrite app_nth1 by (rewrite map_length; lia). rewrite nth_map_lt with (d' := 0%Z) by exact H1. rewrite Forall_forall in Bv. destruct (Bv (nth q v 0%Z) (nth_In _ _ H1)) as [K|K]; rewrite K; cbn; split; intro; try reflexivity; discriminate.
    - rewrite app_nth2 by (rewrite map_length; lia). rewrite (nth_overflow v) by lia. rewrite nth_repeat. split; discriminate. }
  assert (Bd : forall (b : bytes) v, length v = 8 * length b -> 8 * length b <= length obs -> Forall (fun i => i < length obs) (ones v)).
  { clear. intros b v Lv Lb. apply Forall_forall. intros q Hq. apply ones_in in Hq. destruct (Nat.lt_ge_cases q (length v)); [lia|]. rewrite nth_overflow in Hq by lia. discriminate. }
  assert (Nd : forall v, NoDup (ones v)) by (intro; apply sorted_lt_nodup, flatnonzero_sorted).
  destruct s as [|kv s'].
  - destruct (I (map sign_bit w)) as (b2 & Eb2 & Bb2 & Lb2); [rewrite map_length; exact Lw|]. rewrite Eb2. cbn [bind].
    destruct (segment_decode_total text b2 Bb2) as (p2 & v2 & s2 & Es2). rewrite Es2. cbn [bind]. destruct (found_covered text b2 p2 v2 s2 Bb2 Es2) as (Lv2 & Cv2 & Bv2).
    assert (F0 : exists b0, found text info obs b0 []) by (exists b; split; [exact Eb|eauto]). assert (F2 : found text info w b2 s2) by (split; [exact Eb2|eauto]).
    destruct s2 as [|kv s2'].
    + destruct (Pad b2 [] v2 w Lv2 Lb2 Cv2 Bv2 Lw) as (seg & Ep & Lg & Cg). exists w, v2, seg. split; [reflexivity|]. split; [exact Lw|]. split; [exact Ep|]. split; [exact Lw|]. split; [exact Lg|]. exists b2, [].
      split; [right; split; [exact F0|split; [exact F2|]]|split; [reflexivity|exact Cg]]. intros q (k & i & [] & _).
    + assert (Bw : Forall (fun i => i < length w) (ones v2)) by (rewrite Lw; eapply Bd; eauto). rewrite (take_ok w (ones v2) 0%R Bw). cbn [bind]. rewrite map_map.
      destruct (put_map w (ones v2) (fun q => fmul Rops (nth q w 0%R) (fz Rops 2)) 0%R (Nd v2) Bw) as (out & Eo & Lo & N1 & N2). change (F Rops) with R in *. rewrite Eo. cbn [bind].
      destruct (Pad b2 (kv :: s2') v2 out Lv2 Lb2 Cv2 Bv2) as (seg & Ep & Lg & Cg); [lia|]. exists out, v2, seg. split; [reflexivity|]. split; [lia|]. split; [exact Ep|]. split; [lia|]. split; [exact Lg|]. exists b2, (kv :: s2').
      split; [right; split; [exact F0|split; [exact F2|]]|split; [|exact Cg]]; intros q Hq; [apply Cv2 in Hq; rewrite N1 by (apply ones_in; exact Hq); reflexivity|].
      apply N2. intro Q. apply Hq, Cv2, ones_in, Q.
  - assert (F1 : found text info obs b (kv :: s')) by (split; [exact Eb|eauto]). assert (Bo : Forall (fun i => i < length obs) (ones v)) by (eapply Bd; eauto).
    rewrite (take_ok obs (ones v) 0%R Bo). cbn [bind]. rewrite map_map. assert (Bw : Forall (fun i => i < length w) (ones v)) by (rewrite Lw; exact Bo).
    destruct (put_map w (ones v) (fun q => fmul Rops (fmul Rops (nth q obs 0%R) (fz Rops 2)) vf) 0%R (Nd v) Bw) as (out & Eo & Lo & N1 & N2). change (F Rops) with R in *. rewrite Eo. cbn [bind].
    destruct (Pad b (kv :: s') v out Lv Lb Cv Bv) as (seg & Ep & Lg & Cg); [lia|]. exists out, v, seg. split; [reflexivity|]. split; [lia|]. split; [exact Ep|]. split; [lia|]. split; [exact Lg|]. exists b, (kv :: s').
    split; [left; split; [exact F1|split; [discriminate|]]|split; [|exact Cg]]; intros q Hq; [apply Cv in Hq; rewrite N1 by (apply ones_in; exact Hq); reflexivity|].
    apply N2. intro Q. apply Hq, Cv, ones_in, Q.
Qed.

(** ** Fields *)
Lemma fields_where_spec test ok (vf : list (option (string * R * R))) : (forall v, test (Some v) = true <-> ok v) -> Forall (fun e => e <> None) vf ->
  exists l, fields_where Rops test vf = Ok l /\ fields_with ok vf l.
Proof.
  intros T H. unfold fields_where. change (F Rops) with R in *.
  assert (E : map_res (fun e : option (string * R * R) => match e with Some (_, v, _) => Ok (test (Some v)) | None => Err TypeError end) vf = Ok (map (fun e : option (string * R * R) => match e with Some (_, v, _) => test (Some v) | None => false end) vf)).
  { apply InfoP.map_res_ok. intros e He. rewrite Forall_forall in H. specialize (H e He). destruct e as [[[nm v] d]|]; [reflexivity|contradiction]. }
  rewrite E. cbn [bind]. eexists. split; [reflexivity|]. split; [apply flatnonzero_sorted|]. intro i. rewrite flatnonzero_in. destruct (Nat.lt_ge_cases i (length vf)) as [Hi|Hi].
  - rewrite nth_map_lt with (d' := @None (string * R * R)) by exact Hi. rewrite (nth_error_nth' vf None Hi). rewrite Forall_forall in H. specialize (H _ (nth_In vf None Hi)).
    destruct (nth i vf None) as [[[nm v] d]|]; [|contradiction]. rewrite T. split; [intro K; exists nm, v, d; auto|]. intros (nm' & v' & d' & Q & K). inversion Q; subst. exact K.
  - rewrite nth_overflow by (rewrite map_length; exact Hi). rewrite (proj2 (nth_error_None vf i) Hi). split; [discriminate|]. intros (a & b & d & Q & _). discriminate.
Qed.
Lemma fields_where_unknown FO test vf : Exists (fun e => e = None) vf -> fields_where FO test vf = Err TypeError.
Proof.
  intro H. unfold fields_where. assert (E : map_res (fun e : option (string * F FO * F FO) => match e with Some (_, v, _) => Ok (test (Some v)) | None => Err TypeError end) vf = Err TypeError); [|rewrite E; reflexivity].
  induction H as [e t H|e t H IH]; cbn [map_res]; [subst; reflexivity|]. destruct e as [[[nm v] d]|]; [|reflexivity]. cbn [bind]. rewrite IH. reflexivity.
Qed.

Lemma rectify_spec text pack erf info (c : rect_conf Rops) m s obs m1 vf vb sd picture :
  predict Rops erf m (BBits (received_bits obs)) s = Ok (m1, vf, vb, sd) -> Forall (fun e => e <> None) vf -> informative (length obs) info ->
  forces pack m1 (length obs / 8) s vb sd picture ->
  exists m' p w, rectify Rops pack erf (decode text) info c (scale_plain Rops) (forced_wrong Rops) m (Some s) obs = Ok (m', p) /\
    adjusted c (bm_size Rops m1) vb sd picture obs w /\ reinforced text info (approached c (rc_valid_factor c) (bm_size Rops m1)) obs w (pr_llr p) (pr_segmented p) /\
    pr_good p = map (above Rops (1 - rc_valid_thr c)%R) vb /\ pr_bad p = map (below Rops (rc_invalid_thr c)) vb /\
    fields_with (fun v => (1 - rc_valid_thr c < v)%R) vf (pr_good_fields p) /\ fields_with (fun v => (v < rc_invalid_thr c)%R) vf (pr_bad_fields p) /\ pr_fields p = length vf /\
    pr_forced p = Some (forced_wrong Rops vb sd).
Proof.
  intros Ep Hf I Fo. unfold rectify. rewrite hard_bits. change (F Rops) with R in *. rewrite Ep. cbn [bind fsub fz Rops].
  destruct (fields_where_spec (above Rops (1 - rc_valid_thr c)%R) (fun v => (1 - rc_valid_thr c < v)%R) vf) as (gf & Eg & Hg); [intro v; cbn; apply Rltb_spec|exact Hf|].
  destruct (fields_where_spec (below Rops (rc_invalid_thr c)) (fun v => (v < rc_invalid_thr c)%R) vf) as (bf & Ebf & Hbf); [intro v; cbn; apply Rltb_spec|exact Hf|].
  change (F Rops) with R in *. rewrite Eg. cbn [bind]. rewrite Ebf. cbn [bind]. destruct (predict_lengths _ _ _ _ _ _ _ _ _ Ep) as [Lv Ls]. assert (Lr : length (received_bits obs) = length obs) by apply map_length. change (F Rops) with R in *. rewrite Lr in Lv, Ls.
  destruct (adjust_spec pack c m1 s obs vb sd picture Lv Ls Fo) as (m2 & l0 & l & E1 & E2 & Ad). change (F Rops) with R in *. rewrite E1. cbn [bind]. rewrite E2. cbn [bind].
  assert (Ll : length l = length obs) by apply Ad.
  assert (Ea : factor_of Rops c (rc_valid_factor c) (bm_size Rops m1) = approached c (rc_valid_factor c) (bm_size Rops m1)).
  { unfold factor_of, approached. rewrite confidence_R. destruct (rc_learning c); [|reflexivity]. cbn [fadd fmul fsub fz Rops]. lra. }
  destruct (confirm_spec text info (factor_of Rops c (rc_valid_factor c) (bm_size Rops m1)) obs l Ll I) as (out & v & seg & E3 & Lo & E4 & Re). change (F Rops) with R in *. rewrite E3. cbn [bind]. rewrite E4. cbn [bind].
  rewrite Ea in Re. eexists m2, _, l. split; [reflexivity|]. cbn [pr_llr pr_segmented pr_good pr_bad pr_good_fields pr_bad_fields pr_fields pr_forced]. repeat (split; [assumption || reflexivity|]). reflexivity.
Qed.

(** ** Only under these conditions *)
Lemma fields_where_known FO test vf l : fields_where FO test vf = Ok l -> Forall (fun e => e <> None) vf.
Proof.
  unfold fields_where. match goal with |- (do! _ <- ?t in _) = _ -> _ => destruct t as [r|] eqn:E end; cbn [bind]; [|discriminate]. intros _. revert r E.
  induction vf as [|e vf IH]; intros r E; [constructor|]. cbn [map_res] in E. destruct e as [[[nm v] d]|]; [|discriminate]. cbn [bind] in E. constructor; [discriminate|].
  match type of E with (do! _ <- ?t in _) = _ => destruct t as [r'|] eqn:E' end; cbn [bind] in E; [|discriminate]. eapply IH. reflexivity.
Qed.
Lemma rectify_inv text pack erf info (c : rect_conf Rops) m s (obs : list R) m' p :
  rectify Rops pack erf (decode text) info c (scale_plain Rops) (forced_wrong Rops) m (Some s) obs = Ok (m', p) ->
  exists m1 vf vb sd picture, predict Rops erf m (BBits (received_bits obs)) s = Ok (m1, vf, vb, sd) /\ Forall (fun e => e <> None) vf /\ forces pack m1 (length obs / 8) s vb sd picture.
Proof.
  intro E. unfold rectify in E. rewrite hard_bits in E. change (F Rops) with R in *. destruct (predict Rops erf m (BBits (received_bits obs)) s) as [[[[m1 vf] vb] sd]|] eqn:Ep; cbn [bind] in E; [|discriminate].
  match type of E with (do! _ <- ?t in _) = _ => destruct t as [gf|] eqn:Eg end; cbn [bind] in E; [|discriminate]. apply fields_where_known in Eg.
  match type of E with (do! _ <- ?t in _) = _ => destruct t as [bf|] eqn:Eb end; cbn [bind] in E; [|discriminate].
  match type of E with (do! _ <- ?t in _) = _ => destruct t as [[[good bad] l]|] eqn:Es end; cbn [bind] in E; [|discriminate].
  match type of E with (do! _ <- ?t in _) = _ => destruct t as [[m2 l2]|] eqn:Ef end; cbn [bind] in E; [|discriminate].
  assert (Lvs : length vb = length sd). { destruct (predict_lengths _ _ _ _ _ _ _ _ _ Ep) as [A B]. etransitivity; [exact A|symmetry; exact B]. }
  destruct (forced_wrong Rops vb sd) as [|f0 ft] eqn:Efw.
  - exists m1, vf, vb, sd, []. split; [reflexivity|]. split; [exact Eg|]. intros (q & Hq). apply forced_in in Hq; [|exact Lvs]. rewrite Efw in Hq. destruct Hq.
  - unfold force in Ef. rewrite mean_value in Ef. change (F Rops) with R in *. destruct (bitwise_model_mean Rops pack m1 [] (length obs / 8) s) as [r|]; cbn [bind] in Ef; [|discriminate].
    destruct (value_of (bitwise_model_mean Rops pack m1 (map Z.of_nat (seq 0 (8 * (length obs / 8)))) (length obs / 8) s)) as [picture|] eqn:Ev; cbn [bind] in Ef; [|discriminate].
    exists m1, vf, vb, sd, picture. split; [reflexivity|]. split; [exact Eg|]. intros _. exact Ev.
Qed.

(** ** What makes a bit impossible *)
Section Reach.
Variables (pack : R -> res N) (erf : R -> R) (w : option Z) (os : list (option (list (string * (pyval * string))))).

Lemma reach_step m e : reachable Rops pack erf w os m -> (forall a s, e <> VAdd a s) -> reachable Rops pack erf w (os ++ [None]) (bm_event_step Rops pack erf m e).
Proof.
  intros (h & H & ->) Hr. exists (h ++ [e]). split; [apply Forall2_app; [exact H|repeat constructor; exact Hr]|]. unfold bm_run. rewrite fold_left_app. reflexivity.
Qed.
Lemma recorded_read os' : recorded (os' ++ [None]) = recorded os'.
Proof. unfold recorded. rewrite flat_map_app. cbn [flat_map]. rewrite !app_nil_r. reflexivity. Qed.
Lemma accepted_read os' : accepted (os' ++ [None]) = accepted os'.
Proof. unfold accepted. rewrite filter_app. cbn [filter]. rewrite app_nil_r. reflexivity. Qed.
Lemma reach_predict m a s m1 vf vb sd : reachable Rops pack erf w os m -> predict Rops erf m a s = Ok (m1, vf, vb, sd) -> reachable Rops pack erf w (os ++ [None]) m1.
Proof.
  intros H E. replace m1 with (bm_event_step Rops pack erf m (VPredict a s)); [apply reach_step; [exact H|discriminate]|]. cbn [bm_event_step]. rewrite E. reflexivity.
Qed.

Lemma numbers_same l xs y : Forall2 is_number l xs -> Forall (fun v => is_number v y) l -> Forall (fun x => x = y) xs.
Proof.
  intro H. induction H as [|v x l xs A B IH]; intro K; [constructor|]. inversion K as [|? ? K1 K2]; subst. constructor; [|apply IH; exact K2].
  apply sample_num_R in A. apply sample_num_R in K1. congruence.
Qed.
Lemma same_numbers l xs y : Forall2 is_number l xs -> Forall (fun x => x = y) xs -> Forall (fun v => is_number v y) l.
Proof. intro H. induction H as [|v x l xs A B IH]; intro K; [constructor|]. inversion K as [|? ? K1 K2]; subst. constructor; auto. Qed.

Lemma impossible_iff m b s sl j x p m1 vf vb sd z l : window_ok w -> reachable Rops pack erf w os m -> holds (BBits l) b -> Forall (plain_in (length b)) s -> layout s sl ->
  predict Rops erf m (BBits l) s = Ok (m1, vf, vb, sd) -> p < 8 * length b -> nth_error sl j = Some x -> owner sl p (Z.of_nat j) -> is_number (slot_value b x) z ->
  (impossible (nth p vb None) (nth p sd None) <->
   windowed w (values_under (s_name x) (recorded os)) <> [] /\ exists y, Forall (fun v => is_number v y) (windowed w (values_under (s_name x) (recorded os))) /\ y <> z).
Proof.
  intros W H Hh P L E Hp Hj Ho Hz. pose proof (predict_reach Rops pack erf w os m (BBits l) b s sl W H Hh P L) as G.
  destruct (map_res (fun y => field_entry Rops erf m (s_name y, slot_value b y)) sl) as [es|e] eqn:Es; [|congruence]. destruct G as (m' & vf' & vb' & sd' & E' & Le & _ & _ & _ & N).
  rewrite E in E'. inversion E'; subst vb' sd'. destruct (N p _ Hp Ho) as [N1 N2]. rewrite N1, N2. destruct (Z.ltb_spec (Z.of_nat j) 0%Z); [lia|]. rewrite Nat2Z.id.
  assert (Hlt : j < length sl) by (apply nth_error_Some; rewrite Hj; discriminate).
  assert (Fe : field_entry Rops erf m (s_name x, slot_value b x) = Ok (nth j es None)).
  { clear - Es Hj. revert es j Es Hj. induction sl as [|y sl IH]; intros es j Es Hj; [destruct j; discriminate|]. cbn [map_res] in Es.
    destruct (field_entry Rops erf m (s_name y, slot_value b y)) as [r|] eqn:Er; cbn [bind] in Es; [|discriminate].
    destruct (map_res (fun y => field_entry Rops erf m (s_name y, slot_value b y)) sl) as [rs|] eqn:Ers; cbn [bind] in Es; [|discriminate]. inversion Es; subst es.
    destruct j as [|j]; cbn [nth_error] in Hj; [inversion Hj; subst; exact Er|]. cbn [nth]. eapply IH; eauto. }
  destruct (StatTop.reach_inv Rops pack erf w os m W H) as (I & _ & C). destruct (model_fields Rops pack erf w os m W H) as (_ & _ & M). specialize (M (s_name x)). unfold field_entry in Fe. cbn [fst snd] in Fe.
  destruct (bm_get Rops m (s_name x)) as [f|] eqn:Gf.
  - destruct M as (Nv & Sm & _). rewrite (classify_spec Rops erf f (slot_value b x) (C _ _ Gf)) in Fe. rewrite Sm in Fe. set (V := windowed w (values_under (s_name x) (recorded os))) in *.
    assert (NV : V <> []) by (intro Q; apply Nv; eapply windowed_nil; exact Q).
    destruct (numbers_or_first V) as [(xs & Hx)|(pre & xs & v & t & Q & Hx & Nn)].
    + rewrite (stats_R V xs NV Hx) in Fe. cbn [bind] in Fe. rewrite (verdict_R erf _ _ _ z Hz (std_nonneg xs)) in Fe. cbn [bind] in Fe.
      assert (Qe : nth j es None = Some (score erf (mean_of xs) (std_of xs) z, std_of xs)) by (inversion Fe as [Q0]; symmetry; exact Q0). change (F Rops) with R in *. rewrite Qe. cbn [option_map fst snd].
      assert (Nx : xs <> []) by (intros ->; inversion Hx as [A|]; congruence). split.
      * intros (v & Qv & Hv & Qd). assert (Qs : score erf (mean_of xs) (std_of xs) z = v) by (inversion Qv; reflexivity). subst v. assert (Hd : std_of xs = 0%R) by (inversion Qd; reflexivity). split; [exact NV|]. exists (mean_of xs). split.
        -- apply (same_numbers V xs _ Hx). apply Forall_forall. intros y Hy. pose proof (proj1 (std_zero xs Nx) Hd) as Al. symmetry. apply (mean_const y xs Nx). apply Forall_forall. intros y' Hy'. apply Al; assumption.
        -- intro Em. rewrite Em in Hv. unfold score in Hv. rewrite Hd in Hv. rewrite (proj2 (Rleb_spec 0 0)) in Hv by lra. rewrite (proj2 (Reqb_spec z z)) in Hv by reflexivity. lra.
      * intros (_ & y & Hy & Ny). pose proof (numbers_same V xs y Hx Hy) as Ax. assert (Hm : mean_of xs = y) by (apply mean_const; assumption).
        assert (Hd : std_of xs = 0%R). { apply (proj2 (std_zero xs Nx)). rewrite Forall_forall in Ax. intros a a' Ha Ha'. rewrite (Ax a Ha), (Ax a' Ha'). reflexivity. }
        exists (score erf (mean_of xs) (std_of xs) z). split; [reflexivity|]. rewrite Hd. split; [|reflexivity]. unfold score. rewrite (proj2 (Rleb_spec 0 0)) by lra.
        destruct (Reqb z (mean_of xs)) eqn:Q2; [|lra]. apply (proj1 (Reqb_spec _ _)) in Q2. exfalso. apply Ny. congruence.
    + exfalso. destruct (stats_err pre v t xs Hx) as [S1 S2]. rewrite Q in Fe. destruct (number_dec v) as [K|[(q & K1 & K2)|(bb & K)]]; [contradiction| |].
      * rewrite (S1 q K1 K2) in Fe. discriminate.
      * rewrite (S2 bb K) in Fe. discriminate.
  - assert (Qe : nth j es None = None) by (inversion Fe as [Q0]; symmetry; exact Q0). change (F Rops) with R in *. rewrite Qe. cbn [option_map]. rewrite M. split; [intros (v & Qv & _); discriminate|]. intros (Nw & _). exfalso. apply Nw. destruct w as [k|]; [|reflexivity]. cbn. destruct (Z.leb k 0); reflexivity.
Qed.
End Reach.

(** ** Factors and signs *)
Lemma trust_range center slope n : (0 <= trust center slope n < 1)%R.
Proof.
  split; [|unfold trust; destruct (Z.leb n 1); [lra|]].
  - unfold trust. destruct (Z.leb n 1); [lra|]. left. apply Rinv_0_lt_compat. pose proof (exp_pos (- (IZR n - center) * slope)). lra.
  - pose proof (exp_pos (- (IZR n - center) * slope)) as P. apply Rlt_le_trans with (/ 1)%R; [apply Rinv_lt_contravar; lra|rewrite Rinv_1; lra].
Qed.
Lemma approached_range (c : rect_conf Rops) f size : (Rmin 1 f <= approached c f size <= Rmax 1 f)%R.
Proof.
  unfold approached. pose proof (Rmin_l 1 f). pose proof (Rmin_r 1 f). pose proof (Rmax_l 1 f). pose proof (Rmax_r 1 f). destruct (rc_learning c); [|lra].
  destruct (trust_range (rc_center c) (rc_slope c) size) as [T0 T1]. set (t := trust (rc_center c) (rc_slope c) size) in *.
  replace (1 + (f - 1) * t)%R with ((1 - t) * 1 + t * f)%R by ring. split.
  - replace (Rmin 1 f) with ((1 - t) * Rmin 1 f + t * Rmin 1 f)%R by ring. apply Rplus_le_compat; apply Rmult_le_compat_l; lra.
  - replace (Rmax 1 f) with ((1 - t) * Rmax 1 f + t * Rmax 1 f)%R by ring. apply Rplus_le_compat; apply Rmult_le_compat_l; lra.
Qed.
Lemma approached_pos (c : rect_conf Rops) f size : (0 < f -> 0 < approached c f size)%R.
Proof. intro H. pose proof (approached_range c f size) as [A _]. unfold Rmin in A. destruct (Rle_dec 1 f); lra. Qed.
Lemma approached_small (c : rect_conf Rops) f size : rc_learning c = true -> (size <= 1)%Z -> approached c f size = 1%R.
Proof. intros H1 H2. unfold approached, trust. rewrite H1. destruct (Z.leb_spec size 1%Z); [|lia]. lra. Qed.

Lemma weight_pos vt it v i x : (0 < v -> 0 < i -> 0 < weight_of vt it v i x)%R.
Proof.
  intros Hv Hi. destruct x as [x|]; cbn; [|lra]. apply Rmult_lt_0_compat; [destruct (Rlt_dec (1 - vt) x)|destruct (Rlt_dec x it)]; lra.
Qed.
Lemma sign_kept text info (c : rect_conf Rops) size vb sd picture obs w out seg p : (0 < rc_valid_factor c)%R -> (0 < rc_invalid_factor c)%R ->
  adjusted c size vb sd picture obs w -> reinforced text info (approached c (rc_valid_factor c) size) obs w out seg -> p < length obs -> ~ impossible (nth p vb None) (nth p sd None) ->
  exists k, (0 < k)%R /\ nth p out 0%R = (k * nth p obs 0)%R.
Proof.
  intros Hv Hi (_ & A) (_ & _ & b & s & Hr & Ho & _) Hp Ni. destruct (A p Hp) as [_ A2]. specialize (A2 Ni). change (F Rops) with R in *.
  pose proof (approached_pos c _ size Hv) as Pv. pose proof (approached_pos c _ size Hi) as Pi. pose proof (weight_pos (rc_valid_thr c) (rc_invalid_thr c) _ _ (nth p vb None) Pv Pi) as Pw.
  assert (Dc : covered b s (p / 8) \/ ~ covered b s (p / 8)) by apply Classical_Prop.classic.
  destruct Dc as [Hc|Hc].
  - destruct Hr as [(_ & _ & H1)|(_ & _ & H1)]; rewrite (H1 p Hc).
    + exists (2 * approached c (rc_valid_factor c) size)%R. split; [lra|ring].
    + rewrite A2. eexists. split; [|rewrite (Rmult_comm (nth p obs 0%R)), Rmult_assoc, (Rmult_comm (nth p obs 0%R)), <- Rmult_assoc; reflexivity]. lra.
  - rewrite (Ho p Hc), A2. eexists. split; [exact Pw|ring].
Qed.

(** ** Bits of constant integer fields *)
Lemma holds_bits_len (obs : list R) b : holds (BBits (received_bits obs)) b -> length obs = 8 * length b.
Proof. intro H. inversion H as [|? ? _ L _]; subst. unfold received_bits in L. rewrite map_length in L. exact L. Qed.

Lemma forced_bits text pack erf info (c : rect_conf Rops) wd os m s sl (obs : list R) b b' j x p z z' m' pr :
  window_ok wd -> reachable Rops pack erf wd os m -> holds (BBits (received_bits obs)) b -> Forall (plain_in (length b)) s -> disjoint_structure s -> layout s sl ->
  nth_error sl j = Some x -> bit_in x p -> integer_type (s_type x) (s_width x) -> informative (length obs) info ->
  values_under (s_name x) (recorded os) <> [] -> Forall (fun v => v = VInt z) (windowed wd (values_under (s_name x) (recorded os))) ->
  slot_value b x = VInt z' -> z' <> z -> is_bytes b' -> length b' = length b -> slot_value b' x = VInt z ->
  rectify Rops pack erf (decode text) info c (scale_plain Rops) (forced_wrong Rops) m (Some s) obs = Ok (m', pr) ->
  (forall b0 s0, found text info obs b0 s0 -> s0 = []) ->
  exists pk k, peak obs pk /\ (k = 1 \/ k = 2)%R /\ nth p (pr_llr pr) 0%R = ((if bit_of b' p then -1 else 1) * pk * Rmax (approached c (rc_valid_factor c) (bm_size Rops m)) 1 * k)%R.
Proof.
  intros W H Hh P D L Hj Hin Ty I Nv All Vz Nz Bb' Lb' Vb' E Nf. pose proof (holds_bits_len obs b Hh) as Lo.
  destruct (rectify_inv _ _ _ _ _ _ _ _ _ _ E) as (m1 & vf & vb & sd & picture & Ep & Hf & Fo).
  destruct (rectify_spec text pack erf info c m s obs m1 vf vb sd picture Ep Hf I Fo) as (m2 & pr2 & w & E2 & Ad & Re & _). assert (Q0 : Ok (m', pr) = Ok (m2, pr2)) by (etransitivity; [symmetry; exact E|exact E2]). assert (Q : pr2 = pr) by (inversion Q0; reflexivity). subst pr2.
  assert (Hx : s_first x + s_width x <= length b) by (pose proof (layout_bounds _ s sl P L) as B; rewrite Forall_forall in B; apply B; eapply nth_error_In; exact Hj).
  assert (Hp : p < 8 * length b) by (unfold bit_in in Hin; lia).
  assert (Ho : owner sl p (Z.of_nat j)) by (apply (owner_disjoint sl j x p (disjoint_slots s sl L D) Hj); exact Hin).
  assert (Nn : is_number (slot_value b x) (IZR z')) by (rewrite Vz; constructor).
  assert (Hi : impossible (nth p vb None) (nth p sd None)).
  { apply (impossible_iff pack erf wd os m b s sl j x p m1 vf vb sd (IZR z') (received_bits obs)); auto. split; [intro Q; apply Nv; eapply windowed_nil; exact Q|].
    exists (IZR z). split; [|intro Q; apply eq_IZR in Q; congruence]. eapply Forall_impl; [|exact All]. intros v ->. constructor. }
  assert (Len8 : length obs / 8 = length b) by (rewrite Lo; rewrite Nat.mul_comm; apply Nat.div_mul; lia).
  assert (Ev : value_of (bitwise_model_mean Rops pack m1 (map Z.of_nat (seq 0 (8 * length b))) (length b) s) = Ok picture) by (rewrite <- Len8; apply Fo; exists p; exact Hi).
  assert (Hpic : nth p picture false = bit_of b' p).
  { pose proof (reach_predict pack erf wd os m _ _ _ _ _ _ H Ep) as H1. rewrite <- (recorded_read os) in Nv, All.
    assert (Hn : nth_error (map Z.of_nat (seq 0 (8 * length b))) p = Some (Z.of_nat p)).
    { rewrite nth_error_map. rewrite (nth_error_nth' _ 0) by (rewrite seq_length; exact Hp). rewrite seq_nth by exact Hp. reflexivity. }
    pose proof (equal_samples_bit pack erf wd (os ++ [None]) m1 _ (length b) s sl j x b' p z p W H1 P D L Hj Hin Bb' Lb' Ty Vb' Nv All Hn picture Ev) as G.
    apply nth_error_nth with (d := false) in G. exact G. }
  assert (No : obs <> []) by (intros ->; cbn in Lo; lia). destruct (peak_ex obs No) as (pk & _ & Ppk).
  assert (Hsz : bm_size Rops m1 = bm_size Rops m).
  { pose proof (reach_predict pack erf wd os m _ _ _ _ _ _ H Ep) as H1. destruct (model_fields Rops pack erf wd os m W H) as (S1 & _). destruct (model_fields Rops pack erf wd _ m1 W H1) as (S2 & _). rewrite S1, S2, accepted_read. reflexivity. }
  rewrite Hsz in *. destruct Ad as (Lw & A). destruct (A p) as [A1 _]; [lia|]. specialize (A1 Hi pk Ppk). rewrite Hpic in A1. exists pk. destruct Re as (_ & _ & b2 & s2 & Hr & Hout & _).
  assert (Dc : covered b2 s2 (p / 8) \/ ~ covered b2 s2 (p / 8)) by apply Classical_Prop.classic. change (F Rops) with R in *. destruct Dc as [Hc|Hc].
  - destruct Hr as [(F1 & N1 & _)|(_ & _ & H1)]; [exfalso; apply N1; eapply Nf; exact F1|]. exists 2%R. split; [exact Ppk|]. split; [right; reflexivity|]. rewrite (H1 p Hc), A1. reflexivity.
  - exists 1%R. split; [exact Ppk|]. split; [left; reflexivity|]. rewrite (Hout p Hc), A1. ring.
Qed.

(** ** Errors *)
Lemma rectify_predict_err text pack erf info (c : rect_conf Rops) scale choose m s (obs : list R) e : predict Rops erf m (BBits (received_bits obs)) s = Err e ->
  rectify Rops pack erf (decode text) info c scale choose m (Some s) obs = Err e.
Proof. intro E. unfold rectify. rewrite hard_bits. change (F Rops) with R in *. rewrite E. reflexivity. Qed.
Lemma rectify_unknown_field text pack erf info (c : rect_conf Rops) scale choose m s (obs : list R) m1 vf vb sd : predict Rops erf m (BBits (received_bits obs)) s = Ok (m1, vf, vb, sd) -> In None vf ->
  rectify Rops pack erf (decode text) info c scale choose m (Some s) obs = Err TypeError.
Proof.
  intros E H. unfold rectify. rewrite hard_bits. change (F Rops) with R in *. rewrite E. cbn [bind]. rewrite (fields_where_unknown Rops); [reflexivity|]. apply Exists_exists. exists None. auto.
Qed.
Lemma put_length {A} (l : list A) idx vs r : put l idx vs = Ok r -> length r = length l.
Proof. unfold put. destruct (existsb _ idx); [discriminate|]. destruct (Nat.eqb _ _); [|discriminate]. intro E. inversion E; subst. apply fold_set_length. Qed.
Lemma scale_where_length FO mask k l r : scale_where FO mask k l = Ok r -> length r = length l.
Proof.
  unfold scale_where. destruct (Nat.leb_spec (length mask) (length l)); [|discriminate]. intro E. inversion E; subst. rewrite app_length, map_length, combine_length, skipn_length. lia.
Qed.
Lemma force_length FO pack m s v forced obs l m' r : force FO pack m s v forced obs l = Ok (m', r) -> length r = length l.
Proof.
  unfold force. destruct forced as [|f ft]; [intro E; inversion E; subst; reflexivity|]. destruct (bitwise_model_mean _ _ _ _ _ _) as [[? ?]|]; cbn [bind]; [|discriminate].
  destruct (pymax _ _) as [mx|]; cbn [bind]; [|discriminate]. match goal with |- (do! _ <- put ?a ?i ?v in _) = _ -> _ => destruct (put a i v) as [r'|] eqn:Ep end; cbn [bind]; [|discriminate].
  intro E. inversion E; subst. eapply put_length; exact Ep.
Qed.
Lemma confirm_length FO {D} (parser : bytes -> res D) info v obs l r valid : confirm FO parser info v obs l = Ok (r, valid) -> (forall x b, info x = Ok b -> is_bytes b) ->
  length r = length l /\ exists x b, info x = Ok b /\ length valid = 8 * length b.
Proof.
  intros E B. unfold confirm in E. destruct (info (hard FO obs)) as [b|] eqn:E1; cbn [bind] in E; [|discriminate]. destruct (segment_buffer parser b) as [[[p va] s]|] eqn:E2; cbn [bind] in E; [|discriminate].
  destruct (segment_parts parser b p va s (B _ _ E1) E2) as [_ [Lv _]]. destruct s as [|kv s'].
  - destruct (info (hard FO l)) as [b2|] eqn:E3; cbn [bind] in E; [|discriminate]. destruct (segment_buffer parser b2) as [[[p2 va2] s2]|] eqn:E4; cbn [bind] in E; [|discriminate].
    destruct (segment_parts parser b2 p2 va2 s2 (B _ _ E3) E4) as [_ [Lv2 _]]. destruct s2 as [|kv2 s2']; [inversion E; subst; eauto|].
    destruct (take l (ones va2)) as [xs|]; cbn [bind] in E; [|discriminate]. match type of E with (do! _ <- put ?a ?i ?v in _) = _ => destruct (put a i v) as [r'|] eqn:Ep end; cbn [bind] in E; [|discriminate].
    inversion E; subst. split; [eapply put_length; exact Ep|eauto].
  - destruct (take obs (ones va)) as [xs|]; cbn [bind] in E; [|discriminate]. match type of E with (do! _ <- put ?a ?i ?v in _) = _ => destruct (put a i v) as [r'|] eqn:Ep end; cbn [bind] in E; [|discriminate].
    inversion E; subst. split; [eapply put_length; exact Ep|eauto].
Qed.
Lemma rectify_too_long text pack erf info (c : rect_conf Rops) m s (obs : list R) : (forall l b, info l = Ok b -> is_bytes b /\ length obs < 8 * length b) ->
  exists e, rectify Rops pack erf (decode text) info c (scale_plain Rops) (forced_wrong Rops) m (Some s) obs = Err e.
Proof.
  intro I. destruct (rectify Rops pack erf (decode text) info c (scale_plain Rops) (forced_wrong Rops) m (Some s) obs) as [r|e] eqn:E; [|eauto]. exfalso.
  unfold rectify in E. rewrite hard_bits in E. change (F Rops) with R in *. destruct (predict Rops erf m (BBits (received_bits obs)) s) as [[[[m1 vf] vb] sd]|] eqn:Ep; cbn [bind] in E; [|discriminate].
  match type of E with (do! _ <- ?t in _) = _ => destruct t as [gf|] end; cbn [bind] in E; [|discriminate].
  match type of E with (do! _ <- ?t in _) = _ => destruct t as [bf|] end; cbn [bind] in E; [|discriminate].
  match type of E with (do! _ <- ?t in _) = _ => destruct t as [[[good bad] l]|] eqn:Es end; cbn [bind] in E; [|discriminate].
  match type of E with (do! _ <- ?t in _) = _ => destruct t as [[m2 l2]|] eqn:Ef end; cbn [bind] in E; [|discriminate].
  match type of E with (do! _ <- ?t in _) = _ => destruct t as [[l3 va]|] eqn:Ec end; cbn [bind] in E; [|discriminate].
  assert (L1 : length l = length obs).
  { unfold scale_plain in Es. match type of Es with (do! _ <- ?t in _) = _ => destruct t as [la|] eqn:Ea end; cbn [bind] in Es; [|discriminate].
    match type of Es with (do! _ <- ?t in _) = _ => destruct t as [lb|] eqn:Eb end; cbn [bind] in Es; [|discriminate]. apply scale_where_length in Ea. apply scale_where_length in Eb. inversion Es; subst. exact (eq_trans Eb Ea). }
  apply force_length in Ef. destruct (confirm_length _ _ _ _ _ _ _ _ Ec) as (L3 & x & b & Eb & Lv); [intros; eapply I; eassumption|]. destruct (I x b Eb) as [_ Lb].
  unfold pad_valid in E. change (F Rops) with R in *. destruct (Nat.leb_spec (length va) (length l3)); [|discriminate]. lia.
Qed.

(** ** Forms used in the statements *)
Lemma rectify_marks text pack erf info (c : rect_conf Rops) m s obs m1 vf vb sd picture :
  predict Rops erf m (BBits (received_bits obs)) s = Ok (m1, vf, vb, sd) -> Forall (fun e => e <> None) vf -> informative (length obs) info ->
  ((exists p, impossible (nth p vb None) (nth p sd None)) ->
     value_of (bitwise_model_mean Rops pack m1 (map Z.of_nat (seq 0 (8 * (length obs / 8)))) (length obs / 8) s) = Ok picture) ->
  exists m' p w, rectify Rops pack erf (decode text) info c (scale_plain Rops) (forced_wrong Rops) m (Some s) obs = Ok (m', p) /\
    adjusted c (bm_size Rops m1) vb sd picture obs w /\ reinforced text info (approached c (rc_valid_factor c) (bm_size Rops m1)) obs w (pr_llr p) (pr_segmented p) /\
    (length (pr_good p) = length vb /\ forall i, nth i (pr_good p) false = true <-> exists v, nth i vb None = Some v /\ (1 - rc_valid_thr c < v)%R) /\
    (length (pr_bad p) = length vb /\ forall i, nth i (pr_bad p) false = true <-> exists v, nth i vb None = Some v /\ (v < rc_invalid_thr c)%R) /\
    fields_with (fun v => (1 - rc_valid_thr c < v)%R) vf (pr_good_fields p) /\ fields_with (fun v => (v < rc_invalid_thr c)%R) vf (pr_bad_fields p) /\
    pr_fields p = length vf /\
    exists forced, pr_forced p = Some forced /\ Sorted.StronglySorted lt forced /\ forall i, In i forced <-> impossible (nth i vb None) (nth i sd None).
Proof.
  intros Ep Hf I Fo. destruct (rectify_spec text pack erf info c m s obs m1 vf vb sd picture Ep Hf I Fo) as (m' & p & w & E & A & Re & G & B & GF & BF & NF & Fw).
  assert (Mk : forall test, (forall x, test x = true -> x <> None) -> length (map test vb) = length vb /\ forall i, nth i (map test vb) false = true <-> test (nth i vb None) = true).
  { intros test Ht. split; [apply map_length|]. intro i. destruct (Nat.lt_ge_cases i (length vb)) as [H|H]; [rewrite nth_map_lt with (d' := @None R) by exact H; reflexivity|].
    rewrite (nth_overflow vb) by exact H. rewrite nth_overflow by (rewrite map_length; exact H). split; [discriminate|]. intro K. exfalso. exact (Ht _ K eq_refl). }
  exists m', p, w. split; [exact E|]. split; [exact A|]. split; [exact Re|]. split; [|split; [|split; [exact GF|split; [exact BF|split; [exact NF|]]]]].
  - rewrite G. destruct (Mk (above Rops (1 - rc_valid_thr c)%R)) as [M1 M2]; [intros x Hx ->; discriminate|]. split; [exact M1|]. intro i. rewrite M2. apply above_spec.
  - rewrite B. destruct (Mk (below Rops (rc_invalid_thr c))) as [M1 M2]; [intros x Hx ->; discriminate|]. split; [exact M1|]. intro i. rewrite M2. apply below_spec.
  - exists (forced_wrong Rops vb sd). split; [exact Fw|]. split; [apply flatnonzero_sorted|]. intro i. apply forced_in. destruct (predict_lengths _ _ _ _ _ _ _ _ _ Ep) as [Q1 Q2]. etransitivity; [exact Q1|symmetry; exact Q2].
Qed.
Lemma rectify_signs text pack erf info (c : rect_conf Rops) m s obs m' p m1 vf vb sd i : (0 < rc_valid_factor c)%R -> (0 < rc_invalid_factor c)%R -> informative (length obs) info ->
  rectify Rops pack erf (decode text) info c (scale_plain Rops) (forced_wrong Rops) m (Some s) obs = Ok (m', p) ->
  predict Rops erf m (BBits (received_bits obs)) s = Ok (m1, vf, vb, sd) -> i < length obs -> ~ impossible (nth i vb None) (nth i sd None) ->
  exists k, (0 < k)%R /\ nth i (pr_llr p) 0%R = (k * nth i obs 0)%R.
Proof.
  intros Hv Hi I E Ep Hl Ni. destruct (rectify_inv _ _ _ _ _ _ _ _ _ _ E) as (m2 & vf2 & vb2 & sd2 & picture & Ep2 & Hf & Fo). rewrite Ep in Ep2. inversion Ep2; subst m2 vf2 vb2 sd2.
  destruct (rectify_spec text pack erf info c m s obs m1 vf vb sd picture Ep Hf I Fo) as (m3 & p3 & w & E3 & Ad & Re & _).
  assert (Q0 : Ok (m', p) = Ok (m3, p3)) by (etransitivity; [symmetry; exact E|exact E3]). assert (Q : p3 = p) by (inversion Q0; reflexivity). subst p3.
  eapply sign_kept; eauto.
Qed.
Lemma factors (c : rect_conf Rops) f size :
  (Rmin 1 f <= approached c f size <= Rmax 1 f)%R /\ (rc_learning c = true -> (size <= 1)%Z -> approached c f size = 1%R) /\ (rc_learning c = false -> approached c f size = f).
Proof. split; [apply approached_range|]. split; [apply approached_small|]. intro H. unfold approached. rewrite H. reflexivity. Qed.
