(** Proofs about the rectification of the unified decoder. *)
From Coq Require Import String List ZArith NArith Arith Bool Reals Lia Lra Sorting.Sorted Classical_Prop.
From Verif.Model Require Import Py Float InfoTheory Dialect Struct Mavlink Segmentation StatModels Clustering DecoderBase Rectify MavlinkDecoder CombinedDecoder.
From Verif.Spec Require Import RealOps Bytes Bits Header Frame Segment Info Cluster Stats EmleSpec DecoderSpec WeightedSpec ClassSpec FlipSpec RectifySpec MavDecSpec CombinedSpec.
From Verif.Proofs Require Import Base FieldsP RealP ClusterR HellingerP SegmentP SegMore SegStream StatP StatReal LayoutP ValuesP BufModelP PredictP MeanP StatTop PerfP DecoderP EntropyDecP WeightedP ClassP FlipP RectifyP MavDecP CombinedP.
Import ListNotations.
Local Close Scope R_scope.

(** Forcing at given positions. *)
Lemma force_spec pack (m1 : buffer_model Rops) s (vf : R) forced (obs l0 : list R) picture : StronglySorted lt forced -> Forall (fun p => p < 8 * (length obs / 8)) forced -> length l0 = length obs ->
  (forced <> [] -> value_of (bitwise_model_mean Rops pack m1 (map Z.of_nat (seq 0 (8 * (length obs / 8)))) (length obs / 8) s) = Ok picture) ->
  exists m2 l, force Rops pack m1 s vf forced obs l0 = Ok (m2, l) /\ length l = length obs /\
    (forall p, In p forced -> forall pk, peak obs pk -> nth p l 0%R = ((if nth p picture false then -1 else 1) * pk * Rmax vf 1)%R) /\
    (forall p, ~ In p forced -> nth p l 0%R = nth p l0 0%R).
Proof.
  intros St Bd L0 Fo. assert (Ln : 8 * (length obs / 8) <= length obs) by (pose proof (Nat.mul_div_le (length obs) 8); lia). unfold force. destruct forced as [|f0 ft] eqn:Ef.
  - exists m1, l0. split; [reflexivity|]. split; [exact L0|]. split; [intros p []|reflexivity].
  - rewrite <- Ef in *. assert (Hf0 : In f0 forced) by (rewrite Ef; left; reflexivity). assert (Hne : forced <> []) by (rewrite Ef; discriminate). clear Ef. rewrite Forall_forall in Bd. assert (No : obs <> []).
    { intros ->. specialize (Bd f0 Hf0). cbn in Bd. lia. }
    destruct (peak_ex obs No) as (pk & Epk & Ppk). rewrite mean_value. specialize (Fo Hne).
    assert (Em : exists m2, bitwise_model_mean Rops pack m1 [] (length obs / 8) s = Ok (m2, [])).
    { unfold bitwise_model_mean in Fo |- *. destruct (unpack_structure true (length obs / 8) s) as [[[b n] t]|]; cbn [bind value_of] in Fo; [|discriminate]. cbn [bind].
      destruct (mean_loop Rops pack b 0 n t (m1, repeat false (length obs / 8 * 8))) as [[m2 pic]|]; cbn [bind value_of] in Fo; [|discriminate]. eexists. reflexivity. }
    assert (Lp : length picture = 8 * (length obs / 8)).
    { unfold value_of in Fo. destruct (bitwise_model_mean Rops pack m1 (map Z.of_nat (seq 0 (8 * (length obs / 8)))) (length obs / 8) s) as [[m3 pic]|] eqn:Eb; [|discriminate]. inversion Fo; subst pic.
      unfold bitwise_model_mean in Eb. destruct (unpack_structure true (length obs / 8) s) as [[[b n] t]|]; cbn [bind] in Eb; [|discriminate].
      destruct (mean_loop Rops pack b 0 n t (m1, repeat false (length obs / 8 * 8))) as [[m4 pic]|]; cbn [bind] in Eb; [|discriminate]. match type of Eb with (do! _ <- ?t in _) = _ => destruct t eqn:Er end; cbn [bind] in Eb; [|discriminate].
      inversion Eb; subst. apply map_res_length in Er. rewrite map_length, seq_length in Er. exact Er. }
    destruct Em as (m2 & Em). change (F Rops) with R in *. rewrite Em, Fo. cbn [bind fst].
    assert (Er : map_res (index_z picture) (map Z.of_nat forced) = Ok (map (fun p => nth p picture false) forced)).
    { clear - Bd Lp. revert Bd. generalize forced as ks. induction ks as [|k ks IH]; intro H; [reflexivity|]. cbn [map map_res]. rewrite (index_z_ok picture (Z.of_nat k) k false) by (auto; rewrite Lp; apply H; left; reflexivity).
      cbn [bind]. rewrite IH by (intros; apply H; right; auto). reflexivity. }
    rewrite Er. cbn [bind]. assert (Epk' : pymax Rops (map (fabs Rops) obs) = Ok pk) by exact Epk. change (F Rops) with R in *. rewrite Epk'. cbn [bind]. rewrite map_map.
    destruct (put_map l0 forced (fun p => fmul Rops (fmul Rops (fz Rops (if nth p picture false then -1 else 1)) pk) (if flt Rops vf (fz Rops 1) then fz Rops 1 else vf)) 0%R) as (l3 & E3 & L3 & N3 & N3').
    { apply sorted_lt_nodup. exact St. }
    { apply Forall_forall. intros p Hp. specialize (Bd p Hp). lia. }
    change (F Rops) with R in *. exists m2, l3. split; [rewrite E3; reflexivity|]. split; [lia|]. split; [|exact N3'].
    intros p Hp pk' Ppk'. assert (pk' = pk) by (eapply largest_unique; [exact Ppk'|exact Ppk]). subst pk'. rewrite N3 by exact Hp. cbn [fmul fz flt Rops].
    assert (Emx : (if Rltb vf 1 then 1%R else vf) = Rmax vf 1). { unfold Rltb, Rmax. destruct (Rlt_dec vf 1), (Rle_dec vf 1); lra. } change (F Rops) with R in *; rewrite <- Emx; destruct (nth p picture false); reflexivity.
Qed.

Lemma around_unit p : (0 <= p <= 1)%R -> negb (Z.eqb (Rround p) 0) = Z.eqb (rounded p) 1.
Proof.
  intro H. unfold rounded. destruct (Rlt_dec (1 / 2) p) as [K|K].
  - assert (E : Rround p = 1%Z) by (apply Rround_iff; left; unfold Rabs; destruct (Rcase_abs _); lra). rewrite E. reflexivity.
  - assert (E : Rround p = 0%Z); [|rewrite E; reflexivity]. apply Rround_iff. destruct (Req_dec p (1/2)) as [Q|Q]; [right; split; [unfold Rabs; destruct (Rcase_abs _); lra|exists 0%Z; reflexivity]|left; unfold Rabs; destruct (Rcase_abs _); lra].
Qed.
Lemma nth_combine {A B} (l : list A) (l' : list B) i a b : length l = length l' -> nth i (combine l l') (a, b) = (nth i l a, nth i l' b).
Proof. intro. apply combine_nth. assumption. Qed.

(** The weights. *)
Lemma scale_low_spec (c : co_conf Rops) (flip : bool) m ps (vb : list (option R)) (vf inf : R) (obs : list R) : let n := co_length c in
  holds m ps -> Forall (fun b => b <> []) (em_data m) -> Forall (fun p => (0 <= p <= 1)%R) ps -> n <= length vb -> n <= length obs ->
  ((rc_center (md_rect (co_md c)) < INR (length (em_data m)))%R -> length ps = n /\ 1 <= n) ->
  let rc := md_rect (co_md c) in let inv := (inf * (if flip then -1 else 1))%R in
  exists good bad l, scale_low Rops c flip m (map (above Rops (1 - rc_valid_thr rc)%R) vb) (map (below Rops (rc_invalid_thr rc)) vb) vf inf obs = Ok (good, bad, l) /\ length l = length obs /\
    forall p, p < length obs ->
      ((rc_center rc < INR (length (em_data m)))%R -> structural (co_threshold c) ps p ->
         nth p l 0%R = (nth p obs 0 * unified_weight (rc_valid_thr rc) (rc_invalid_thr rc) vf inv (nth p vb None) (rounded (nth p ps 0)) (sign_bit (nth p obs 0)))%R) /\
      (~ ((rc_center rc < INR (length (em_data m)))%R /\ structural (co_threshold c) ps p) -> nth p l 0%R = nth p obs 0%R).
Proof.
  intros n Hh Hd Hr Lv Lo Hc rc inv. unfold scale_low. rewrite (em_size_length _ Hd). change (F Rops) with R in *. cbn [flt fz Rops]. rewrite <- INR_IZR_INZ. fold rc. fold rc in Hc.
  destruct (Rltb (rc_center rc) (INR (length (em_data m)))) eqn:Eq.
  2:{ assert (~ (rc_center rc < INR (length (em_data m)))%R) by (intro K; apply Rltb_spec in K; congruence). eexists _, _, _. split; [reflexivity|]. split; [reflexivity|]. intros p Hp. split; [contradiction|reflexivity]. }
  apply Rltb_spec in Eq. destruct (Hc Eq) as [Lps H1n]. rewrite (holds_low _ ps _ Hh). set (low := low_mask (co_threshold c) ps).
  assert (Ll : length low = n) by (unfold low, low_mask; rewrite map_length; exact Lps).
  assert (Hk : knows m ps) by (destruct Hh as [[-> _]|[_ K]]; [cbn in Lps; lia|exact K]). destruct Hk as (Kc & Kr & _).
  set (g := map (above Rops (1 - rc_valid_thr rc)%R) vb). set (b := map (below Rops (rc_invalid_thr rc)) vb).
  assert (Lg : length (firstn (co_length c) g) = n) by (rewrite firstn_length; unfold g; rewrite map_length; fold n; change (F Rops) with R in *; lia).
  assert (Lb : length (firstn (co_length c) b) = n) by (rewrite firstn_length; unfold b; rewrite map_length; fold n; change (F Rops) with R in *; lia).
  change (F Rops) with R in *. fold g b. rewrite (broadcast_same andb (firstn (co_length c) g) low) by lia. cbn [bind]. set (good := map _ (combine (firstn (co_length c) g) low)).
  assert (Lgood : length good = n) by (unfold good; rewrite map_length, combine_length; lia).
  destruct (scale_where_spec good vf obs) as (l1 & E1 & L1 & N1); [rewrite Lgood; exact Lo|]. change (F Rops) with R in *. rewrite E1. cbn [bind].
  rewrite (broadcast_same andb (firstn (co_length c) b) low) by lia. cbn [bind]. set (bad0 := map _ (combine (firstn (co_length c) b) low)).
  unfold column. rewrite Kc. cbn [Nat.ltb Nat.leb bind]. rewrite Kr, map_map. cbn [nth].
  assert (Er : map_res (fround Rops) (map (fun x : R => x) ps) = Ok (map Rround ps)) by (rewrite map_id; apply InfoP.map_res_ok; reflexivity). change (F Rops) with R in *. rewrite Er. cbn [bind].
  set (est := map (fun z => negb (Z.eqb z 0)) (map Rround ps)). set (rx := firstn (co_length c) (map (fun x => Rltb x 0) obs)).
  assert (Lest : length est = n) by (unfold est; rewrite !map_length; exact Lps). assert (Lrx : length rx = n) by (unfold rx; rewrite firstn_length, map_length; fold n; lia).
  rewrite (broadcast_same xorb est rx) by lia. cbn [bind]. set (wrong := map _ (combine est rx)). assert (Lw : length wrong = n) by (unfold wrong; rewrite map_length, combine_length; lia).
  assert (Lbad0 : length bad0 = n) by (unfold bad0; rewrite map_length, combine_length; lia).
  rewrite (broadcast_same andb wrong bad0) by lia. cbn [bind]. set (bad := map _ (combine wrong bad0)). assert (Lbad : length bad = n) by (unfold bad; rewrite map_length, combine_length; lia).
  cbn [fmul fz Rops]. assert (Einv : (inf * IZR (if flip then -1 else 1))%R = inv) by (unfold inv; destruct flip; reflexivity). change (F Rops) with R in *. rewrite Einv.
  destruct (scale_where_spec bad inv l1) as (l2 & E2 & L2 & N2); [rewrite Lbad; change (F Rops) with R in *; rewrite L1; exact Lo|]. change (F Rops) with R in *. rewrite E2. cbn [bind]. exists good, bad, l2. split; [reflexivity|]. split; [lia|].
  assert (Vg : forall p, p < n -> nth p good false = (above Rops (1 - rc_valid_thr rc)%R (nth p vb None) && nth p low false)%bool).
  { intros p Hp. unfold good. rewrite nth_map_lt with (d' := (false, false)) by (rewrite combine_length; lia). rewrite combine_nth by lia. cbn [fst snd]. f_equal. rewrite nth_firstn by (unfold n in *; lia).
    unfold g. rewrite nth_map_lt with (d' := @None R) by (change (F Rops) with R in *; lia). reflexivity. }
  assert (Vb : forall p, p < n -> nth p bad false = (xorb (nth p est false) (nth p rx false) && (below Rops (rc_invalid_thr rc) (nth p vb None) && nth p low false))%bool).
  { intros p Hp. unfold bad. rewrite nth_map_lt with (d' := (false, false)) by (rewrite combine_length; lia). rewrite combine_nth by lia. cbn [fst snd]. f_equal.
    - unfold wrong. rewrite nth_map_lt with (d' := (false, false)) by (rewrite combine_length; lia). rewrite combine_nth by lia. reflexivity.
    - unfold bad0. rewrite nth_map_lt with (d' := (false, false)) by (rewrite combine_length; lia). rewrite combine_nth by lia. cbn [fst snd]. f_equal. rewrite nth_firstn by (unfold n in *; lia).
      unfold b. rewrite nth_map_lt with (d' := @None R) by (change (F Rops) with R in *; lia). reflexivity. }
  intros p Hp. rewrite N2 by lia. rewrite N1 by exact Hp. split.
  - intros _ Hs. assert (Hpn : p < n) by (destruct Hs; lia). rewrite Vg, Vb by exact Hpn. assert (El : nth p low false = true) by (apply low_mask_nth; exact Hs). rewrite El, !andb_true_r.
    assert (Ee : nth p est false = Z.eqb (rounded (nth p ps 0%R)) 1).
    { unfold est. rewrite nth_map_lt with (d' := 0%Z) by (rewrite map_length; lia). rewrite nth_map_lt with (d' := 0%R) by lia. apply around_unit. rewrite Forall_forall in Hr. apply Hr. apply nth_In. lia. }
    assert (Ex : nth p rx false = Z.eqb (sign_bit (nth p obs 0%R)) 1).
    { unfold rx. rewrite nth_firstn by (unfold n in *; lia). rewrite nth_map_lt with (d' := 0%R) by exact Hp. unfold Rltb, sign_bit. destruct (Rlt_dec (nth p obs 0%R) 0); reflexivity. }
    rewrite Ee, Ex. assert (Xo : xorb (Z.eqb (rounded (nth p ps 0%R)) 1) (Z.eqb (sign_bit (nth p obs 0%R)) 1) = if Z.eq_dec (rounded (nth p ps 0%R)) (sign_bit (nth p obs 0%R)) then false else true).
    { unfold rounded, sign_bit. destruct (Rlt_dec (1 / 2) (nth p ps 0%R)), (Rlt_dec (nth p obs 0%R) 0); reflexivity. }
    rewrite Xo. unfold unified_weight. destruct (nth p vb None) as [x|]; cbn [above below flt Rops]; [|rewrite andb_false_r; change (F Rops) with R in *; ring].
    unfold Rltb. destruct (Z.eq_dec _ _); cbn [andb]; destruct (Rlt_dec (1 - rc_valid_thr rc) x), (Rlt_dec x (rc_invalid_thr rc)); change (F Rops) with R in *; ring.
  - intro Hn. assert (Hs : ~ structural (co_threshold c) ps p) by tauto. destruct (Nat.lt_ge_cases p n) as [Hpn|Hpn].
    + rewrite Vg, Vb by exact Hpn. destruct (nth p low false) eqn:El; [exfalso; apply Hs, low_mask_nth; exact El|]. rewrite !andb_false_r. reflexivity.
    + rewrite !nth_overflow by lia. reflexivity.
Qed.

Lemma decided_spec (c : co_conf Rops) vb sd p : length vb = length sd -> In p (forced_unified Rops c vb sd) <-> decided (rc_learning (md_rect (co_md c))) (nth p vb None) (nth p sd None).
Proof.
  intro L. unfold forced_unified, decided. destruct (rc_learning (md_rect (co_md c))); [apply forced_in; exact L|]. rewrite flatnonzero_in. change (F Rops) with R in *. destruct (Nat.lt_ge_cases p (length sd)) as [H|H].
  - rewrite nth_map_lt with (d' := @None R) by exact H. destruct (nth p sd None) as [d|]; cbn [equals feq fz Rops]; [|split; discriminate]. rewrite Reqb_spec. split; [intros ->; reflexivity|intro Q; inversion Q; reflexivity].
  - rewrite !nth_overflow by (rewrite ?map_length; exact H). split; discriminate.
Qed.
Lemma decided_sorted (c : co_conf Rops) vb sd : StronglySorted lt (forced_unified Rops c vb sd).
Proof. unfold forced_unified, forced_wrong. destruct (rc_learning (md_rect (co_md c))); apply flatnonzero_sorted. Qed.
Lemma decided_bound (c : co_conf Rops) vb sd p : length vb = length sd -> In p (forced_unified Rops c vb sd) -> p < length sd.
Proof.
  intros L H. apply decided_spec in H; [|exact L]. unfold decided in H. destruct (Nat.lt_ge_cases p (length sd)); [assumption|]. rewrite !nth_overflow in H by lia. destruct (rc_learning _); [destruct H as (x & Q & _); discriminate|discriminate].
Qed.

Lemma unified_spec text pack erf info (c : co_conf Rops) flip em ps m s (obs : list R) m1 vf vb sd picture : let rc := md_rect (co_md c) in
  predict Rops erf m (BBits (received_bits obs)) s = Ok (m1, vf, vb, sd) -> Forall (fun e => e <> None) vf -> informative (length obs) info ->
  ((exists p, decided (rc_learning rc) (nth p vb None) (nth p sd None)) ->
     value_of (bitwise_model_mean Rops pack m1 (map Z.of_nat (seq 0 (8 * (length obs / 8)))) (length obs / 8) s) = Ok picture) ->
  1 <= co_length c <= 8 * (length obs / 8) -> sound c em -> holds em ps -> ((rc_center rc < INR (length (em_data em)))%R -> ps <> []) ->
  exists m' p w, rectify Rops pack erf (decode text) info rc (scale_low Rops c flip em) (forced_unified Rops c) m (Some s) obs = Ok (m', p) /\
    unified c flip (length (em_data em)) ps (bm_size Rops m1) vb sd picture obs w /\ reinforced text info (approached rc (rc_valid_factor rc) (bm_size Rops m1)) obs w (pr_llr p) (pr_segmented p) /\
    fields_with (fun v => (1 - rc_valid_thr rc < v)%R) vf (pr_good_fields p) /\ fields_with (fun v => (v < rc_invalid_thr rc)%R) vf (pr_bad_fields p) /\ pr_fields p = length vf /\
    exists forced, pr_forced p = Some forced /\ StronglySorted lt forced /\ forall i, In i forced <-> decided (rc_learning rc) (nth i vb None) (nth i sd None).
Proof.
  intros rc Ep Hf I Fo Hl So Hh Hc. unfold rectify. rewrite hard_bits. change (F Rops) with R in *. rewrite Ep. cbn [bind fsub fz Rops].
  destruct (fields_where_spec (above Rops (1 - rc_valid_thr rc)%R) (fun v => (1 - rc_valid_thr rc < v)%R) vf) as (gf & Eg & Hg); [intro v; cbn; apply Rltb_spec|exact Hf|].
  destruct (fields_where_spec (below Rops (rc_invalid_thr rc)) (fun v => (v < rc_invalid_thr rc)%R) vf) as (bf & Ebf & Hbf); [intro v; cbn; apply Rltb_spec|exact Hf|].
  change (F Rops) with R in *. rewrite Eg. cbn [bind]. rewrite Ebf. cbn [bind]. destruct (predict_lengths _ _ _ _ _ _ _ _ _ Ep) as [Lv Ls]. assert (Lr : length (received_bits obs) = length obs) by apply map_length. change (F Rops) with R in *. rewrite Lr in Lv, Ls.
  assert (Ln : 8 * (length obs / 8) <= length obs) by (pose proof (Nat.mul_div_le (length obs) 8); lia). assert (Lvs : length vb = length sd) by lia.
  assert (Ea : forall f, factor_of Rops rc f (bm_size Rops m1) = approached rc f (bm_size Rops m1)).
  { intro f. unfold factor_of, approached. rewrite confidence_R. destruct (rc_learning rc); [|reflexivity]. cbn [fadd fmul fsub fz Rops]. lra. }
  rewrite !Ea. set (vf0 := approached rc (rc_valid_factor rc) (bm_size Rops m1)). set (iv := approached rc (rc_invalid_factor rc) (bm_size Rops m1)).
  destruct So as (Hb & _ & ps' & Hh' & Hl' & Hr'). assert (Eps : ps' = ps).
  { destruct Hh as [[-> A]|[A (B1 & B2 & B3)]], Hh' as [[-> A']|[A' (B1' & B2' & B3')]]; [reflexivity| | |].
    - rewrite B3' in A. destruct ps'; [contradiction|discriminate].
    - rewrite B3 in A'. destruct ps; [contradiction|discriminate].
    - rewrite B2 in B2'. clear - B2'. revert ps' B2'. induction ps as [|x ps IH]; intros [|y ps'] Q; cbn [map] in Q; try discriminate; [reflexivity|]. assert (x = y) by (inversion Q; reflexivity). subst y. f_equal. apply IH. inversion Q. reflexivity. }
  subst ps'. destruct (scale_low_spec c flip em ps vb vf0 iv obs) as (good & bad & l0 & Es & L0 & W); try assumption; try lia.
  { rewrite Forall_forall in Hb |- *. intros b0 Hb0 ->. destruct (Hb [] Hb0) as [Q _]. cbn in Q. lia. }
  { intro Q. destruct Hl' as [->|Hl']; [exfalso; apply Hc; [exact Q|reflexivity]|]. split; [exact Hl'|lia]. }
  fold rc in Es, W. change (F Rops) with R in *. rewrite Es. cbn [bind].
  destruct (force_spec pack m1 s vf0 (forced_unified Rops c vb sd) obs l0 picture) as (m2 & l & Ef & Ll & F1 & F2).
  { apply decided_sorted. } { apply Forall_forall. intros p Hp. apply decided_bound in Hp; [|exact Lvs]. change (F Rops) with R in *. rewrite <- Ls. exact Hp. } { exact L0. }
  { intro Hne. apply Fo. destruct (forced_unified Rops c vb sd) as [|f0 ft] eqn:Q; [contradiction|]. exists f0. apply decided_spec; [exact Lvs|]. rewrite Q. left. reflexivity. }
  change (F Rops) with R in *. rewrite Ef. cbn [bind].
  destruct (confirm_spec text info vf0 obs l Ll I) as (out & v & seg & E3 & Lo & E4 & Re). change (F Rops) with R in *. rewrite E3. cbn [bind]. rewrite E4. cbn [bind].
  eexists m2, _, l. split; [reflexivity|]. cbn [pr_llr pr_segmented pr_good pr_bad pr_good_fields pr_bad_fields pr_fields pr_forced].
  split; [|split; [exact Re|split; [exact Hg|split; [exact Hbf|split; [reflexivity|]]]]].
  - split; [exact Ll|]. intros p Hp. split.
    + intros Hd pk Hpk. apply F1; [apply decided_spec; assumption|exact Hpk].
    + intro Hd. rewrite F2 by (intro Q; apply Hd, decided_spec; assumption). apply W. exact Hp.
  - eexists. split; [reflexivity|]. split; [apply decided_sorted|]. intro i. apply decided_spec. exact Lvs.
Qed.

(** Only under these conditions. *)
Lemma unified_inv text pack erf info (c : co_conf Rops) flip em ps m s (obs : list R) m' p : let rc := md_rect (co_md c) in
  rectify Rops pack erf (decode text) info rc (scale_low Rops c flip em) (forced_unified Rops c) m (Some s) obs = Ok (m', p) ->
  2 <= co_length c <= 8 * (length obs / 8) -> sound c em -> holds em ps ->
  exists m1 vf vb sd picture, predict Rops erf m (BBits (received_bits obs)) s = Ok (m1, vf, vb, sd) /\ Forall (fun e => e <> None) vf /\
    ((exists p, decided (rc_learning rc) (nth p vb None) (nth p sd None)) ->
       value_of (bitwise_model_mean Rops pack m1 (map Z.of_nat (seq 0 (8 * (length obs / 8)))) (length obs / 8) s) = Ok picture) /\
    ((rc_center rc < INR (length (em_data em)))%R -> ps <> []).
Proof.
  intros rc E H2 So Hh. unfold rectify in E. rewrite hard_bits in E. change (F Rops) with R in *. destruct (predict Rops erf m (BBits (received_bits obs)) s) as [[[[m1 vf] vb] sd]|] eqn:Ep; cbn [bind] in E; [|discriminate].
  match type of E with (do! _ <- ?t in _) = _ => destruct t as [gf|] eqn:Eg end; cbn [bind] in E; [|discriminate]. apply fields_where_known in Eg.
  match type of E with (do! _ <- ?t in _) = _ => destruct t as [bf|] eqn:Eb end; cbn [bind] in E; [|discriminate].
  match type of E with (do! _ <- ?t in _) = _ => destruct t as [[[good bad] l]|] eqn:Es end; cbn [bind] in E; [|discriminate].
  match type of E with (do! _ <- ?t in _) = _ => destruct t as [[m2 l2]|] eqn:Ef end; cbn [bind] in E; [|discriminate].
  destruct (predict_lengths _ _ _ _ _ _ _ _ _ Ep) as [Lv Ls]. assert (Lr : length (received_bits obs) = length obs) by apply map_length. change (F Rops) with R in *. rewrite Lr in Lv, Ls.
  assert (Lvs : length vb = length sd) by lia.
  assert (Hne : (rc_center rc < INR (length (em_data em)))%R -> ps <> []).
  { intros Hc ->. destruct Hh as [[_ Hh]|[Q _]]; [|contradiction]. unfold scale_low in Es. destruct So as (Hb & _). rewrite em_size_length in Es by (rewrite Forall_forall in Hb |- *; intros b0 Hb0 ->; destruct (Hb [] Hb0) as [Q _]; cbn in Q; lia).
    change (F Rops) with R in *. cbn [flt fz Rops] in Es. rewrite <- INR_IZR_INZ in Es. fold rc in Es. apply Rltb_spec in Hc. rewrite Hc in Es. unfold low_entropy in Es. change (F Rops) with R in *. rewrite Hh in Es. cbn [map] in Es.
    rewrite broadcast_error in Es; [discriminate| | |]; rewrite ?firstn_length, ?map_length; cbn [length]; change (F Rops) with R in *; lia. }
  destruct (forced_unified Rops c vb sd) as [|f0 ft] eqn:Efw.
  - exists m1, vf, vb, sd, []. split; [reflexivity|]. split; [exact Eg|]. split; [|exact Hne]. intros (q & Hq). apply decided_spec in Hq; [|exact Lvs]. rewrite Efw in Hq. destruct Hq.
  - unfold force in Ef. rewrite mean_value in Ef. change (F Rops) with R in *. destruct (bitwise_model_mean Rops pack m1 [] (length obs / 8) s) as [r|]; cbn [bind] in Ef; [|discriminate].
    destruct (value_of (bitwise_model_mean Rops pack m1 (map Z.of_nat (seq 0 (8 * (length obs / 8)))) (length obs / 8) s)) as [picture|] eqn:Ev; cbn [bind] in Ef; [|discriminate].
    exists m1, vf, vb, sd, picture. split; [reflexivity|]. split; [exact Eg|]. split; [intros _; exact Ev|exact Hne].
Qed.

(** The indices of the model bits of a new decoder. *)
Lemma count_filter (info : list bool) : length (filter (fun b => b) info) = count_occ Bool.bool_dec info true.
Proof. induction info as [|b t IH]; [reflexivity|]. cbn [filter count_occ]. destruct b; destruct (Bool.bool_dec _ _); try congruence. cbn [length]. f_equal. exact IH. Qed.
Lemma index_fits info ml len : 1 <= ml ->
  (length (model_index' info ml) = ml /\ NoDup (model_index' info ml) /\ Forall (fun i => i < len) (model_index' info ml) <->
   ml <= len /\ (count_occ Bool.bool_dec info true <= ml \/ forall i, i < ml -> nth i info false = true)).
Proof.
  intro H1. unfold model_index'. rewrite count_filter. destruct (Nat.leb_spec (count_occ Bool.bool_dec info true) ml) as [H|H].
  - split.
    + intros (_ & _ & Q). split; [|left; exact H]. rewrite Forall_forall in Q. specialize (Q (ml - 1)). assert (ml - 1 < len) by (apply Q; apply in_seq; lia). lia.
    + intros (Q & _). split; [apply seq_length|]. split; [apply seq_NoDup|]. apply Forall_forall. intros i Hi. apply in_seq in Hi. lia.
  - destruct (model_index_positions info ml) as [St In_]. assert (N : NoDup (model_index info ml)) by (apply sorted_lt_nodup; exact St).
    assert (I1 : incl (model_index info ml) (seq 0 ml)) by (intros i Hi; apply In_ in Hi; apply in_seq; lia). split.
    + intros (L & _ & Q). assert (I2 : incl (seq 0 ml) (model_index info ml)) by (apply NoDup_length_incl; [exact N|rewrite seq_length; lia|exact I1]).
      split; [|right; intros i Hi; apply In_; apply I2; apply in_seq; lia]. rewrite Forall_forall in Q. assert (ml - 1 < len) by (apply Q, I2, in_seq; lia). lia.
    + intros (Q & [A|A]); [lia|]. assert (I2 : incl (seq 0 ml) (model_index info ml)) by (intros i Hi; apply in_seq in Hi; apply In_; split; [lia|apply A; lia]).
      pose proof (NoDup_incl_length N I1). pose proof (NoDup_incl_length (seq_NoDup ml 0) I2). rewrite seq_length in *. split; [lia|]. split; [exact N|]. apply Forall_forall. intros i Hi. apply In_ in Hi. lia.
Qed.
Lemma co_new_well unified_ info_idx n ml vt it k vf inf th cl ct clu w dm ce sl db bf c s : co_new Rops unified_ info_idx n ml vt it k vf inf th cl ct clu w dm ce sl db bf = (c, s) -> co_well c s.
Proof.
  intro E. inversion E; subst. split; [|split; [apply repeat_length|]].
  - pose proof (new_well Rops info_idx n ml vt it k vf inf ct clu w dm ce sl db 1) as W. exact W.
  - apply Forall_forall. intros m Hm. apply repeat_spec in Hm. subst m. split; [constructor|]. split; [cbn; rewrite kept_nil; reflexivity|]. exists []. split; [left; split; reflexivity|]. split; [left; reflexivity|constructor].
Qed.

Section Call2.
Variables (pack : R -> res N) (erf : R -> R) (kl : list R -> list R -> R) (text : bytes -> bytes) (info : list Z -> res bytes) (c : co_conf Rops).
Context {X : Type}.
Variable ldpc : list R -> res (list Z * list R * bool * Z * X).
(** The model bits must be as many as the bits of the model. *)
Lemma decode_aligned s word errs s' a label em ps : co_well c s -> co_decode Rops pack erf kl (decode text) info c ldpc s word errs = (s', Ok (a, label)) -> (0 <= label)%Z ->
  nth_error (co_entropies s) (Z.to_nat label) = Some em -> holds em ps -> ps <> [] -> length (md_idx (co_md c)) = co_length c.
Proof.
  intros ((W & K) & Le & So) E Hl He Hh Hne. unfold co_decode in E. destruct (md_label Rops kl (co_md c) (co_fields s) (hard Rops word)) as [f lab] eqn:El.
  destruct lab as [l|e]; [|discriminate]. destruct (Z.ltb_spec l 0%Z) as [Hl0|Hl0].
  { match type of E with (let '(_, _) := ?t in _) = _ => destruct t as [s1 r1] end. change (F Rops) with R in *. destruct r1; cbn [bind] in E; [|discriminate]. inversion E; subst. lia. }
  match type of E with (let '(_, _) := ?t in _) = _ => destruct t as [s1 p] eqn:Ep end. change (F Rops) with R in *. destruct p as [p|]; [|discriminate].
  assert (Es : co_entropies s1 = co_entropies s).
  { unfold co_predict in Ep. match type of Ep with context [match ?t with Ok _ => _ | Err _ => _ end] => destruct t as [[m1 p1]|] end; inversion Ep; reflexivity. }
  match type of E with context [match ?t with Ok _ => _ | Err _ => _ end] => destruct t as [input|] eqn:Ei end; [|discriminate].
  match type of E with (let '(_, _) := ?t in _) = _ => destruct t as [s2 r] eqn:Eu end. change (F Rops) with R in *. destruct r as [a0|]; cbn [bind] in E; [|discriminate]. inversion E; subst s2 a0 l. clear E.
  match type of Ei with (do! _ <- ?t in _) = _ => destruct t as [[]|] end; cbn [bind] in Ei; [|discriminate]. rewrite Es in Ei. rewrite (proj2 (index_label _ _ em Hl) He) in Ei. cbn [bind] in Ei. unfold co_add, co_opinion in Ei.
  rewrite (holds_low _ ps _ Hh) in Ei. rewrite Forall_forall in So. destruct (So em (nth_error_In _ _ He)) as (_ & _ & ps' & Hh' & Hl' & _). pose proof (holds_length em ps ps' Hh Hh') as Lps.
  assert (Lc : length ps = co_length c) by (destruct Hl' as [->|Q]; [destruct ps; [contradiction|discriminate]|congruence]).
  destruct (Nat.eq_dec (length (low_mask (co_threshold c) ps)) (length (md_idx (co_md c)))) as [Q|Q]; [unfold low_mask in Q; rewrite map_length in Q; congruence|].
  rewrite (mask_index_bad (md_idx (co_md c)) (low_mask (co_threshold c) ps)) in Ei; [discriminate|exact Q|]. intro Z0. apply (f_equal (@length _)) in Z0. unfold low_mask in Z0. rewrite map_length in Z0. destruct ps; [contradiction|discriminate].
Qed.
End Call2.
