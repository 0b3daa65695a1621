(** Numerical facts about the field statistics, over the real numbers. *)
From Coq Require Import String Ascii List NArith ZArith Bool Lia ZifyBool ZifyNat ZifyN Arith Reals Lra.
From Verif.Model Require Import Py Float Dialect ProtocolMeta Struct Crc Mavlink Segmentation StatModels.
From Verif.Spec Require Import Bytes Bits Header Frame Segment Describe RealOps Stats.
From Verif.Proofs Require Import Base BitOpsP DialectP HeaderP HeaderMore StructP CrcP MavlinkP FieldsP PackP RealP StatP LayoutP ValuesP BufModelP PredictP MeanP.
Import ListNotations.
Local Open Scope R_scope.

Lemma wire_integer_fun ty x z : wire_integer ty x z <->
  (if (negb (c_signed ty) && negb (fle Rops (fz Rops 0) x))%bool then Ok 0%Z else fround Rops x) = Ok z.
Proof.
  unfold wire_integer. cbn [fle fz fround Rops]. destruct (c_signed ty) eqn:S; cbn [negb andb].
  - rewrite Rround_iff. split; [intros [[? _]|[_ ->]]; [discriminate|reflexivity]|intros E; right; split; auto; congruence].
  - destruct (Rleb 0 x) eqn:L; cbn [negb].
    + apply Rleb_spec in L. rewrite Rround_iff. split; [intros [(_ & H & _)|[_ ->]]; [lra|reflexivity]|intros E; right; split; auto; congruence].
    + apply Rleb_false in L. split; [intros [(_ & _ & ->)|[[?|?] _]]; [reflexivity|discriminate|lra]|intros E; left; split; auto; split; auto; congruence].
Qed.

Lemma num2bits_R pack ty sz x z : integer_type ty sz -> wire_integer ty x z ->
  (forall bits, num2bits Rops pack (NNum (FO := Rops) x) ty = Ok bits <->
     c_ok ty (VInt z) /\ exists b, is_bytes b /\ length b = sz /\ c_scalar ty b = VInt z /\ length bits = (8 * sz)%nat /\
       forall p, (p < 8 * sz)%nat -> nth p bits false = bit_of b p) /\
  (num2bits Rops pack (NNum (FO := Rops) x) ty = Err StructError <-> ~ c_ok ty (VInt z)).
Proof.
  intros I W. apply wire_integer_fun in W. destruct (num2bits_int Rops pack ty sz x z I W) as [A B]. split; [|exact B].
  intros bits. rewrite (A bits). split.
  - intros [C (b & Hb & L & E & ->)]. split; auto. exists b. split; auto. split; auto. split; auto.
    split; [rewrite length_bytes_bits; lia|]. intros p Hp. apply nth_bytes_bits. lia.
  - intros [C (b & Hb & L & E & Lb & N)]. split; auto. exists b. repeat split; auto.
    apply bits_eq; [lia|]. intros p Hp. apply N. lia.
Qed.

Lemma wire_integer_total ty x : exists z, wire_integer ty x z.
Proof.
  destruct (c_signed ty) eqn:S; [exists (Rround x); right; split; auto; apply Rround_spec|].
  destruct (Rlt_le_dec x 0); [exists 0%Z; left; auto|exists (Rround x); right; split; auto; apply Rround_spec].
Qed.

Lemma sample_num_R v x : is_number v x <-> sample_num Rops v = Ok x.
Proof.
  split.
  - intros [z|p F]; cbn; auto. rewrite F. reflexivity.
  - destruct v as [z|p|b]; cbn; try discriminate.
    + intros E. assert (x = IZR z) by congruence. subst. constructor.
    + destruct (f32_finite _) eqn:F; [|discriminate]. intros E. assert (x = f32_real p) by congruence. subst. constructor; auto.
Qed.

Lemma numbers_R l xs : Forall2 is_number l xs <-> map_res (sample_num Rops) l = Ok xs.
Proof.
  revert xs. induction l as [|v l IH]; intros xs.
  - cbn [map_res]. split; [intros H; inversion H; reflexivity|intros E; inversion E; subst; constructor].
  - cbn [map_res]. split.
    + intros H. inversion H as [|? x ? t A B]; subst. apply sample_num_R in A. rewrite A. cbn [bind]. apply IH in B. rewrite B. reflexivity.
    + destruct (sample_num Rops v) as [x|e] eqn:A; cbn [bind]; [|discriminate].
      destruct (map_res (sample_num Rops) l) as [t|e] eqn:B; cbn [bind]; [|discriminate].
      intros E. inversion E; subst. constructor; [apply sample_num_R; auto|apply IH; auto].
Qed.

Lemma fmean_R xs : fmean Rops xs = mean_of xs.
Proof. unfold fmean, mean_of. rewrite fsum_R. cbn [fdiv fz Rops]. rewrite <- INR_IZR_INZ. reflexivity. Qed.

Lemma norm_fit_R l xs : Forall2 is_number l xs -> norm_fit Rops l = Ok (mean_of xs, std_of xs).
Proof.
  intros H. apply numbers_R in H. unfold norm_fit. rewrite H. cbn [bind]. rewrite !fmean_R. cbn [fsqrt fsub fmul Rops].
  unfold std_of. unfold mean_of at 2. rewrite map_length. reflexivity.
Qed.

Lemma stats_R l xs : l <> [] -> Forall2 is_number l xs -> stats_of Rops l = Ok (mean_of xs, std_of xs).
Proof. intros N H. destruct l; [contradiction|]. exact (norm_fit_R _ _ H). Qed.

Lemma stats_err pre v l xs : Forall2 is_number pre xs ->
  (forall p, v = VF32 p -> f32_finite p = false -> stats_of Rops (pre ++ v :: l) = Err ValueError) /\
  (forall b, v = VBytes b -> stats_of Rops (pre ++ v :: l) = Err TypeError).
Proof.
  intros H. assert (G : forall e, sample_num Rops v = Err e -> stats_of Rops (pre ++ v :: l) = Err e).
  { intros e E. unfold stats_of. destruct (pre ++ v :: l) eqn:P; [destruct pre; discriminate|]. rewrite <- P. unfold norm_fit.
    assert (M : map_res (sample_num Rops) (pre ++ v :: l) = Err e).
    { clear P. induction H as [|a x pre xs A B IH]; cbn [app map_res]; [rewrite E; reflexivity|].
      apply sample_num_R in A. rewrite A. cbn [bind]. rewrite IH. reflexivity. }
    rewrite M. reflexivity. }
  split; [intros p -> F|intros b ->]; apply G; cbn; [rewrite F|]; reflexivity.
Qed.

Lemma number_dec v : (exists x, is_number v x) \/ (exists p, v = VF32 p /\ f32_finite p = false) \/ (exists b, v = VBytes b).
Proof.
  destruct v as [z|p|b]; [left; eexists; constructor| |right; right; eauto].
  destruct (f32_finite p) eqn:F; [left; eexists; constructor; auto|right; left; eauto].
Qed.

Lemma numbers_or_first l : (exists xs, Forall2 is_number l xs) \/ (exists pre xs v t, l = pre ++ v :: t /\ Forall2 is_number pre xs /\ ~ exists x, is_number v x).
Proof.
  induction l as [|v l IH]; [left; exists []; constructor|].
  destruct (number_dec v) as [[x X]|B].
  - destruct IH as [[xs H]|(pre & xs & w & t & -> & H & N)]; [left; exists (x :: xs); constructor; auto|].
    right. exists (v :: pre), (x :: xs), w, t. repeat split; auto.
  - right. exists [], [], v, l. repeat split; [constructor|]. intros [x X].
    destruct B as [(p & -> & F)|(b & ->)]; inversion X; congruence.
Qed.

(** Spread of the samples. *)
Lemma INR_pos {A} (xs : list A) : xs <> [] -> 0 < INR (length xs).
Proof. intros N. destruct xs; [contradiction|]. apply lt_0_INR. cbn. lia. Qed.

Lemma mean_const x xs : xs <> [] -> Forall (fun y => y = x) xs -> mean_of xs = x.
Proof.
  intros N H. assert (E : Rsum xs = INR (length xs) * x).
  { clear N. induction H as [|y t -> B IH]; [cbn; lra|]. cbn [length Rsum fold_right]. rewrite S_INR.
    change (fold_right Rplus 0 t) with (Rsum t). rewrite IH. lra. }
  unfold mean_of. rewrite E. pose proof (INR_pos xs N). field. lra.
Qed.

Lemma std_nonneg xs : 0 <= std_of xs.
Proof. apply sqrt_pos. Qed.

Lemma sq_nonneg (x : R) : 0 <= x * x.
Proof. pose proof (Rle_0_sqr x). unfold Rsqr in *. lra. Qed.

Lemma Rsum_sq_nonneg xs m : Forall (fun y => 0 <= y) (map (fun x => (x - m) * (x - m)) xs).
Proof. induction xs; cbn; constructor; auto. apply sq_nonneg. Qed.

Lemma std_zero xs : xs <> [] -> (std_of xs = 0 <-> forall x y, In x xs -> In y xs -> x = y).
Proof.
  intros N. pose proof (INR_pos xs N) as P. split.
  - intros E. unfold std_of in E.
    assert (Z : Rsum (map (fun x => (x - mean_of xs) * (x - mean_of xs)) xs) = 0).
    { pose proof (Rsum_nonneg _ (Rsum_sq_nonneg xs (mean_of xs))) as NN.
      apply sqrt_eq_0 in E; [|apply Rmult_le_pos; [exact NN|left; apply Rinv_0_lt_compat; exact P]].
      apply (f_equal (fun r => r * INR (length xs))) in E. unfold Rdiv in E. rewrite Rmult_assoc, Rinv_l, Rmult_1_r in E by lra. lra. }
    apply Rsum_zero in Z; [|apply Rsum_sq_nonneg].
    rewrite Forall_forall in Z.
    assert (A : forall x, In x xs -> x = mean_of xs).
    { intros x I. specialize (Z ((x - mean_of xs) * (x - mean_of xs))).
      assert (Q : (x - mean_of xs) * (x - mean_of xs) = 0) by (apply Z; apply in_map_iff; eauto).
      apply Rmult_integral in Q. lra. }
    intros x y I J. rewrite (A x I), (A y J). reflexivity.
  - intros H. destruct xs as [|x t]; [contradiction|].
    assert (M : mean_of (x :: t) = x).
    { apply mean_const; auto. apply Forall_forall. intros y I. apply H; [exact I|left; reflexivity]. }
    unfold std_of. rewrite M.
    replace (Rsum (map (fun x0 => (x0 - x) * (x0 - x)) (x :: t))) with 0.
    + unfold Rdiv. rewrite Rmult_0_l. apply sqrt_0.
    + assert (G : forall l, (forall y, In y l -> y = x) -> 0 = Rsum (map (fun x0 => (x0 - x) * (x0 - x)) l)).
      { induction l as [|a l IH]; intros K; [reflexivity|]. cbn [map Rsum fold_right].
        change (fold_right Rplus 0 (map (fun x0 => (x0 - x) * (x0 - x)) l)) with (Rsum (map (fun x0 => (x0 - x) * (x0 - x)) l)).
        rewrite <- IH by (intros; apply K; right; auto). rewrite (K a) by (left; reflexivity). lra. }
      apply G. intros y I. apply H; [exact I|left; reflexivity].
Qed.

(** classify_value *)
Definition score (erf : R -> R) (mu sd y : R) : R :=
  if Rleb sd 0 then (if Reqb y mu then 1 else 0) else 1 - erf (Rabs (mu - y) / sd / sqrt 2).

Lemma value_number v y : is_number v y -> value_num Rops v = Some y.
Proof. intros [z|p F]; reflexivity. Qed.

Lemma verdict_R erf mu sd v y : is_number v y -> 0 <= sd -> verdict Rops erf (mu, sd) v = Ok (score erf mu sd y, sd).
Proof.
  intros N P. unfold verdict, score. rewrite (value_number _ _ N). cbn [fle fz feq fsub fdiv fabs fsqrt Rops fst snd].
  destruct (Rleb sd 0) eqn:L; [|reflexivity].
  apply Rleb_spec in L. assert (sd = 0) by lra. subst sd. destruct (Reqb y mu); reflexivity.
Qed.

Lemma score_facts erf mu sd : erf_like erf -> 0 <= sd ->
  (forall y, 0 <= score erf mu sd y <= 1) /\ score erf mu sd mu = 1 /\
  (forall y y', Rabs (y - mu) <= Rabs (y' - mu) -> score erf mu sd y' <= score erf mu sd y) /\
  (sd = 0 -> forall y, y <> mu -> score erf mu sd y = 0).
Proof.
  intros (E0 & EM & E1) P. unfold score. destruct (Rleb sd 0) eqn:L.
  - apply Rleb_spec in L. assert (sd = 0) by lra. subst sd. repeat split.
    + destruct (Reqb y mu); lra.
    + destruct (Reqb y mu); lra.
    + destruct (Reqb mu mu) eqn:Q; auto. apply Reqb_false in Q. lra.
    + intros y y' H. destruct (Reqb y' mu) eqn:Q'.
      * apply Reqb_spec in Q'. subst. destruct (Reqb y mu) eqn:Q; [lra|]. apply Reqb_false in Q. exfalso. apply Q.
        rewrite Rminus_eq_0, Rabs_R0 in H. pose proof (Rabs_pos (y - mu)).
        assert (A : Rabs (y - mu) = 0) by lra. destruct (Req_dec (y - mu) 0) as [|N]; [lra|]. apply Rabs_no_R0 in N. lra.
      * destruct (Reqb y mu); lra.
    + intros _ y N. apply Reqb_false in N. rewrite N. reflexivity.
  - apply Rleb_false in L.
    assert (S2 : 0 < sqrt 2) by (apply sqrt_lt_R0; lra).
    assert (Mono : forall a b, 0 <= a <= b -> 0 <= a / sd / sqrt 2 <= b / sd / sqrt 2).
    { intros a b H. assert (I1 : 0 < / sd) by (apply Rinv_0_lt_compat; lra). assert (I2 : 0 < / sqrt 2) by (apply Rinv_0_lt_compat; lra).
      unfold Rdiv. split.
      - apply Rmult_le_pos; [|lra]. apply Rmult_le_pos; lra.
      - apply Rmult_le_compat_r; [lra|]. apply Rmult_le_compat_r; lra. }
    repeat split.
    + pose proof (E1 (Rabs (mu - y) / sd / sqrt 2)). lra.
    + assert (A : 0 <= Rabs (mu - y)) by apply Rabs_pos.
      pose proof (EM 0 (Rabs (mu - y) / sd / sqrt 2)) as K. destruct (Mono 0 (Rabs (mu - y)) ltac:(lra)) as [_ M].
      unfold Rdiv in M. rewrite !Rmult_0_l in M. fold (Rdiv (Rabs (mu - y)) sd) in M. assert (Q := K (conj (Rle_refl 0) M)). unfold Rdiv in *. lra.
    + rewrite Rminus_eq_0, Rabs_R0. unfold Rdiv. rewrite !Rmult_0_l, E0. lra.
    + intros y y' H. rewrite (Rabs_minus_sym mu y), (Rabs_minus_sym mu y').
      pose proof (EM _ _ (Mono _ _ (conj (Rabs_pos (y - mu)) H))). lra.
    + intros Z. lra.
Qed.

(** Statistics after a history. *)
Lemma history_stats pack erf name ty w m h : fm_init Rops name ty w = Ok m -> window_ok w ->
  let m' := fm_run Rops pack erf m h in
  value_of (fm_get_mean Rops m') = (do! s <- stats_of Rops (windowed w (added h)) in Ok (fst s)) /\
  value_of (fm_get_std Rops m') = (do! s <- stats_of Rops (windowed w (added h)) in Ok (snd s)) /\
  value_of (fm_bitwise_mean Rops pack m') = (do! s <- stats_of Rops (windowed w (added h)) in num2bits Rops pack (NNum (FO := Rops) (fst s)) ty) /\
  forall v, value_of (fm_classify_value Rops erf m' v) = (do! s <- stats_of Rops (windowed w (added h)) in verdict Rops erf s v).
Proof.
  intros I W m'. destruct (history_spec Rops pack erf name ty w m h I W) as (C & S & E). fold m' in C, S, E.
  destruct (read_spec Rops pack m' C) as (A & B & D). destruct (fm_init_facts _ _ _ _ _ I) as (_ & _ & _ & T & _).
  destruct S as (_ & ST & _). rewrite E in A, B, D. rewrite <- ST, T in D.
  repeat split; auto. intros v. rewrite classify_spec by exact C. rewrite E. reflexivity.
Qed.

Local Close Scope R_scope.
(** Equal samples of an integer field give the bits that the field had. *)
Lemma mean_bits_equal pack w l m x b z : bm_inv Rops w l m -> is_bytes b -> integer_type (s_type x) (s_width x) ->
  s_first x + s_width x <= length b -> slot_value b x = VInt z -> c_ok (s_type x) (VInt z) ->
  values_under (s_name x) l <> [] -> Forall (fun v => v = VInt z) (windowed w (values_under (s_name x) l)) ->
  exists bits, mean_bits Rops pack m x = Ok bits /\ length bits = (8 * s_width x)%nat /\
    forall p, bit_in x p -> nth (p - 8 * s_first x) bits false = bit_of b p.
Proof.
  intros (_ & _ & IV) Hb I Bd SV CO NE All. specialize (IV (s_name x)). unfold mean_bits. unfold field_state in IV.
  destruct (bm_get Rops m (s_name x)) as [f|].
  2:{ unfold values_under in NE. rewrite IV in NE. contradiction. }
  destruct IV as (p0 & t & f0 & U & _ & _ & Sm & Co).
  assert (V : values_under (s_name x) l = map fst (p0 :: t)) by (unfold values_under; rewrite U; reflexivity).
  rewrite V in All. rewrite <- Sm in All.
  assert (NN : fm_samples Rops f <> []).
  { rewrite Sm. intros Q. apply windowed_nil in Q. discriminate. }
  destruct (read_spec Rops pack f Co) as (Rm & _). rewrite Rm.
  assert (Xs : exists xs, Forall2 is_number (fm_samples Rops f) xs /\ Forall (fun y => y = IZR z) xs).
  { clear - All. induction All as [|v s -> A IH]; [exists []; split; constructor|]. destruct IH as (xs & H & K).
    exists (IZR z :: xs). split; constructor; auto. constructor. }
  destruct Xs as (xs & H & K).
  rewrite (stats_R _ _ NN H). cbn [bind fst].
  assert (NX : xs <> []). { intros ->. inversion H as [E|]. congruence. }
  rewrite (mean_const (IZR z) xs NX K).
  assert (WI : wire_integer (s_type x) (IZR z) z).
  { destruct (c_signed (s_type x)) eqn:S; [right; split; auto; apply Rround_iff, Rround_IZR|].
    right. split; [|apply Rround_iff, Rround_IZR]. right. unfold c_ok in CO. rewrite S in CO. apply IZR_le. lia. }
  destruct (num2bits_R pack _ _ _ _ I WI) as [A _].
  assert (SB : is_bytes (firstn (s_width x) (skipn (s_first x) b))) by (apply is_bytes_firstn, is_bytes_skipn; exact Hb).
  assert (SL : length (firstn (s_width x) (skipn (s_first x) b)) = s_width x) by (rewrite firstn_length, skipn_length; lia).
  set (fb := firstn (s_width x) (skipn (s_first x) b)) in *.
  exists (bytes_bits fb). split; [|split; [rewrite length_bytes_bits; lia|]].
  - apply A. split; auto. exists fb. split; auto. split; auto. split; [exact SV|]. split; [rewrite length_bytes_bits; lia|].
    intros q Hq. apply nth_bytes_bits. lia.
  - intros q [Q1 Q2]. rewrite nth_bytes_bits by lia. unfold bit_of.
    assert (D : q / 8 = s_first x + (q - 8 * s_first x) / 8).
    { replace q with ((q - 8 * s_first x) + s_first x * 8) at 1 by lia. rewrite Nat.div_add by lia. lia. }
    assert (M : q mod 8 = (q - 8 * s_first x) mod 8).
    { replace q with ((q - 8 * s_first x) + s_first x * 8) at 1 by lia. rewrite Nat.mod_add by lia. reflexivity. }
    rewrite D, M. f_equal. unfold fb.
    assert (LT : (q - 8 * s_first x) / 8 < s_width x) by (apply Nat.div_lt_upper_bound; lia).
    rewrite nth_firstn by exact LT. rewrite nth_skipn. reflexivity.
Qed.
