(** The remaining methods of the models of fields and buffers (C104). *)
From Coq Require Import String Ascii List NArith ZArith Bool Reals Lra Lia.
From Verif.Model Require Import Py Float Struct StatModels FieldMethods.
From Verif.Spec Require Import Header Frame RealOps Stats FieldSpec.
From Verif.Proofs Require Import Base RealP DialectP StatP StatReal BufModelP StatTop FieldMethodsP.
Import ListNotations.
Local Open Scope R_scope.

(** C104.  The distribution that a field reports, after any operations: with samples that are numbers and not all equal, pdf and cdf are functions of the
    argument that belong to the mean and the standard deviation of the samples kept by the window. *)
Theorem c104_distribution : forall phi Phi pack erf name ty w m h xs, density_like phi -> normal_like Phi -> fm_init Rops name ty w = Ok m -> window_ok w ->
  windowed w (added h) <> [] -> Forall2 is_number (windowed w (added h)) xs -> ~ (forall x y, In x xs -> In y xs -> x = y) ->
  let m' := fm_run Rops pack erf m h in
  exists p c : R -> R,
    (forall x, value_of (fm_pdf Rops phi m' x) = Ok (Some (p x))) /\ (forall x, value_of (fm_cdf Rops Phi m' x) = Ok (Some (c x))) /\
    (forall x, 0 < p x) /\ (forall d, p (mean_of xs - d) = p (mean_of xs + d)) /\ (forall x y, Rabs (x - mean_of xs) < Rabs (y - mean_of xs) -> p y < p x) /\
    (forall z, p (mean_of xs + z * std_of xs) = phi z / std_of xs) /\
    (forall x, 0 < c x < 1) /\ (forall x y, x < y -> c x < c y) /\ c (mean_of xs) = 1 / 2 /\ (forall d, c (mean_of xs - d) = 1 - c (mean_of xs + d)) /\
    (forall z, c (mean_of xs + z * std_of xs) = Phi z).
Proof.
  intros phi Phi pack erf name ty w m h xs (D1 & D2 & D3) (N1 & N2 & N3) I W NE H NC m'. destruct (history_spec Rops pack erf name ty w m h I W) as (Co & _ & Sa).
  assert (NX : xs <> []) by (intros ->; inversion H; congruence).
  assert (SP : 0 < std_of xs) by (destruct (std_nonneg xs) as [X|X]; [exact X|exfalso; apply NC, (std_zero xs NX); symmetry; exact X]).
  set (mu := mean_of xs) in *. set (s := std_of xs) in *.
  exists (fun x => phi ((x - mu) / s) / s), (fun x => Phi ((x - mu) / s)).
  assert (IS : 0 < / s) by (apply Rinv_0_lt_compat; exact SP).
  assert (AB : forall x, phi (Rabs x) = phi x) by (intros x; unfold Rabs; destruct (Rcase_abs x); [apply D2|reflexivity]).
  assert (P0 : Phi 0 = 1 / 2) by (pose proof (N3 0) as E; rewrite Ropp_0 in E; lra).
  repeat match goal with |- _ /\ _ => split end.
  - intros x. unfold m'. rewrite (pdf_stats Rops phi _ x Co), Sa, (stats_R _ _ NE H). cbn [bind fst snd]. unfold norm_pdf. cbn [flt fz fdiv fsub Rops]. fold mu s.
    replace (Rltb (IZR 0) s) with true by (symmetry; apply rltb_true; exact SP). reflexivity.
  - intros x. unfold m'. rewrite (cdf_stats Rops Phi _ x Co), Sa, (stats_R _ _ NE H). cbn [bind fst snd]. unfold norm_cdf. cbn [flt fz fdiv fsub Rops]. fold mu s.
    replace (Rltb (IZR 0) s) with true by (symmetry; apply rltb_true; exact SP). reflexivity.
  - intros x. apply Rmult_lt_0_compat; [apply D1|exact IS].
  - intros d. replace ((mu - d - mu) / s) with (- ((mu + d - mu) / s)) by (field; lra). rewrite D2. reflexivity.
  - intros x y L. apply Rmult_lt_compat_r; [exact IS|]. rewrite <- (AB ((y - mu) / s)), <- (AB ((x - mu) / s)). apply D3. split; [apply Rabs_pos|].
    unfold Rdiv. rewrite !Rabs_mult. apply Rmult_lt_compat_r; [rewrite Rabs_right; lra|exact L].
  - intros z. replace ((mu + z * s - mu) / s) with z by (field; lra). reflexivity.
  - intros x. apply N1.
  - intros x y L. apply N2. apply Rmult_lt_compat_r; [exact IS|lra].
  - replace ((mu - mu) / s) with 0 by (field; lra). exact P0.
  - intros d. replace ((mu - d - mu) / s) with (- ((mu + d - mu) / s)) by (field; lra). apply N3.
  - intros z. replace ((mu + z * s - mu) / s) with z by (field; lra). reflexivity.
Qed.
Print Assumptions c104_distribution.

(** Equal samples, or none, have no distribution: both are nan; so the mean's own density is not defined where classify_value is certain. *)
Theorem c104_no_distribution : forall phi Phi pack erf name ty w m h xs x, fm_init Rops name ty w = Ok m -> window_ok w ->
  Forall2 is_number (windowed w (added h)) xs -> (forall x y, In x xs -> In y xs -> x = y) ->
  let m' := fm_run Rops pack erf m h in value_of (fm_pdf Rops phi m' x) = Ok None /\ value_of (fm_cdf Rops Phi m' x) = Ok None.
Proof.
  intros phi Phi pack erf name ty w m h xs x I W H EQ m'. destruct (history_spec Rops pack erf name ty w m h I W) as (Co & _ & Sa).
  unfold m'. rewrite (pdf_stats Rops phi _ x Co), (cdf_stats Rops Phi _ x Co), Sa.
  assert (S0 : exists mu, stats_of Rops (windowed w (added h)) = Ok (mu, 0)).
  { destruct xs as [|x0 xs']; [inversion H; exists 0; reflexivity|]. assert (NE : windowed w (added h) <> []) by (intros X; rewrite X in H; inversion H).
    exists (mean_of (x0 :: xs')). rewrite (stats_R _ _ NE H). assert (NX : x0 :: xs' <> []) by discriminate. rewrite (proj2 (std_zero _ NX) EQ). reflexivity. }
  destruct S0 as (mu & ->). cbn [bind fst snd]. unfold norm_pdf, norm_cdf. cbn [flt fz Rops]. replace (Rltb (IZR 0) 0) with false by (symmetry; apply rltb_false; lra). split; reflexivity.
Qed.
Print Assumptions c104_no_distribution.

(** cdf and classify_value agree: the probability that a value is no outlier is twice the smaller tail. *)
Theorem c104_tails : forall Phi pack erf name ty w m h xs v y, normal_like Phi -> (forall z, erf (z / sqrt 2) = 2 * Phi z - 1) -> fm_init Rops name ty w = Ok m -> window_ok w ->
  windowed w (added h) <> [] -> Forall2 is_number (windowed w (added h)) xs -> ~ (forall x y, In x xs -> In y xs -> x = y) -> is_number v y ->
  let m' := fm_run Rops pack erf m h in
  exists c, value_of (fm_cdf Rops Phi m' y) = Ok (Some c) /\ value_of (fm_classify_value Rops erf m' v) = Ok (2 * Rmin c (1 - c), std_of xs).
Proof.
  intros Phi pack erf name ty w m h xs v y (N1 & N2 & N3) EF I W NE H NC V m'. destruct (history_spec Rops pack erf name ty w m h I W) as (Co & _ & Sa).
  destruct (history_stats pack erf name ty w m h I W) as (_ & _ & _ & Cl).
  assert (NX : xs <> []) by (intros ->; inversion H; congruence).
  assert (SP : 0 < std_of xs) by (destruct (std_nonneg xs) as [X|X]; [exact X|exfalso; apply NC, (std_zero xs NX); symmetry; exact X]).
  exists (Phi ((y - mean_of xs) / std_of xs)). unfold m'. rewrite (cdf_stats Rops Phi _ y Co), Sa, Cl, (stats_R _ _ NE H). cbn [bind fst snd]. set (mu := mean_of xs) in *. set (s := std_of xs) in *.
  assert (IS : 0 < / s) by (apply Rinv_0_lt_compat; exact SP).
  split; [unfold norm_cdf; cbn [flt fz fdiv fsub Rops]; replace (Rltb (IZR 0) s) with true by (symmetry; apply rltb_true; exact SP); reflexivity|].
  unfold verdict. cbn [fst snd]. cbn [fle fz Rops]. unfold Rleb. destruct (Rle_dec s (IZR 0)) as [X|_]; [lra|].
  assert (VN : value_num Rops v = Some y) by (destruct V; reflexivity). rewrite VN. cbn [fsub fz fdiv fabs fsqrt Rops]. do 2 f_equal.
  assert (P0 : Phi 0 = 1 / 2) by (pose proof (N3 0) as E; rewrite Ropp_0 in E; lra).
  rewrite EF. set (z := (y - mu) / s). destruct (Rle_lt_dec 0 z) as [P|P].
  - replace (Rabs (mu - y) / s) with z. 
    + assert (Q : 1 / 2 <= Phi z) by (rewrite <- P0; destruct P as [P|P]; [left; apply N2; exact P|right; rewrite <- P; reflexivity]). rewrite Rmin_right by lra. lra.
    + assert (0 <= y - mu) by (replace (y - mu) with (z * s) by (unfold z; field; lra); apply Rmult_le_pos; lra). rewrite Rabs_left1 by lra. unfold z. field. lra.
  - replace (Rabs (mu - y) / s) with (- z).
    + assert (Q : Phi z < 1 / 2) by (rewrite <- P0; apply N2; exact P). rewrite N3, Rmin_left by lra. lra.
    + assert (y - mu < 0) by (replace (y - mu) with (z * s) by (unfold z; field; lra); apply Ropp_lt_cancel; rewrite Ropp_0, Ropp_mult_distr_l; apply Rmult_lt_0_compat; lra). rewrite Rabs_right by lra. unfold z. field. lra.
Qed.
Print Assumptions c104_tails.

(** The sign bit: of an unsigned field or of char certain, whatever the samples; of a signed field or of float the probability of the sign of the mean. *)
Theorem c104_sign : forall Phi pack erf name ty w m h, normal_like Phi -> fm_init Rops name ty w = Ok m -> window_ok w ->
  let m' := fm_run Rops pack erf m h in
  (c_signed ty = false -> ty <> "float"%string -> value_of (fm_p_of_sign_bit Rops Phi m') = Ok (Some 1)) /\
  (c_signed ty = true \/ ty = "float"%string ->
     (windowed w (added h) = [] -> value_of (fm_p_of_sign_bit Rops Phi m') = Err ZeroDivision) /\
     forall xs, windowed w (added h) <> [] -> Forall2 is_number (windowed w (added h)) xs ->
       ((forall x y, In x xs -> In y xs -> x = y) -> value_of (fm_p_of_sign_bit Rops Phi m') = Ok (if Req_EM_T (mean_of xs) 0 then None else Some 1)) /\
       (~ (forall x y, In x xs -> In y xs -> x = y) ->
          exists p, value_of (fm_p_of_sign_bit Rops Phi m') = Ok (Some p) /\ p = Phi (Rabs (mean_of xs) / std_of xs) /\ 1 / 2 <= p < 1 /\ (p = 1 / 2 <-> mean_of xs = 0))).
Proof.
  intros Phi pack erf name ty w m h (N1 & N2 & N3) I W m'. destruct (history_spec Rops pack erf name ty w m h I W) as (Co & Id & Sa).
  assert (SG : fm_signed Rops m' = fm_signed Rops m) by (destruct Id as (_ & _ & _ & _ & _ & X); symmetry; exact X).
  assert (Sg : fm_signed Rops m = (c_signed ty || String.eqb ty "float")%bool).
  { exact (init_signed Rops name ty w m I). }
  split.
  - intros C Nf. unfold fm_p_of_sign_bit. rewrite SG, Sg, C. destruct (String.eqb_spec ty "float") as [X|_]; [contradiction|]. reflexivity.
  - intros C. assert (St : fm_signed Rops m' = true) by (rewrite SG, Sg; destruct C as [-> | ->]; [reflexivity|destruct (c_signed "float"); reflexivity]).
    unfold fm_p_of_sign_bit. rewrite St. cbn [negb]. fold m' in Sa. pose proof (refresh_spec Rops m' Co) as R. rewrite Sa in R. split.
    + intros E. rewrite E in R. cbn [stats_of] in R. destruct R as (m2 & -> & _ & _ & S2 & _). cbn [bind]. rewrite S2. reflexivity.
    + intros xs NE H. rewrite (stats_R _ _ NE H) in R. destruct R as (m2 & -> & Em & Es & S2 & _). cbn [bind]. rewrite S2.
      destruct (windowed w (added h)) as [|v0 vs] eqn:EW; [contradiction|]. clear EW. assert (NX : xs <> []) by (intros ->; inversion H). rewrite Em, Es. cbn [feq fz fsub fdiv fneg fabs Rops].
      unfold Reqb. split.
      * intros EQ. assert (Z : std_of xs = 0) by (apply std_zero; assumption). rewrite Z. destruct (Req_EM_T 0 (IZR 0)) as [_|X]; [|exfalso; apply X; reflexivity].
        destruct (Req_EM_T (mean_of xs) (IZR 0)) as [X|X]; destruct (Req_EM_T (mean_of xs) 0) as [Y|Y]; try contradiction; cbn [value_of]; [reflexivity|]. do 2 f_equal. ring.
      * intros NC. assert (SP : 0 < std_of xs) by (destruct (std_nonneg xs) as [X|X]; [exact X|exfalso; apply NC, (std_zero xs NX); symmetry; exact X]).
        destruct (Req_EM_T (std_of xs) (IZR 0)) as [X|_]; [exfalso; lra|]. exists (Phi (Rabs (mean_of xs) / std_of xs)). set (mu := mean_of xs). set (s := std_of xs) in *.
        assert (P0 : Phi 0 = 1 / 2) by (pose proof (N3 0) as E; rewrite Ropp_0 in E; lra). assert (IS : 0 < / s) by (apply Rinv_0_lt_compat; exact SP).
        assert (P : 0 <= Rabs mu / s) by (apply Rmult_le_pos; [apply Rabs_pos|lra]).
        split; [cbn [value_of]; do 2 f_equal; replace (- Rabs mu / s) with (- (Rabs mu / s)) by (field; lra); rewrite N3; ring|]. split; [reflexivity|]. split; [split; [|apply N1]|].
        -- destruct P as [P|P]; [left; rewrite <- P0; apply N2; exact P|right; rewrite <- P; symmetry; exact P0].
        -- split.
           ++ intros E. destruct (Req_EM_T mu 0) as [X|X]; [exact X|]. exfalso. assert (L : Phi 0 < Phi (Rabs mu / s)) by (apply N2; apply Rmult_lt_0_compat; [apply Rabs_pos_lt; exact X|exact IS]). lra.
           ++ intros ->. rewrite Rabs_R0. replace (0 / s) with 0 by (field; lra). exact P0.
Qed.
Print Assumptions c104_sign.

(** Negating every sample changes nothing. *)
Theorem c104_sign_mirrored : forall Phi pack erf name ty w m h g xs, normal_like Phi -> fm_init Rops name ty w = Ok m -> window_ok w -> windowed w (added h) <> [] ->
  Forall2 is_number (windowed w (added h)) xs -> Forall2 is_number (windowed w (added g)) (map Ropp xs) ->
  value_of (fm_p_of_sign_bit Rops Phi (fm_run Rops pack erf m g)) = value_of (fm_p_of_sign_bit Rops Phi (fm_run Rops pack erf m h)).
Proof.
  intros Phi pack erf name ty w m h g xs NL I W NE H G.
  destruct (history_spec Rops pack erf name ty w m h I W) as (Co & Id & Sa). destruct (history_spec Rops pack erf name ty w m g I W) as (Cg & Ig & Sg).
  assert (NX : xs <> []) by (intros ->; inversion H; congruence).
  assert (NG : windowed w (added g) <> []) by (intros X; rewrite X in G; destruct xs; [contradiction|inversion G]).
  unfold fm_p_of_sign_bit. assert (E1 : fm_signed Rops (fm_run Rops pack erf m g) = fm_signed Rops (fm_run Rops pack erf m h)) by (destruct Id as (_ & _ & _ & _ & _ & X), Ig as (_ & _ & _ & _ & _ & Y); exact (eq_trans (eq_sym Y) X)).
  rewrite E1. destruct (negb _); [reflexivity|].
  pose proof (refresh_spec Rops _ Co) as R. rewrite Sa, (stats_R _ _ NE H) in R. destruct R as (m1 & -> & M1 & S1 & L1 & _).
  pose proof (refresh_spec Rops _ Cg) as R. rewrite Sg, (stats_R _ _ NG G) in R. destruct R as (m2 & -> & M2 & S2 & L2 & _). cbn [bind].
  rewrite L1, L2, M1, M2, S1, S2, mean_opp, std_opp. destruct (windowed w (added g)); [contradiction|]. destruct (windowed w (added h)); [contradiction|].
  cbn [feq fz fsub fdiv fneg fabs Rops]. rewrite Rabs_Ropp. unfold Reqb. destruct (Req_EM_T (std_of xs) (IZR 0)) as [Z|Z]; cbn [value_of]; [|reflexivity].
  destruct (Req_EM_T (- mean_of xs) (IZR 0)), (Req_EM_T (mean_of xs) (IZR 0)); try reflexivity; exfalso; lra.
Qed.
Print Assumptions c104_sign_mirrored.

(** The significant bits: the least power of two that the standard deviations reach, and what happens when there is none. *)
Theorem c104_bits : forall ceil pack erf name ty w m h c, ceil_like ceil -> fm_init Rops name ty w = Ok m -> window_ok w ->
  let m' := fm_run Rops pack erf m h in
  (windowed w (added h) = [] -> fm_std_significant_bits Rops ceil m' c = SRaises ZeroDivision) /\
  forall xs, windowed w (added h) <> [] -> Forall2 is_number (windowed w (added h)) xs ->
    (c < 0 -> fm_std_significant_bits Rops ceil m' c = SRaises ValueError) /\
    (0 <= c -> (c = 0 \/ forall x y, In x xs -> In y xs -> x = y) -> fm_std_significant_bits Rops ceil m' c = SOverflowError) /\
    (0 < c -> ~ (forall x y, In x xs -> In y xs -> x = y) ->
       exists k, fm_std_significant_bits Rops ceil m' c = SBits k /\ 1 <= powerRZ 2 k * (c * std_of xs) /\ powerRZ 2 (k - 1) * (c * std_of xs) < 1).
Proof.
  intros ceil pack erf name ty w m h c CL I W m'. destruct (history_spec Rops pack erf name ty w m h I W) as (Co & Id & Sa).
  unfold fm_std_significant_bits. fold m' in Sa. pose proof (refresh_spec Rops m' Co) as R. rewrite Sa in R. split.
  - intros E. rewrite E in R. cbn [stats_of] in R. destruct R as (m2 & -> & _ & _ & S2 & _). rewrite S2. reflexivity.
  - intros xs NE H. rewrite (stats_R _ _ NE H) in R. destruct R as (m2 & -> & Em & Es & S2 & _). rewrite S2. destruct (windowed w (added h)) as [|v0 vs]; [contradiction|].
    assert (NX : xs <> []) by (intros ->; inversion H). rewrite Es. cbn [feq flt fz fmul fdiv Rops]. pose proof (std_nonneg xs) as SN. split; [|split].
    + intros L. replace (Rltb c (IZR 0)) with true by (symmetry; apply rltb_true; exact L). reflexivity.
    + intros L E. replace (Rltb c (IZR 0)) with false by (symmetry; apply rltb_false; exact L). unfold Reqb. destruct (Req_EM_T (c * std_of xs) (IZR 0)) as [_|X]; [reflexivity|]. exfalso. apply X.
      destruct E as [-> |E]; [apply Rmult_0_l|]. replace (std_of xs) with 0; [apply Rmult_0_r|]. symmetry. apply std_zero; assumption.
    + intros L NC. replace (Rltb c (IZR 0)) with false by (symmetry; apply rltb_false; lra).
      assert (SP : 0 < std_of xs) by (destruct SN as [X|X]; [exact X|exfalso; apply NC, (std_zero xs NX); symmetry; exact X]).
      assert (P : 0 < c * std_of xs) by (apply Rmult_lt_0_compat; assumption). unfold Reqb. destruct (Req_EM_T (c * std_of xs) (IZR 0)) as [X|_]; [exfalso; lra|].
      eexists. split; [reflexivity|]. apply pow_bits; [exact P|]. apply CL.
Qed.
Print Assumptions c104_bits.

(** The unfinished bitwise classification says 0 about every value. *)
Theorem c104_bitwise : forall (FO : fops) pack erf name ty w m h v, fm_init FO name ty w = Ok m -> window_ok w ->
  value_of (fm_bitwise_classify_value FO (fm_run FO pack erf m h) v) = (do! _ <- value_of (fm_get_mean FO (fm_run FO pack erf m h)) in Ok [fz FO 0]).
Proof.
  intros FO pack erf name ty w m h v I W. unfold fm_bitwise_classify_value, fm_get_mean. destruct (fm_refresh FO (fm_run FO pack erf m h)); reflexivity.
Qed.
Print Assumptions c104_bitwise.

(** The text of a field: its name, its type, and the statistics of the samples kept. *)
Theorem c104_text : forall show pack erf name ty w m h xs, fm_init Rops name ty w = Ok m -> window_ok w -> windowed w (added h) <> [] -> Forall2 is_number (windowed w (added h)) xs ->
  value_of (fm_str Rops show (fm_run Rops pack erf m h)) = Ok (name ++ " (" ++ ty ++ "): " ++ show (mean_of xs) ++ " +- " ++ show (std_of xs))%string.
Proof.
  intros show pack erf name ty w m h xs I W NE H. destruct (history_spec Rops pack erf name ty w m h I W) as (Co & Id & Sa).
  unfold fm_str, fm_get_mean, fm_get_std. pose proof (refresh_spec Rops _ Co) as R. rewrite Sa, (stats_R _ _ NE H) in R. destruct R as (m2 & -> & Em & Es & S2 & Id2 & Co2). cbn [bind fst snd].
  pose proof (refresh_spec Rops _ Co2) as R. rewrite S2, (stats_R _ _ NE H) in R. destruct R as (m3 & -> & _ & Es3 & _). cbn [bind fst snd value_of]. rewrite Em, Es3.
  destruct (fm_init_facts Rops name ty w m I) as (_ & _ & Nm & Ty & _). unfold same_id in Id. destruct Id as (X & Y & _). rewrite <- X, <- Y, Nm, Ty. reflexivity.
Qed.
Print Assumptions c104_text.

(** The container: whatever samples and models are put in, the names are those that came, in the order in which they came first, each once; the other
    reads agree with the names. *)
Theorem c104_names : forall (FO : fops) w h, exists l, came FO h l /\ forall l', came FO h l' ->
  let m := fold_left (name_step FO) h (bm_init FO [] w) in
  bm_fields_names FO m = l' /\ NoDup l' /\ bm_len FO m = length l' /\ length (bm_iter FO m) = length l' /\
  (forall k, (bm_contains FO m k = true <-> In k l') /\ (bm_getitem FO m k = Err KeyError <-> ~ In k l') /\
     (forall f, bm_getitem FO m k = Ok f <-> In (k, f) (combine l' (bm_iter FO m))) /\ (forall f, bm_get_field_model FO m k = Some f <-> bm_getitem FO m k = Ok f)).
Proof.
  intros FO w h. destruct (came_exists FO h (a_type_dec FO)) as (l & C). exists l. split; [exact C|]. intros l' C' m. destruct (came_names FO w h l' C') as [E ND]. fold m in E.
  assert (ND' : NoDup (bm_fields_names FO m)) by (rewrite E; exact ND). repeat match goal with |- _ /\ _ => split end; [exact E|exact ND|..].
  - destruct (getitem_names FO m "" ND') as (_ & _ & _ & _ & L1 & _). rewrite L1, E. reflexivity.
  - destruct (getitem_names FO m "" ND') as (_ & _ & _ & _ & L1 & L2). rewrite L2, L1, E. reflexivity.
  - intros k. destruct (getitem_names FO m k ND') as (A & B & D & G & _). rewrite E in A, B, D. auto.
Qed.
Print Assumptions c104_names.

(** Samples -3, 5, 1 of a signed field with a window of 2: the mean is 3, the standard deviation 2; one standard deviation needs -1 significant bits. *)
Example c104_ex : exists m, fm_init Rops "yaw" "int16_t" (Some 2%Z) = Ok m /\ forall phi Phi ceil pack erf, density_like phi -> normal_like Phi -> ceil_like ceil ->
  let m' := fm_run Rops pack erf m [EAdd (SList [VInt (-3); VInt 5]); EMean; EAdd (SOne (VInt 1))] in
  value_of (fm_p_of_sign_bit Rops Phi m') = Ok (Some (Phi (3 / 2))) /\ fm_std_significant_bits Rops ceil m' 1 = SBits (-1).
Proof.
  destruct (fm_init Rops "yaw" "int16_t" (Some 2%Z)) as [m|e] eqn:I; [|discriminate]. exists m. split; [reflexivity|]. intros phi Phi ceil pack erf D N C m'.
  set (h := [EAdd (SList [VInt (-3); VInt 5]); EMean; EAdd (SOne (VInt 1))]) in *.
  assert (K : windowed (Some 2%Z) (added h) = [VInt 5; VInt 1]) by reflexivity.
  assert (H : Forall2 is_number (windowed (Some 2%Z) (added h)) [5; 1]) by (rewrite K; apply Forall2_cons; [apply num_int|apply Forall2_cons; [apply num_int|apply Forall2_nil]]).
  assert (NE : windowed (Some 2%Z) (added h) <> []) by (rewrite K; discriminate).
  assert (NC : ~ (forall x y, In x [5; 1] -> In y [5; 1] -> x = y)) by (intros X; specialize (X 5 1 (or_introl eq_refl) (or_intror (or_introl eq_refl))); lra).
  assert (M : mean_of [5; 1] = 3) by (unfold mean_of; cbn [Rsum fold_right length INR]; field).
  assert (S : std_of [5; 1] = 2).
  { unfold std_of. rewrite M. cbn [map Rsum fold_right length INR]. replace (((5 - 3) * (5 - 3) + ((1 - 3) * (1 - 3) + 0)) / (1 + 1)) with (2 * 2) by field. apply sqrt_square. lra. }
  assert (W : window_ok (Some 2%Z)) by (cbn; lia). split.
  - destruct (c104_sign Phi pack erf _ _ _ m h N I W) as (_ & G). destruct (G (or_introl eq_refl)) as (_ & G2). destruct (G2 _ NE H) as (_ & G3). destruct (G3 NC) as (p & E & Ep & _).
    fold m' in E. rewrite E, Ep, M, S. rewrite Rabs_right by lra. reflexivity.
  - destruct (c104_bits ceil pack erf _ _ _ m h 1 C I W) as (_ & G). destruct (G _ NE H) as (_ & _ & G3). destruct (G3 Rlt_0_1 NC) as (k & E & A & B). fold m' in E. rewrite E. f_equal. rewrite S in A, B.
    assert (P : forall a b, (a <= b)%Z -> powerRZ 2 a <= powerRZ 2 b).
    { intros a b L. rewrite !powerRZ_Rpower by lra. destruct (Z.eq_dec a b) as [-> |Ne]; [right; reflexivity|left; apply Rpower_lt; [lra|apply IZR_lt; lia]]. }
    assert (K1 : powerRZ 2 (-2) = 1 / 4) by (change (/ 2 ^ 2 = 1 / 4); cbn [pow]; field). assert (K2 : powerRZ 2 (-1) = 1 / 2) by (change (/ 2 ^ 1 = 1 / 2); cbn [pow]; field).
    destruct (Z_lt_le_dec k (-1)) as [X|X]; [exfalso; pose proof (P k (-2)%Z ltac:(lia)); lra|]. destruct (Z_lt_le_dec (-1) k) as [Y|Y]; [exfalso; pose proof (P (-1)%Z (k - 1)%Z ltac:(lia)); lra|]. lia.
Qed.

(** A name that comes twice, a sample of an unknown type, and a model that is put in. *)
Example c104_ex_names : forall (FO : fops) f, let m := fold_left (name_step FO) [NAdd FO "a" (SOne (VInt 1)) "int8_t"; NAdd FO "b" (SOne (VInt 2)) "octet"; NSet FO "c" f; NAdd FO "a" (SOne (VInt 3)) ""] (bm_init FO [] None) in
  bm_fields_names FO m = ["a"; "c"]%string /\ bm_len FO m = 2%nat /\ bm_contains FO m "b" = false /\ bm_getitem FO m "b" = Err KeyError /\ bm_getitem FO m "c" = Ok f.
Proof. intros FO f. vm_compute. auto. Qed.

(** The attributes of a field model, which are also what the saved models hold: after any operations the name, the type and the window are those given, the length is
    that of the type, int_type is false for float only, signed is true for the signed types and float; a type that is not a type of MAVLink fields is refused. *)
Theorem c104_attributes : forall (FO : fops) pack erf name ty w,
  ((exists sz ch, ctype ty sz ch) -> exists m, fm_init FO name ty w = Ok m) /\
  (~ (exists sz ch, ctype ty sz ch) -> fm_init FO name ty w = Err ValueError) /\
  forall m h, fm_init FO name ty w = Ok m -> window_ok w -> let m' := fm_run FO pack erf m h in
    fm_name FO m' = name /\ fm_type FO m' = ty /\ fm_window FO m' = w /\ fm_len FO m' = c_size ty /\
    fm_int FO m' = negb (String.eqb ty "float") /\ fm_signed FO m' = (c_signed ty || String.eqb ty "float")%bool.
Proof.
  intros FO pack erf name ty w. split; [intros H; apply fm_init_total; exact H|]. split.
  - intros H. destruct (fm_init FO name ty w) as [m|e] eqn:E.
    + destruct H. apply (proj1 (fm_init_total FO name ty w)). eauto.
    + unfold fm_init in E. destruct (dict_get _ _ _); [|congruence].
      destruct (_ || _)%bool; [discriminate|]. destruct (str_contains "int" ty); [discriminate|]. destruct (str_contains "float" ty); [discriminate|congruence].
  - intros m h I W. destruct (history_spec FO pack erf name ty w m h I W) as (_ & (A1 & A2 & A3 & A4 & A5 & A6) & _).
    cbv zeta. rewrite <- A1, <- A2, <- A3, <- A4, <- A5, <- A6.
    destruct (proj1 (fm_init_total FO name ty w) (ex_intro _ m I)) as (sz & ch & C).
    destruct C; vm_compute in I; injection I as <-; repeat split.
Qed.
Print Assumptions c104_attributes.
Example c104_ex_attributes : forall FO : fops, exists m, fm_init FO "yaw" "uint16_t" None = Ok m /\ fm_int FO m = true /\ fm_signed FO m = false /\ fm_len FO m = 2%nat /\
  fm_init FO "yaw" "double" None = Err ValueError.
Proof. intros FO. eexists. repeat split. Qed.
