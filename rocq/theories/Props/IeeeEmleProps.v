(** C98: the denoiser and the models of the decoders in double precision. *)
From Coq Require Import List NArith ZArith Reals Bool Lia Lra.
From Flocq Require Import Core IEEE754.BinarySingleNaN.
From Verif.Model Require Import Py Float InfoTheory Clustering Emle DecoderBase ClassDecoder.
From Verif.Spec Require Import RealOps Info Cluster IeeeOps EmleSpec DecoderSpec IeeeEmleSpec.
From Verif.Proofs Require Import Base InfoP EmleP DecoderP EntropyDecP IeeeP IeeeInfoP IeeeHellP IeeeSweepP IeeeFreqP IeeeEmleP IeeeModelP.
Import ListNotations.
Open Scope R_scope.

(** C98: after any updates every estimate is a number in [0,1], within 2^-50 / (1 - 2 f) of the exact one, and on the side of the majority; it is 0
    just when the share of ones rounds to no more than f; its entropy is 0 just for the estimates 0 and 1. *)
Theorem c98_estimates : forall (l : libm) (c : emle_conf (Bops l)) n obs i, good_log l -> flip_rate (e_f _ c) -> obs <> [] -> Forall (bits_of_length n) obs ->
  (Z.of_nat (length obs) <= 2 ^ 53)%Z -> (i < n)%nat ->
  let s := updated (Bops l) c (emle_new (Bops l)) obs in let g := in_window (e_window _ c) obs in
  exists p h, nth_error (e_p1 _ s) i = Some p /\ nth_error (e_entropy _ s) i = Some h /\ knows_bit (e_f _ c) (votes g 1 i) (length g) p h.
Proof.
  intros l c n obs i G [Ff Rf] Ne Ho B Hi s g. apply (emle_bits l c n obs s i); auto. apply updated_inv; [lia|]. eapply Forall_impl; [|exact Ho]. intros b [L _]. exact L.
Qed.
Print Assumptions c98_estimates.

(** C98: the confidence in a model is a number in [0,1] even where exp overflows: 0 up to one observation, at least 1/2 from the centre on, at most 1/2
    before it. *)
Theorem c98_confidence : forall (l : libm) (c : emle_conf (Bops l)) size, good_exp l -> sane c -> (Z.abs size <= 2 ^ 52)%Z ->
  let w := confidence (Bops l) c size in
  fin w /\ 0 <= val w <= 1 /\ ((size <= 1)%Z -> val w = 0) /\
  (0 <= val (e_slope _ c) -> (2 <= size)%Z -> (e_center _ c <= size)%Z -> / 2 <= val w) /\
  (0 <= val (e_slope _ c) -> (size <= e_center _ c)%Z -> val w <= / 2).
Proof. intros l c size G (_ & Fs & Bs & Bc) Hs. apply confidence_spec; auto. lia. Qed.
Print Assumptions c98_confidence.
Theorem c98_trust : forall (l : libm) size (center slope : b64), good_exp l -> fin center -> Rabs (val center) <= bpow radix2 52 -> fin slope -> Rabs (val slope) <= bpow radix2 900 ->
  (Z.abs size <= 2 ^ 52)%Z ->
  let w := model_confidence (Bops l) size center slope in
  fin w /\ 0 <= val w <= 1 /\ ((size <= 1)%Z -> val w = 0) /\
  (0 <= val slope -> (2 <= size)%Z -> val center <= IZR size -> / 2 <= val w) /\ (0 <= val slope -> IZR size <= val center -> val w <= / 2).
Proof. exact model_confidence_spec. Qed.
Print Assumptions c98_trust.

(** C98: a prediction is made of numbers, and no ratio moves away from the majority of the stored buffers; a bit that is the same in all of them moves
    by at least 1/4 (before the last rounding) once the model is past its centre and the threshold is positive. *)
Theorem c98_prediction : forall (l : libm) (c : emle_conf (Bops l)) n obs (llr : list b64), good_exp l -> good_log l -> sane c -> (1 <= n)%nat -> Forall (bits_of_length n) obs ->
  (Z.of_nat (length obs) <= 2 ^ 52)%Z -> length llr = n -> Forall modest llr ->
  let g := in_window (e_window _ c) obs in let size := Z.of_nat (admitted (e_window _ c) (length obs)) in
  exists out : list b64, predict (Bops l) c (updated (Bops l) c (emle_new (Bops l)) obs) llr = Ok out /\ length out = n /\
    forall i x, nth_error llr i = Some x -> exists y, nth_error out i = Some y /\ fin y /\ Rabs (val y) <= bpow radix2 1001 /\
      ((2 * votes g 1 i <= length g)%nat -> val x <= val y) /\ ((length g <= 2 * votes g 1 i)%nat -> val y <= val x) /\
      (fin (e_threshold _ c) -> 0 < val (e_threshold _ c) -> 0 <= val (e_slope _ c) -> (2 <= size)%Z -> (e_center _ c <= size)%Z ->
        (votes g 1 i = 0%nat -> rnd (val x + / 4) <= val y) /\ (votes g 1 i = length g -> val y <= rnd (val x - / 4))).
Proof.
  intros l c n obs llr Ge Gl S Hn Ho B Ll Hm. apply (predict_64 l c n obs); auto. apply updated_inv; [exact Hn|]. eapply Forall_impl; [|exact Ho]. intros b [L _]. exact L.
Qed.
Print Assumptions c98_prediction.

(** C98: hard input.  Denoising bits never fails for f in [2^-900, 1/3], and a received bit with which at least half of the stored buffers agree is
    not changed; the reported number is the number of bits that are. *)
Theorem c98_agreement : forall (l : libm) (c : emle_conf (Bops l)) n obs bits, good_exp l -> good_log l -> sane c -> bpow radix2 (-900) <= val (e_f _ c) <= / 3 -> (1 <= n)%nat ->
  Forall (bits_of_length n) obs -> (Z.of_nat (length obs) <= 2 ^ 52)%Z -> bits_of_length n bits ->
  let g := in_window (e_window _ c) obs in
  exists (est : list b64) out, denoise_hard (Bops l) c (updated (Bops l) c (emle_new (Bops l)) obs) bits =
      (updated (Bops l) c (emle_new (Bops l)) (obs ++ [bits]), Ok (if e_hard _ c then Bits out else @Llr (Bops l) est, Z.of_nat (differences bits out))) /\
    length est = n /\ bits_of_length n out /\
    forall i b, nth_error bits i = Some b -> exists y, nth_error est i = Some y /\ fin y /\ nth_error out i = Some (if Rlt_dec (val y) 0 then 1%Z else 0%Z) /\
      (b = 0%Z -> (2 * votes g 1 i <= length g)%nat -> / 2 <= val y) /\ (b = 1%Z -> (length g <= 2 * votes g 1 i)%nat -> val y <= - / 2).
Proof.
  intros l c n obs bits Ge Gl S Rf Hn Ho B [Lb Hb] g. assert (Ho' : Forall (fun b => length b = n) obs) by (eapply Forall_impl; [|exact Ho]; intros b [L _]; exact L).
  destruct (bsc_llr_64 l (e_f _ c) bits Gl ltac:(apply S) Rf Hb) as (llr & El & Ll & Hm & Hl).
  destruct (c98_prediction l c n obs llr Ge Gl S Hn Ho B ltac:(congruence) Hm) as (est & Ee & Le & He). cbv zeta in He. fold g in He.
  exists est, (signs (Bops l) est). unfold denoise_hard. rewrite El. unfold denoise_with. rewrite Ee.
  destruct (update_step (Bops l) c n obs _ bits Hn Ho' Lb (updated_inv (Bops l) c n obs Hn Ho')) as [s' [Eu _]]. rewrite Eu, updated_snoc, Eu. cbn [fst].
  split; [rewrite cost_differences; auto; apply signs_bits|]. split; [exact Le|]. split; [split; [unfold signs; rewrite map_length; exact Le|apply signs_bits]|].
  intros i b Eb. destruct (Hl i b Eb) as (x & Ex & H0 & H1). destruct (He i x Ex) as (y & Ey & Fy & _ & M0 & M1 & _). exists y. split; [exact Ey|]. split; [exact Fy|].
  split; [apply signs_spec; assumption|]. split; intros E V; [specialize (H0 E); specialize (M0 V)|specialize (H1 E); specialize (M1 V)]; lra.
Qed.
Print Assumptions c98_agreement.
(** C98: so a whole sequence is denoised, buffer by buffer. *)
Theorem c98_sequence : forall (l : libm) (c : emle_conf (Bops l)) n seq, good_exp l -> good_log l -> sane c -> bpow radix2 (-900) <= val (e_f _ c) <= / 3 -> (1 <= n)%nat ->
  Forall (bits_of_length n) seq -> (Z.of_nat (length seq) <= 2 ^ 52)%Z ->
  exists rs, denoise_sequence (Bops l) (denoise_hard (Bops l) c) (emle_new (Bops l)) seq = (updated (Bops l) c (emle_new (Bops l)) seq, Ok rs) /\ length rs = length seq /\
    forall i r, nth_error rs i = Some r -> snd (denoise_hard (Bops l) c (updated (Bops l) c (emle_new (Bops l)) (firstn i seq)) (nth i seq [])) = Ok r.
Proof.
  intros l c n seq Ge Gl S Rf Hn Hs B.
  assert (Gen : forall obs rest, Forall (bits_of_length n) (obs ++ rest) -> (Z.of_nat (length (obs ++ rest)) <= 2 ^ 52)%Z ->
    exists rs, denoise_sequence (Bops l) (denoise_hard (Bops l) c) (updated (Bops l) c (emle_new (Bops l)) obs) rest = (updated (Bops l) c (emle_new (Bops l)) (obs ++ rest), Ok rs) /\
      length rs = length rest /\ forall i r, nth_error rs i = Some r -> snd (denoise_hard (Bops l) c (updated (Bops l) c (emle_new (Bops l)) (obs ++ firstn i rest)) (nth i rest [])) = Ok r).
  { intros obs rest. revert obs. induction rest as [|b t IH]; intros obs Hb Bb.
    - exists []. rewrite app_nil_r. split; [reflexivity|]. split; [reflexivity|]. intros [|i] r E; discriminate E.
    - assert (Hb' : Forall (bits_of_length n) obs /\ bits_of_length n b) by (apply Forall_app in Hb as [H1 H2]; inversion H2; auto). destruct Hb' as [H1 H2].
      destruct (c98_agreement l c n obs b Ge Gl S Rf Hn H1 ltac:(rewrite app_length in Bb; lia) H2) as (est & out & E & _).
      assert (Ea : obs ++ b :: t = (obs ++ [b]) ++ t) by (rewrite <- app_assoc; reflexivity). rewrite Ea in Hb, Bb. destruct (IH (obs ++ [b]) Hb Bb) as (rs & Er & Lr & Hr).
      cbn [denoise_sequence]. rewrite E, Er. rewrite Ea. eexists. split; [reflexivity|]. split; [cbn [length]; congruence|]. intros [|i] r Ei.
      + cbn in Ei. injection Ei as <-. cbn [firstn nth]. rewrite app_nil_r, E. reflexivity.
      + cbn [nth_error] in Ei. specialize (Hr i r Ei). cbn [firstn nth]. rewrite <- app_assoc in Hr. exact Hr. }
  destruct (Gen [] seq Hs B) as (rs & E & L & H). exists rs. auto.
Qed.
Print Assumptions c98_sequence.

(** C98: the models of the decoders that allow for the channel.  Storing a buffer gives estimates as above: the check that they are probabilities
    never fails; only buffers whose bits are all equal are refused, with an IndexError. *)
Theorem c98_learning : forall (l : libm) w n (f : b64) (m : entropy_model (Bops l)) h bits, good_log l -> flip_rate f -> (1 <= n)%nat -> Forall (bits_of_length n) (h ++ [bits]) ->
  (Z.of_nat (length (h ++ [bits])) <= 2 ^ 53)%Z -> em_data m = kept w h ->
  let data := kept w (h ++ [bits]) in
  (mixed data -> exists m', learn_corrected (Bops l) w n f m bits = (m', Ok tt) /\ model_of f n data m') /\
  (~ mixed data -> learn_corrected (Bops l) w n f m bits = (EM data (em_rows m) (em_cols m) (em_entropy m), Err IndexError)).
Proof. intros l w n f m h bits. apply learn_corrected_64. Qed.
Print Assumptions c98_learning.
(** C98: what such a model adds to the word of a classifying decoder is made of numbers, is 0 off the model bits, and has the sign of the majority;
    for a bit (other than the first of the word) that is the same in all stored buffers it is at least 1/4 once the model is past its centre. *)
Theorem c98_opinion : forall (l : libm) (c : cd_conf (Bops l)) (f : b64) data m size, good_exp l -> good_log l -> flip_rate f ->
  fin (cd_center _ c) -> Rabs (val (cd_center _ c)) <= bpow radix2 52 -> fin (cd_slope _ c) -> Rabs (val (cd_slope _ c)) <= bpow radix2 900 ->
  let idx := cd_idx _ c in
  model_of f (length idx) data m -> Forall (fun b => length b = length idx) data -> (1 <= length idx)%nat -> (Z.of_nat (length data) <= 2 ^ 52)%Z ->
  NoDup idx -> Forall (fun i => (i < size)%nat) idx ->
  exists out : list b64, cd_predict (Bops l) c m size = Ok out /\ length out = size /\
    (forall q, (q < size)%nat -> ~ In q idx -> exists y, nth_error out q = Some y /\ fin y /\ val y = 0) /\
    forall j, (j < length idx)%nat -> exists y, nth_error out (nth j idx 0%nat) = Some y /\ fin y /\ Rabs (val y) <= 1000 /\
      ((2 * votes data 1 j <= length data)%nat -> 0 <= val y) /\ ((length data <= 2 * votes data 1 j)%nat -> val y <= 0) /\
      (fin (cd_threshold _ c) -> 0 < val (cd_threshold _ c) -> nth j idx 0%nat <> 0%nat ->
       (cd_train _ c = true -> 0 <= val (cd_slope _ c) /\ (2 <= length data)%nat /\ val (cd_center _ c) <= INR (length data)) ->
        (votes data 1 j = 0%nat -> / 4 <= val y) /\ (votes data 1 j = length data -> val y <= - / 4)).
Proof. intros l c f data m size. apply predict_model_64. Qed.
Print Assumptions c98_opinion.

(** Examples: a configuration that meets the hypotheses, with a library of correctly rounded functions. *)
Definition ex_flip : b64 := make 1 (-4).
Lemma ex_flip_val : fin ex_flip /\ val ex_flip = / 16.
Proof.
  assert (E : IZR 1 * bpow radix2 (-4) = / 16) by (rewrite Rmult_1_l; reflexivity). destruct (make_spec 1 (-4)) as [A B]; [rewrite E, Rabs_pos_eq by lra; pose proof big_1; lra|].
  split; [exact A|]. unfold ex_flip. rewrite B, E. apply rnd_id. change (/ 16) with (bpow radix2 (-4)). apply generic_format_bpow. cbn. lia.
Qed.
Definition ex_conf : emle_conf (Bops rounded) := EmleConf (Bops rounded) ex_flip (b64_z 1) 0 2 (b64_z 1) true.
Example c98_ex_sane : sane ex_conf /\ bpow radix2 (-900) <= val (e_f _ ex_conf) <= / 3 /\ good_exp rounded /\ good_log rounded.
Proof.
  destruct ex_flip_val as [A B]. destruct one as [F1 V1]. assert (bpow radix2 (-900) <= / 16) by (change (/ 16) with (bpow radix2 (-4)); apply bpow_le; lia).
  split; [|split; [|split; [exact rounded_exp|exact rounded_log]]].
  - split; [split; [exact A|]|split; [exact F1|split; [|cbn; lia]]]; cbn [e_f e_slope ex_conf].
    + rewrite B. lra.
    + rewrite V1, Rabs_pos_eq by lra. change 1 with (bpow radix2 0). apply bpow_le. lia.
  - cbn [e_f ex_conf]. rewrite B. lra.
Qed.
(** Two equal buffers stored: a received buffer keeps the bits on which they agree with it. *)
Example c98_ex_agreement : let obs := [[0; 1; 1]; [0; 1; 0]]%Z in let g := in_window (e_window _ ex_conf) obs in
  Forall (bits_of_length 3) obs /\ votes g 1 0 = 0%nat /\ votes g 1 1 = length g /\ (2 * votes g 1 2)%nat = length g /\ admitted (e_window _ ex_conf) (length obs) = 2%nat.
Proof. cbv zeta. repeat split; repeat constructor; (left; reflexivity) || (right; reflexivity). Qed.
Example c98_ex_mixed : mixed (kept (Some 2%Z) ([[1; 1]; [0; 1]; [1; 1]]%Z ++ [[0; 0]%Z])).
Proof. vm_compute. auto. Qed.
