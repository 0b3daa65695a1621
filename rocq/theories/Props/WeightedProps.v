(** C63, C64: the decoder that learns from good and from bad buffers. *)
From Coq Require Import List ZArith NArith QArith Reals Lra Bool Lia Arith Sorted.
From Verif.Model Require Import Py Float InfoTheory Mavlink Segmentation DecoderBase WeightedDecoder.
From Verif.Spec Require Import RealOps Info Cluster Stats EmleSpec DecoderSpec WeightedSpec.
From Verif.Proofs Require Import Base RealP InfoP DecoderP EntropyDecP WeightedP.
From Verif.Props Require Import MavlinkProps EntropyDecoderProps.
Import ListNotations.
Local Close Scope Q_scope.
Local Close Scope R_scope.

(** ** C63 *)

(** The Bayes estimator needs a window. *)
Theorem c63_construct FO c : w_init FO c = Err TypeError <-> w_bayes FO c = true /\ w_window FO c = None.
Proof. unfold w_init. destruct (w_bayes FO c), (w_window FO c); split; try discriminate; try tauto; intros []; discriminate. Qed.
Print Assumptions c63_construct.

(** One decoding.  The answer is the plain LDPC answer when that succeeds, else the LDPC answer for the predicted word, with the number of
    messages found in its model bits; the first model learns the buffer if it was recovered, the second one always: what was decoded, but
    what was received if neither the plain LDPC run succeeded nor the buffer was recovered. *)
Theorem c63_decode {D X} (parser : bytes -> res D) c (ldpc : list R -> res (list Z * X * bool)) a b word e x ok parts v s a' b' :
  last_run ldpc (w_predict Rops c a b) word (e, x, ok) -> Forall (fun i => i < length e) (w_idx Rops c) -> Forall (fun i => i < length word) (w_idx Rops c) ->
  segment_buffer parser (pack (picked e (w_idx Rops c))) = Ok (parts, v, s) ->
  let bits := picked e (w_idx Rops c) in
  let plain := match ldpc word with Ok (_, _, true) => true | _ => false end in
  let bits_b := if (plain || recognised parser bits)%bool then bits else picked (map sign_bit word) (w_idx Rops c) in
  (if recognised parser bits then w_update Rops c a bits = (a', Ok tt) else a' = a) -> w_update Rops c b bits_b = (b', Ok tt) ->
  w_decode Rops parser c ldpc (a, b) word = (a', b', w_answer Rops c a' b' e x (length s)).
Proof.
  intros Lr Re Rw Sg. cbn zeta. intros Ua Ub. destruct (w_decode_final parser c ldpc a b word e x ok parts v s Lr Re Rw Sg) as (bits & Eb & E). rewrite E. unfold w_after. unfold all_bits in Eb. cbn [fst snd] in Eb.
  replace (match ldpc word with Ok (_, _, ok0) => ok0 | Err _ => false end) with (match ldpc word with Ok (_, _, true) => true | _ => false end) in Eb by (destruct (ldpc word) as [[[? ?] []]|?]; reflexivity).
  assert (bits = if (match ldpc word with Ok (_, _, true) => true | _ => false end || recognised parser (picked e (w_idx Rops c)))%bool then picked e (w_idx Rops c) else picked (map sign_bit word) (w_idx Rops c)).
  { destruct (_ || _)%bool in Eb |- *; inversion Eb; reflexivity. }
  subst bits. destruct (recognised parser (picked e (w_idx Rops c))); [rewrite Ua|subst a'; cbn match]; rewrite Ub; reflexivity.
Qed.
Print Assumptions c63_decode.
(** No LDPC answer: an exception, and nothing is learned. *)
Theorem c63_no_answer {D X} (parser : bytes -> res D) c (ldpc : list R -> res (list Z * X * bool)) a b word :
  (forall r, ~ last_run ldpc (w_predict Rops c a b) word r) -> exists y, w_decode Rops parser c ldpc (a, b) word = (a, b, Err y).
Proof. apply w_decode_none. Qed.
Print Assumptions c63_no_answer.

(** What the models hold after any calls without exception, with stored buffers (estimator "MLE"): the last window_length buffers each
    model learned; once it learned one, the frequencies of ones (on request corrected for the channel), their entropies and spread. *)
Theorem c63_history {D X} (parser : bytes -> res D) c (calls : list ((list R -> res (list Z * X * bool)) * list R)) m0 a b outs :
  w_bayes Rops c = false -> 1 <= w_length Rops c -> length (w_idx Rops c) = w_length Rops c -> w_init Rops c = Ok m0 ->
  in_turn (fun s call => w_decode Rops parser c (fst call) s (snd call)) m0 calls = ((a, b), outs) -> Forall is_ok outs -> Forall (Forall is_bit) (w_estimates outs) ->
  let good := goods parser (w_idx Rops c) outs in
  let all := alls parser (w_idx Rops c) calls outs in
  let probs h := match h with [] => [] | _ => map (bit_estimate (w_corrected Rops c) (w_flip Rops c) (kept (w_window Rops c) h)) (seq 0 (w_length Rops c)) end in
  wm_data Rops a = kept (w_window Rops c) good /\ wm_data Rops b = kept (w_window Rops c) all /\ length all = length calls /\
  opinion c a (probs good) (Z.of_nat (length (kept (w_window Rops c) good))) (bernoulli_spread (probs good)) /\
  opinion c b (probs all) (Z.of_nat (length (kept (w_window Rops c) all))) (bernoulli_spread (probs all)).
Proof.
  intros Hy Hn L I T O B. cbn zeta. destruct m0 as [a0 b0]. destruct (fresh_mle c a0 b0 Hy I) as [<- T0].
  destruct (history_learns parser c calls a0 a0 a b outs T O B) as (La & Lb & Ba & Bb & _ & Ln). rewrite L in Ba, Bb.
  pose proof (learns_taught c _ Hy Hn a0 [] a T0 Ba La) as Ta. pose proof (learns_taught c _ Hy Hn a0 [] b T0 Bb Lb) as Tb. cbn [app] in Ta, Tb.
  split; [apply Ta|]. split; [apply Tb|]. split; [exact Ln|]. split; apply taught_opinion; auto.
Qed.
Print Assumptions c63_history.

(** Storing a buffer raises IndexError exactly when all bits in the window are equal afterwards; the buffer is kept, the distribution is
    the one of a single value then, the entropies stay those from before.  With a positive window this never happens to the first
    model: recovered buffers hold both values (C50). *)
Theorem c63_update c m h bits : w_bayes Rops c = false -> 1 <= w_length Rops c -> Forall (bits_of_length (w_length Rops c)) (h ++ [bits]) -> wm_data Rops m = kept (w_window Rops c) h ->
  let data := kept (w_window Rops c) (h ++ [bits]) in
  let ps := map (bit_estimate (w_corrected Rops c) (w_flip Rops c) data) (seq 0 (w_length Rops c)) in
  (mixed data -> exists m', w_update Rops c m bits = (m', Ok tt) /\ wm_data Rops m' = data /\ w_knows m' ps (bernoulli_spread ps)) /\
  (~ mixed data -> exists m', w_update Rops c m bits = (m', Err IndexError) /\ wm_data Rops m' = data /\ wm_cols Rops m' <= 1 /\
     wm_entropy Rops m' = wm_entropy Rops m /\ wm_var Rops m' = wm_var Rops m).
Proof. apply mle_learn. Qed.
Print Assumptions c63_update.
Theorem c63_update_length FO c m bits : length bits <> w_length FO c -> w_update FO c m bits = (m, Err IncorrectBufferLength).
Proof. intro H. unfold w_update. destruct (Nat.eqb_spec (length bits) (w_length FO c)); [contradiction|reflexivity]. Qed.
Print Assumptions c63_update_length.

(** Counting (estimator "Bayes"): a bit adds one to the count of its value; then counts above twice the window are reduced.  The
    probability of a one is the mode of the Beta distribution with these counts, corrected for the channel; there is no exception. *)
Theorem c63_bayes_update c w m bits : w_bayes Rops c = true -> w_window Rops c = Some w -> w_flip Rops c <> (1 / 2)%R -> 1 <= w_length Rops c ->
  bits_of_length (w_length Rops c) bits -> priors (w_length Rops c) (wm_ones Rops m) (wm_zeros Rops m) ->
  let n := w_length Rops c in
  exists m', w_update Rops c m bits = (m', Ok tt) /\ priors n (wm_ones Rops m') (wm_zeros Rops m') /\
    reduced w (map (fun i => nth i (wm_ones Rops m) 0 + nth i bits 0)%Z (seq 0 n)) (map (fun i => nth i (wm_zeros Rops m) 0 + (1 - nth i bits 0))%Z (seq 0 n)) (wm_ones Rops m') (wm_zeros Rops m') /\
    w_knows m' (map (fun i => unflipped (w_flip Rops c) (beta_mode (nth i (wm_ones Rops m') 0%Z) (nth i (wm_zeros Rops m') 0%Z))) (seq 0 n)) (beta_spread (w_flip Rops c) (wm_ones Rops m') (wm_zeros Rops m')).
Proof. intros Hy Hw Hf Hn Hb Hp. destruct (bayes_learn c w m bits Hy Hw Hf Hn Hb Hp) as (ones & zeros & m' & E & <- & <- & Pr & Rd & K). exists m'. auto. Qed.
Print Assumptions c63_bayes_update.

(** As long as no more than 2 * window_length - 2 buffers were decoded, both models hold the frequencies of ones of all buffers they
    learned, corrected for the channel. *)
Theorem c63_bayes_history {D X} (parser : bytes -> res D) c w (calls : list ((list R -> res (list Z * X * bool)) * list R)) m0 a b outs :
  w_bayes Rops c = true -> w_window Rops c = Some w -> w_flip Rops c <> (1 / 2)%R -> 1 <= w_length Rops c -> length (w_idx Rops c) = w_length Rops c -> w_init Rops c = Ok m0 ->
  in_turn (fun s call => w_decode Rops parser c (fst call) s (snd call)) m0 calls = ((a, b), outs) -> Forall is_ok outs -> Forall (Forall is_bit) (w_estimates outs) ->
  (Z.of_nat (length calls) + 2 <= 2 * w)%Z ->
  let good := goods parser (w_idx Rops c) outs in
  let all := alls parser (w_idx Rops c) calls outs in
  let probs h := match h with [] => [] | _ => map (fun i => unflipped (w_flip Rops c) (share h 1 i)) (seq 0 (w_length Rops c)) end in
  opinion c a (probs good) (Z.of_nat (length good)) (beta_spread (w_flip Rops c) (wm_ones Rops a) (wm_zeros Rops a)) /\
  opinion c b (probs all) (Z.of_nat (length all)) (beta_spread (w_flip Rops c) (wm_ones Rops b) (wm_zeros Rops b)).
Proof.
  intros Hy Hw Hf Hn L I T O B Hs. cbn zeta. destruct m0 as [a0 b0]. destruct (fresh_bayes c a0 b0 Hy Hn L I) as [<- T0].
  destruct (history_learns parser c calls a0 a0 a b outs T O B) as (La & Lb & Ba & Bb & _ & Ln). rewrite L in Ba, Bb.
  assert (Lg : length (goods parser (w_idx Rops c) outs) <= length calls).
  { assert (Lo : length outs = length calls) by (pose proof (in_turn_length (fun s call => w_decode Rops parser c (fst call) s (snd call)) calls (a0, a0)) as Q; change (F Rops) with R in *; rewrite T in Q; exact Q).
    rewrite <- Lo. clear. unfold goods. induction outs as [|o t IH]; [cbn; lia|]. cbn [flat_map length]. rewrite app_length. assert (length (good_bits parser (w_idx Rops c) o) <= 1) by (unfold good_bits; destruct o as [[[[[e x] k] y] z]|y]; [destruct (recognised _ _)|]; cbn; lia). lia. }
  pose proof (learns_tallied c w _ Hy Hw Hf Hn a0 [] a T0 Ba ltac:(cbn [app]; lia) La) as Ta. pose proof (learns_tallied c w _ Hy Hw Hf Hn a0 [] b T0 Bb ltac:(cbn [app]; lia) Lb) as Tb. cbn [app] in Ta, Tb.
  split; apply tallied_opinion; auto.
Qed.
Print Assumptions c63_bayes_history.
(** Afterwards: still positive counts, and the modes of their Beta distributions. *)
Theorem c63_bayes_always {D X} (parser : bytes -> res D) c w (calls : list ((list R -> res (list Z * X * bool)) * list R)) m0 a b outs :
  w_bayes Rops c = true -> w_window Rops c = Some w -> w_flip Rops c <> (1 / 2)%R -> 1 <= w_length Rops c -> length (w_idx Rops c) = w_length Rops c -> w_init Rops c = Ok m0 ->
  in_turn (fun s call => w_decode Rops parser c (fst call) s (snd call)) m0 calls = ((a, b), outs) -> Forall is_ok outs -> Forall (Forall is_bit) (w_estimates outs) ->
  forall m, m = a /\ goods parser (w_idx Rops c) outs <> [] \/ m = b /\ calls <> [] ->
  priors (w_length Rops c) (wm_ones Rops m) (wm_zeros Rops m) /\
  w_knows m (map (fun i => unflipped (w_flip Rops c) (beta_mode (nth i (wm_ones Rops m) 0%Z) (nth i (wm_zeros Rops m) 0%Z))) (seq 0 (w_length Rops c))) (beta_spread (w_flip Rops c) (wm_ones Rops m) (wm_zeros Rops m)).
Proof.
  intros Hy Hw Hf Hn L I T O B m Hm. destruct m0 as [a0 b0]. destruct (fresh_bayes c a0 b0 Hy Hn L I) as [<- T0].
  destruct (history_learns parser c calls a0 a0 a b outs T O B) as (La & Lb & Ba & Bb & _ & Ln). rewrite L in Ba, Bb. pose proof (counts_priors _ _ _ _ (proj1 T0)) as P0.
  destruct (learns_priors c w _ Hy Hw Hf Hn Ba a0 a P0 La) as [P1 K1]. destruct (learns_priors c w _ Hy Hw Hf Hn Bb a0 b P0 Lb) as [P2 K2].
  destruct Hm as [[-> N]|[-> N]]; [auto|]. split; [exact P2|]. apply K2. intro Q. rewrite Q in Ln. destruct calls; [contradiction|discriminate].
Qed.
Print Assumptions c63_bayes_always.

(** Defect: the reduction does not keep the probabilities.  With window_length 4, after seven buffers, two of which have a one as second
    bit, the model is certain that the second bit is a zero. *)
Definition reducing : list (list Z) := [[1; 1]; [1; 1]; [1; 0]; [0; 0]; [0; 0]; [0; 0]; [0; 0]]%Z.
Definition reducing_conf : w_conf Rops := WConf Rops [0; 1] 2 (1 / 2)%R 1%R (Some 4%Z) 0%R 0%R 0%R 0%R 0 true 0%R false.
Theorem c63_bayes_reduction_refuted : exists a b v, w_init Rops reducing_conf = Ok (a, b) /\
  w_knows (fold_left (fun m bits => fst (w_update Rops reducing_conf m bits)) reducing a) [3 / 7; 0]%R v /\ (share reducing 1 0 = 3 / 7 /\ share reducing 1 1 = 2 / 7)%R.
Proof.
  set (c := reducing_conf). destruct (w_init Rops c) as [[a b]|] eqn:I; [|discriminate]. exists a, b. destruct (fresh_bayes c a b eq_refl ltac:(cbn; lia) eq_refl I) as [_ T0].
  set (h := firstn 6 reducing). set (m := fold_left (fun m bits => fst (w_update Rops c m bits)) h a).
  assert (Bh : Forall (bits_of_length 2) h). { unfold h, reducing. cbn [firstn]. repeat (apply Forall_cons; [split; [reflexivity|]; repeat (apply Forall_cons; [(left; reflexivity) || (right; reflexivity)|]); constructor|]). constructor. }
  assert (Hf : w_flip Rops c <> (1 / 2)%R) by (cbn; lra).
  pose proof (bayes_learns c 4 h eq_refl eq_refl Hf ltac:(cbn; lia) Bh a (counts_priors _ _ _ _ (proj1 T0))) as Ls. fold m in Ls.
  pose proof (learns_tallied c 4 h eq_refl eq_refl Hf ltac:(cbn; lia) a [] m T0 Bh ltac:(cbn; lia) Ls) as (Ct & _). cbn [app] in Ct.
  assert (Hb : bits_of_length 2 [0; 0]%Z). { split; [reflexivity|]. repeat (apply Forall_cons; [left; reflexivity|]). constructor. }
  destruct (c63_bayes_update c 4 m [0; 0]%Z eq_refl eq_refl Hf ltac:(cbn; lia) Hb (counts_priors _ _ _ _ Ct)) as (m' & E & Pr & Rd & K).
  exists (beta_spread (w_flip Rops c) (wm_ones Rops m') (wm_zeros Rops m')). split; [reflexivity|].
  replace (fold_left (fun m bits => fst (w_update Rops c m bits)) reducing a) with m' by (change reducing with (h ++ [[0; 0]%Z]); rewrite fold_left_app; fold m; cbn [fold_left]; rewrite E; reflexivity).
  destruct Ct as (_ & _ & Ct). change (w_length Rops c) with 2 in *. destruct (Ct 0 ltac:(lia)) as [C1 C2]. destruct (Ct 1 ltac:(lia)) as [C3 C4].
  change (votes h 1 0) with 3 in C1. change (votes h 0 0) with 3 in C2. change (votes h 1 1) with 2 in C3. change (votes h 0 1) with 4 in C4.
  cbn [seq map] in Rd, K. rewrite C1, C2, C3, C4 in Rd. unfold reduced in Rd. cbn [nth] in Rd.
  change (1 + Z.of_nat 3 + 0)%Z with 4%Z in Rd. change (1 + Z.of_nat 3 + (1 - 0))%Z with 5%Z in Rd. change (1 + Z.of_nat 2 + 0)%Z with 3%Z in Rd. change (1 + Z.of_nat 4 + (1 - 0))%Z with 6%Z in Rd.
  cbv beta zeta in Rd. change (4 + 5 <=? 2 * 4)%Z with false in Rd. cbv iota in Rd. destruct Rd as (k & _ & _ & _ & K1 & _ & Rn). change (4 / Z.gcd 4 5 + 5 / Z.gcd 4 5)%Z with 9%Z in K1. rewrite (K1 ltac:(lia)) in Rn.
  destruct (Rn 0 ltac:(cbn; lia)) as [R1 R2]. destruct (Rn 1 ltac:(cbn; lia)) as [R3 R4]. cbn [nth] in R1, R2, R3, R4.
  change (1 * (4 / Z.gcd 4 5))%Z with 4%Z in R1. change (1 * (5 / Z.gcd 4 5))%Z with 5%Z in R2. change (1 * (3 / Z.gcd 3 6))%Z with 1%Z in R3. change (1 * (6 / Z.gcd 3 6))%Z with 2%Z in R4.
  rewrite R1, R2, R3, R4 in K. split.
  - replace (unflipped (w_flip Rops c) (beta_mode 4 5)) with (3 / 7)%R in K.
    + replace (unflipped (w_flip Rops c) (beta_mode 1 2)) with 0%R in K; [exact K|]. unfold unflipped, beta_mode. cbn [Z.add Z.eqb Pos.add Pos.eqb Pos.succ]. change (w_flip Rops c) with 0%R.
      replace (((1 - 1) / (1 + 2 - 2) - 0) / (1 - 2 * 0))%R with 0%R by field. rewrite Rmax_left, Rmin_right; lra.
    + unfold unflipped, beta_mode. cbn [Z.add Z.eqb Pos.add Pos.eqb Pos.succ]. change (w_flip Rops c) with 0%R. replace (((4 - 1) / (4 + 5 - 2) - 0) / (1 - 2 * 0))%R with (3 / 7)%R by field.
      rewrite Rmax_right by lra. rewrite Rmin_right by lra. lra.
  - unfold share. change (votes reducing 1 0) with 3. change (votes reducing 1 1) with 2. change (length reducing) with 7. cbn [INR]. split; field.
Qed.
Print Assumptions c63_bayes_reduction_refuted.
(** A heartbeat is decoded, then a word of zeros that does not decode arrives: the second model stores what was received. *)
Definition hbq_conf : w_conf Qops := WConf Qops (seq 0 136) 136 (1 # 10)%Q 1%Q None 0%Q 0%Q 0%Q 0%Q 0 false 0%Q false.
Definition hbq_calls : list ((list Q -> res (list Z * unit * bool)) * list Q) :=
  [((fun _ => Ok (hb_bits ++ repeat 0%Z 4, tt, true)), repeat 1%Q 140); ((fun _ => Ok (repeat 1%Z 140, tt, false)), repeat 1%Q 140)].
Example c63_ex : match w_init Qops hbq_conf with
  | Err _ => False
  | Ok m0 => let r := in_turn (fun s call => w_decode Qops (decode (fun b => b)) hbq_conf (fst call) s (snd call)) m0 hbq_calls in
      wm_data Qops (fst (fst r)) = [hb_bits] /\ wm_data Qops (snd (fst r)) = [hb_bits; repeat 0%Z 136]
  end.
Proof. cbn [w_init w_bayes hbq_conf]. cbv zeta. split; vm_compute; reflexivity. Qed.

(** ** C64 *)

(** Prediction.  Without a structural bit other than code bit 0 the word stays as it is.  With confidence scheme 4 and an untaught model
    it is an exception.  Else both models add their weighted log ratios at the bits they find structural, and every value of the word is
    limited to clipping_factor times its largest value. *)
Theorem c64_predict c a b psa na va psb nb vb obs mx : opinion c a psa na va -> opinion c b psb nb vb ->
  NoDup (w_idx Rops c) -> Forall (fun i => i < length obs) (w_idx Rops c) -> largest obs mx ->
  let thr := w_threshold Rops c in
  let some := exists j, (structural thr psa j \/ structural thr psb j) /\ nth j (w_idx Rops c) 0 <> 0 in
  let w := weights (w_scheme Rops c) (trust (w_a_center Rops c) (w_a_slope Rops c) na) (trust (w_b_center Rops c) (w_b_slope Rops c) nb) va vb in
  (~ some -> w_predict Rops c a b obs = Ok obs) /\
  (some -> w_scheme Rops c = 4%Z -> psa = [] \/ psb = [] -> w_predict Rops c a b obs = Err (if w_bayes Rops c then ZeroDivision else AttributeError)) /\
  (some -> w_scheme Rops c <> 4%Z \/ psa <> [] /\ psb <> [] -> exists mid out,
     shifted (w_idx Rops c) (fun j => structural thr psa j /\ (0 < fst w)%R) (fun j => (fst w * log_ratio (nth j psa 0))%R) obs mid /\
     shifted (w_idx Rops c) (fun j => structural thr psb j /\ (0 < snd w)%R) (fun j => (snd w * log_ratio (nth j psb 0))%R) mid out /\
     w_predict Rops c a b obs = Ok (map (limited (w_clip Rops c * mx)) out)).
Proof. apply predict_opinion. Qed.
Print Assumptions c64_predict.

(** Defect: not only the structural bits are limited.  A value at any other position that exceeds the bound is changed. *)
Theorem c64_others_refuted c a b psa na va psb nb vb obs mx p j : opinion c a psa na va -> opinion c b psb nb vb ->
  NoDup (w_idx Rops c) -> Forall (fun i => i < length obs) (w_idx Rops c) -> largest obs mx -> w_scheme Rops c <> 4%Z ->
  structural (w_threshold Rops c) psa j -> nth j (w_idx Rops c) 0 <> 0 -> ~ In p (w_idx Rops c) -> p < length obs -> (0 <= w_clip Rops c * mx < Rabs (nth p obs 0))%R ->
  exists out, w_predict Rops c a b obs = Ok out /\ nth p out 0%R <> nth p obs 0%R.
Proof.
  intros Oa Ob N Rg Mx S4 St Nz Np Hp Hb. destruct (c64_predict c a b psa na va psb nb vb obs mx Oa Ob N Rg Mx) as (_ & _ & H). destruct H as (mid & out & S1 & S2 & E); [exists j; auto|auto|].
  exists (map (limited (w_clip Rops c * mx)) out). split; [exact E|]. rewrite (nth_indep _ 0%R (limited (w_clip Rops c * mx) 0)) by (rewrite map_length; rewrite (proj1 S2), (proj1 S1); exact Hp).
  rewrite map_nth. destruct S1 as (_ & _ & _ & S1). destruct S2 as (_ & _ & _ & S2). rewrite (S2 p Np), (S1 p Np). intro Q. pose proof (limited_bound (w_clip Rops c * mx) (nth p obs 0%R) ltac:(lra)) as L. rewrite Q in L.
  unfold Rabs in Hb. destruct (Rcase_abs (nth p obs 0%R)); lra.
Qed.
Print Assumptions c64_others_refuted.

(** Defect: scheme 1 is meant to make the two weights sum up to one; they never do. *)
Theorem c64_normalise_refuted a b va vb : (0 < a < 1)%R -> (0 < b < 1)%R -> (fst (weights 1 a b va vb) + snd (weights 1 a b va vb) < 1)%R.
Proof.
  intros Ha Hb. unfold weights. destruct (Rlt_dec 0 (a + b)); [|lra]. cbn [fst snd]. apply Rmult_lt_reg_r with (a + b)%R; [lra|]. unfold Rdiv. rewrite Rmult_plus_distr_r, !Rmult_assoc, Rinv_l by lra.
  assert (a * a < a * 1)%R by (apply Rmult_lt_compat_l; lra). assert (b * b < b * 1)%R by (apply Rmult_lt_compat_l; lra). lra.
Qed.
Print Assumptions c64_normalise_refuted.
(** Both logistic weights of taught models lie strictly between 0 and 1. *)
Theorem c64_weight_range center slope n : (1 < n)%Z -> (0 < trust center slope n < 1)%R.
Proof.
  intro H. unfold trust. destruct (Z.leb_spec n 1); [lia|]. pose proof (exp_pos (- (IZR n - center) * slope)) as P. split; [apply Rinv_0_lt_compat; lra|].
  rewrite <- Rinv_1. apply Rinv_1_lt_contravar; lra.
Qed.
Print Assumptions c64_weight_range.

(** Defect: scheme 2 does the same as scheme 0, not to prefer the model of good buffers. *)
Definition with_scheme (FO : fops) (c : w_conf FO) (s : Z) : w_conf FO :=
  WConf FO (w_idx FO c) (w_length FO c) (w_threshold FO c) (w_clip FO c) (w_window FO c) (w_a_center FO c) (w_a_slope FO c) (w_b_center FO c) (w_b_slope FO c) s (w_bayes FO c) (w_flip FO c) (w_corrected FO c).
Theorem c64_scheme_two_refuted FO c a b obs : w_predict FO (with_scheme FO c 2) a b obs = w_predict FO (with_scheme FO c 0) a b obs.
Proof. reflexivity. Qed.
Print Assumptions c64_scheme_two_refuted.

(** Three buffers 01 were stored by the first model (probabilities 0 and 1), none by the second.  The received 1 at bit 0 is turned to a 0,
    bit 1 and the parity bit 2 are cut to +-2. *)
Definition three : list (list Z) := [[0; 1]; [0; 1]; [0; 1]]%Z.
Definition ex_conf : w_conf Rops := WConf Rops [0; 1] 2 (1 / 2)%R 1%R None 3%R 1%R 3%R 1%R 3 false 0%R false.
Definition ex_a : w_model Rops := WM Rops three [] [] [[1 - 0; 0]; [1 - 1; 1]]%R 2 [bit_entropy 0; bit_entropy 1] (VNum Rops 0%R).
Definition ex_b : w_model Rops := WM Rops [] [] [] [] 0 [] (VAbsent Rops).
Lemma sure_zero : bit_entropy 0 = 0%R.
Proof. unfold bit_entropy, shannon. cbn. destruct (Rlt_dec 0 (1 - 0)); [|lra]. destruct (Rlt_dec 0 0); [lra|]. unfold log_in. replace (1 - 0)%R with 1%R by lra. rewrite ln_1. unfold Rdiv. lra. Qed.
Example c64_ex : opinion ex_conf ex_a [0; 1]%R 3 0%R /\ opinion ex_conf ex_b [] 0 0%R /\
  exists out, w_predict Rops ex_conf ex_a ex_b [-1 / 10; 2; -3]%R = Ok out /\ (0 < nth 0 out 0 /\ nth 2 out 0 = -2)%R.
Proof.
  assert (Oa : opinion ex_conf ex_a [0; 1]%R 3 0%R).
  { right. split; [repeat split|]. split; [reflexivity|]. split; [discriminate|]. unfold counted. cbn [w_bayes ex_conf]. right. split; [reflexivity|]. repeat (apply Forall_cons; [discriminate|]). constructor. }
  assert (Ob : opinion ex_conf ex_b [] 0 0%R). { left. split; [reflexivity|]. split; [reflexivity|]. split; [reflexivity|]. split; [left; split; reflexivity|reflexivity]. }
  split; [exact Oa|]. split; [exact Ob|].
  destruct (c64_predict ex_conf ex_a ex_b [0; 1]%R 3 0%R [] 0 0%R [-1 / 10; 2; -3]%R 2%R Oa Ob) as (_ & _ & H).
  { repeat (constructor; [cbn; intuition discriminate|]). constructor. } { repeat (apply Forall_cons; [cbn; lia|]). constructor. }
  { split; [right; left; reflexivity|]. repeat (apply Forall_cons; [lra|]). constructor. }
  destruct H as (mid & out & S1 & S2 & E).
  { exists 1. split; [left; split; [cbn; lia|]|discriminate]. cbn [nth]. rewrite sure_bit. cbn. lra. } { left. discriminate. }
  exists (map (limited (w_clip Rops ex_conf * 2)) out). split; [exact E|].
  change (weights (w_scheme Rops ex_conf) (trust (w_a_center Rops ex_conf) (w_a_slope Rops ex_conf) 3) (trust (w_b_center Rops ex_conf) (w_b_slope Rops ex_conf) 0) 0 0) with (trust 3 1 3, 0%R) in S1, S2. cbn [fst snd] in S1, S2.
  assert (Et : trust 3 1 3 = (1 / 2)%R). { unfold trust. cbn [Z.leb Z.compare Pos.compare Pos.compare_cont]. replace (- (3 - 3) * 1)%R with 0%R by lra. rewrite exp_0. lra. }
  rewrite Et in S1. destruct S1 as (L1 & S1 & S1' & S1''). destruct S2 as (L2 & S2 & S2' & S2'').
  assert (Lo : length out = 3) by (rewrite L2, L1; reflexivity). change (w_clip Rops ex_conf) with 1%R.
  assert (Nm : forall i, i < 3 -> nth i (map (limited (1 * 2)) out) 0%R = limited (1 * 2) (nth i out 0%R)).
  { intros i Hi. rewrite (nth_indep _ 0%R (limited (1 * 2) 0)) by (rewrite map_length; lia). apply map_nth. }
  rewrite !Nm by lia. split.
  - specialize (S1 0 ltac:(cbn; lia)). specialize (S2' 0 ltac:(cbn; lia)). cbn [w_idx ex_conf nth] in S1, S2'.
    rewrite S2' by (intros [_ Q]; lra). rewrite S1 by (split; [split; [cbn; lia|change (bit_entropy 0 < 1 / 2)%R; rewrite sure_zero; lra]|lra]). apply limited_sign; [lra|].
    assert (1 < log_ratio 0)%R; [|lra]. unfold log_ratio. rewrite <- (ln_exp 1) at 1. apply ln_increasing; [apply exp_pos|]. pose proof exp_le_3. set (ee := (/ 4503599627370496)%R).
    assert (He : (0 < ee < 1 / 4)%R). { unfold ee. split; [apply Rinv_0_lt_compat; lra|]. replace (1 / 4)%R with (/ 4)%R by lra. apply Rinv_lt_contravar; lra. }
    apply Rmult_lt_reg_r with (0 + ee)%R; [lra|]. unfold Rdiv. rewrite Rmult_assoc, Rinv_l, Rmult_1_r by lra. apply Rle_lt_trans with (3 * (0 + ee))%R; [apply Rmult_le_compat_r; lra|lra].
  - rewrite S2'' by (cbn; intuition discriminate). rewrite S1'' by (cbn; intuition discriminate). cbn [nth]. unfold limited. rewrite Rmax_left by lra. rewrite Rmin_right; lra.
Qed.
