(** The universal denoisers (C39 - C42). *)
From Coq Require Import List ZArith QArith Reals Lra Bool Lia Arith.
From Verif.Model Require Import Py Float Dude.
From Verif.Spec Require Import RealOps DudeSpec.
From Verif.Proofs Require Import Base RealP InfoP PerfP DudeP DudeR DudeB DudeH.
Import ListNotations.
Local Close Scope R_scope.
Local Close Scope Q_scope.

(** C39.  For k >= 1 the statistics of a context are the numbers of times each symbol followed it, and the current context is made of
    the last k symbols. *)
Theorem c39_contexts : forall (FO : fops) (d : dude FO) k obs, 1 <= k -> d_k FO d = Z.of_nat k -> Forall (in_alphabet (d_size FO d)) obs ->
  let s := fed FO d online_new obs in
  o_last s = last_k k obs /\
  forall c, dict_get zs_eqb (o_contexts s) c = match follows k obs c with [] => None | l => Some (counts_of (d_size FO d) obs l) end.
Proof. intros FO d k obs Hk Ek Ho. apply (fed_inv FO d k obs Hk Ek Ho). Qed.
Print Assumptions c39_contexts.

(** The first k observations are returned unchanged, at cost 0. *)
Theorem c39_first : forall (FO : fops) (d : dude FO) k obs x, d_k FO d = Z.of_nat k -> Forall (in_alphabet (d_size FO d)) (obs ++ [x]) -> length obs < k ->
  snd (denoise_sample FO d (fed FO d online_new obs) x) =
  Ok (if d_hard FO d then Hard x else Soft (map (fun j => if Z.eqb (Z.of_nat j) x then fz FO 1 else fz FO 0) (seq 0 (d_size FO d))), fz FO 0).
Proof.
  intros FO d k obs x Ek Ho L. apply Forall_app in Ho. destruct Ho as [Ho Hx]. inversion Hx as [|? ? Hx' _]; subst.
  destruct (sample_early FO d k (fed FO d online_new obs) obs x Ek) as [-> _]; auto; [apply fed_inv; auto; lia|]. cbn [snd]. unfold unchanged, unit_row.
  destruct Hx' as [H1 H2]. destruct (d_hard FO d); [rewrite Z2Nat.id by auto; reflexivity|]. do 3 f_equal. apply map_ext. intro j.
  destruct (Nat.eqb_spec j (Z.to_nat x)); destruct (Z.eqb_spec (Z.of_nat j) x); auto; lia.
Qed.
Print Assumptions c39_first.

(** Observations outside the alphabet are refused and change nothing. *)
Theorem c39_refused : forall (FO : fops) (d : dude FO) s x, ~ in_alphabet (d_size FO d) x -> denoise_sample FO d s x = (s, Err ValueError).
Proof. intros FO d s x H. apply sample_invalid. exact H. Qed.
Print Assumptions c39_refused.

(** Setting the initial context of a fresh object has the effect of having observed it; any other length is refused; reset makes a
    fresh object. *)
Theorem c39_initial_context : forall (FO : fops) (d : dude FO) k c, 1 <= k -> d_k FO d = Z.of_nat k ->
  (length c = k -> Forall (in_alphabet (d_size FO d)) c -> initial_context FO d online_new c = (fed FO d online_new c, Ok tt)) /\
  (forall s, length c <> k -> initial_context FO d s c = (s, Err ValueError)) /\
  (forall s, length c = k -> initial_context FO d s c = (Online (o_contexts s) c, Ok tt)) /\
  (forall s, dude_reset s = online_new).
Proof.
  intros FO d k c Hk Ek. split; [|split; [|split]].
  - intros L Hc.
    assert (X : forall c', length c' <= k -> Forall (in_alphabet (d_size FO d)) c' -> fed FO d online_new c' = Online [] c').
    { induction c' as [|x c' IH] using rev_ind; intros L' H'; [reflexivity|]. rewrite app_length in L'. cbn in L'. apply Forall_app in H'. destruct H' as [H' Hx]. pose proof (Forall_inv Hx) as Hx1.
      rewrite fed_snoc. assert (I := fed_inv FO d k c' Hk Ek H'). destruct (sample_early FO d k _ c' x Ek I) as [-> _]; auto; [lia|]. cbn [fst]. rewrite IH by (auto; lia). reflexivity. }
    rewrite X by (auto; lia). unfold initial_context. rewrite L, Ek, Z.eqb_refl. reflexivity.
  - intros s L. unfold initial_context. rewrite Ek. destruct (Z.eqb_spec (Z.of_nat (length c)) (Z.of_nat k)); [lia|reflexivity].
  - intros s L. unfold initial_context. rewrite L, Ek, Z.eqb_refl. reflexivity.
  - reflexivity.
Qed.
Print Assumptions c39_initial_context.

(** A sequence is denoised sample by sample; the first symbol outside the alphabet stops it. *)
Theorem c39_sequence : forall (FO : fops) (d : dude FO) s obs, d_hard FO d = true \/ 2 <= d_size FO d -> Forall (in_alphabet (d_size FO d)) obs ->
  (exists rs, denoise_online FO d s obs = (fed FO d s obs, Ok rs) /\ length rs = length obs /\
     forall i x, nth_error obs i = Some x -> exists r, nth_error rs i = Some r /\ snd (denoise_sample FO d (fed FO d s (firstn i obs)) x) = Ok r) /\
  (forall x rest, ~ in_alphabet (d_size FO d) x -> denoise_online FO d s (obs ++ x :: rest) = (fed FO d s obs, Err ValueError)).
Proof. intros FO d s obs H Ho. split; [apply sequence_ok; auto|]. intros x rest Hx. apply sequence_invalid; auto. Qed.
Print Assumptions c39_sequence.

(** With k <= 0 every observation but the first is treated as with k = 1 ... *)
Theorem c39_no_context : forall (FO : fops) (d : dude FO) x obs y, (d_k FO d <= 0)%Z -> in_alphabet (d_size FO d) x -> Forall (in_alphabet (d_size FO d)) obs -> in_alphabet (d_size FO d) y ->
  snd (denoise_sample FO d (fed FO d online_new (x :: obs)) y) =
  snd (denoise_sample FO (with_k FO d 1) (fed FO (with_k FO d 1) online_new (x :: obs)) y).
Proof. intros FO d x obs y Hk Hx Ho Hy. apply (k0_step FO d x); auto. apply k0_run; auto. Qed.
Print Assumptions c39_no_context.
(** ... so that the statistics are not those of context length 0. *)
Theorem c39_contexts_refuted : exists (d : dude Qops) obs, d_k Qops d = 0%Z /\ Forall (in_alphabet (d_size Qops d)) obs /\
  dict_get zs_eqb (o_contexts (fed Qops d online_new obs)) [] <> Some (counts_of (d_size Qops d) obs (follows 0 obs [])).
Proof.
  exists (Dude Qops [] [] [] 0 true 2), [0; 1]%Z. split; [reflexivity|]. split; [repeat constructor; lia|]. vm_compute. discriminate.
Qed.
Print Assumptions c39_contexts_refuted.

(** C40.  The hard decision is the first symbol of least estimated loss, and the cost is that loss. *)
Definition matrices (d : dude Rops) (n : nat) : Prop :=
  d_size Rops d = n /\ length (d_channel Rops d) = n /\ length (d_inv Rops d) = n /\ length (d_loss Rops d) = n.

Lemma counts_length A obs l : length (counts_of A obs l) = A.
Proof. unfold counts_of. rewrite map_length. apply seq_length. Qed.

Theorem c40_least_loss : forall (d : dude Rops) n k obs x, matrices d n -> d_hard Rops d = true -> 1 <= k -> d_k Rops d = Z.of_nat k ->
  Forall (in_alphabet n) (obs ++ [x]) -> k <= length obs ->
  let counts := counts_of n (obs ++ [x]) (follows k (obs ++ [x]) (last_k k obs)) in
  let loss := loss_of n (d_channel Rops d) (d_inv Rops d) (d_loss Rops d) counts (Z.to_nat x) in
  exists u, snd (denoise_sample Rops d (fed Rops d online_new obs) x) = Ok (Hard (Z.of_nat u), loss u) /\ first_least n loss u.
Proof.
  intros d n k obs x (En & L1 & L2 & L3) Hh Hk Ek Ho L counts loss. apply Forall_app in Ho. destruct Ho as [Ho Hx]. inversion Hx as [|? ? Hx' _]; subst x0 l.
  destruct (sample_late Rops d k (fed Rops d online_new obs) obs x Hk Ek) as [s' [-> _]]; auto.
  - apply fed_inv; auto. rewrite En. exact Ho.
  - rewrite En. exact Hx'.
  - cbn [snd]. unfold next_counts. rewrite En. apply (decide_hard d counts (Z.to_nat x) n); auto; [destruct Hx'; lia|apply counts_length].
Qed.
Print Assumptions c40_least_loss.

(** For a binary symmetric channel and the Hamming loss: an observation is changed iff it makes up less than (for the symbol 1: at most)
    the share 2 delta (1 - delta) of the symbols seen in its context. *)
Theorem c40_threshold : forall (d : dude Rops) delta k obs x, (0 <= delta < / 2)%R -> matrices d 2 -> d_channel Rops d = bsc delta ->
  inverse_of 2 (bsc delta) (d_inv Rops d) -> d_loss Rops d = hamming_loss -> d_hard Rops d = true -> 1 <= k -> d_k Rops d = Z.of_nat k ->
  Forall (in_alphabet 2) (obs ++ [x]) -> k <= length obs ->
  let seen a := INR (holding (obs ++ [x]) a (follows k (obs ++ [x]) (last_k k obs))) in
  let bound := (2 * delta * (1 - delta) * (seen 0%nat + seen 1%nat))%R in
  exists u cost, snd (denoise_sample Rops d (fed Rops d online_new obs) x) = Ok (Hard u, cost) /\ (u = 0%Z \/ u = 1%Z) /\
    (x = 0%Z -> (u <> x <-> seen 0%nat < bound)%R) /\ (x = 1%Z -> (u <> x <-> seen 1%nat <= bound)%R).
Proof.
  intros d delta k obs x Hd Hm Ec Hi El Hh Hk Ek Ho L seen bound.
  destruct (c40_least_loss d 2 k obs x Hm Hh Hk Ek Ho L) as (u & E & Hu). rewrite Ec, El in *.
  apply Forall_app in Ho. destruct Ho as [_ Hx]. inversion Hx as [|? ? Hx' _]; subst x0 l. destruct Hx' as [Hx1 Hx2].
  exists (Z.of_nat u). eexists. split; [exact E|].
  assert (Hu2 : u < 2) by apply Hu. split; [lia|].
  unfold counts_of in Hu. cbn [seq map] in Hu.
  destruct (bsc_rule delta (d_inv Rops d) _ _ (Z.to_nat x) u Hd Hi ltac:(lia) Hu) as [R0 R1]. rewrite <- !INR_IZR_INZ in R0, R1.
  fold (seen 0%nat) in R0, R1. fold (seen 1%nat) in R0, R1. fold bound in R0, R1.
  split; intros ->; cbn in R0, R1.
  - rewrite <- (R0 eq_refl). lia.
  - rewrite <- (R1 eq_refl). change (Pos.to_nat 1) with 1. lia.
Qed.
Print Assumptions c40_threshold.

(** C41.  The soft decision is a pair of positive probabilities that add up to one, proportional to the smoothed input counts times
    the channel probabilities of the observation. *)
Lemma holding_total obs l : Forall (fun i => nth i obs (-1)%Z = 0%Z \/ nth i obs (-1)%Z = 1%Z) l -> holding obs 0 l + holding obs 1 l = length l.
Proof.
  induction 1 as [|i l [E|E] F IH]; [reflexivity| |]; unfold holding in *; cbn [filter]; rewrite E; cbn in *; lia.
Qed.
Lemma counts_positive k obs x : 1 <= k -> Forall (in_alphabet 2) (obs ++ [x]) -> k <= length obs ->
  exists c0 c1, counts_of 2 (obs ++ [x]) (follows k (obs ++ [x]) (last_k k obs)) = [c0; c1] /\ (1 <= c0 + c1)%Z.
Proof.
  intros Hk Ho L. do 2 eexists. split; [reflexivity|]. rewrite <- Nat2Z.inj_add. rewrite holding_total.
  - rewrite follows_snoc by auto. rewrite app_length. destruct (list_eq_dec _ _ _); [cbn; lia|congruence].
  - apply Forall_forall. intros i Hi. apply follows_bound in Hi. rewrite Forall_forall in Ho. specialize (Ho (nth i (obs ++ [x]) (-1)%Z) ltac:(apply nth_In; lia)). unfold in_alphabet in Ho. lia.
Qed.
Theorem c41_probabilities : forall (d : dude Rops) k obs x, matrices d 2 -> noisy_binary_channel (d_channel Rops d) -> inverse_of 2 (d_channel Rops d) (d_inv Rops d) ->
  d_hard Rops d = false -> 1 <= k -> d_k Rops d = Z.of_nat k -> Forall (in_alphabet 2) (obs ++ [x]) -> k <= length obs ->
  let counts := counts_of 2 (obs ++ [x]) (follows k (obs ++ [x]) (last_k k obs)) in
  exists p0 p1, snd (denoise_sample Rops d (fed Rops d online_new obs) x) = Ok (@Soft Rops [p0; p1], soft_loss (d_loss Rops d) [p0; p1]) /\
    (0 < p0 /\ 0 < p1 /\ p0 + p1 = 1)%R /\ [p0; p1] = soft_estimate (d_channel Rops d) (d_inv Rops d) counts (Z.to_nat x).
Proof.
  intros d k obs x (En & L1 & L2 & L3) Hn Hi Hh Hk Ek Ho L counts.
  destruct (counts_positive k obs x Hk Ho L) as (c0 & c1 & Ec & Hc).
  pose proof Ho as Ho2. apply Forall_app in Ho2. destruct Ho2 as [Ho' Hx]. inversion Hx as [|? ? Hx' _]; subst x0 l.
  assert (Hx2 : Z.to_nat x < 2) by (destruct Hx'; lia).
  destruct (soft_positive _ _ c0 c1 (Z.to_nat x) Hn Hi Hc Hx2) as [P0 P1].
  destruct (soft_distribution _ _ _ _ P0 P1) as (p0 & p1 & Ep & Q0 & Q1 & Qs). exists p0, p1.
  split; [|split; [auto|unfold counts; rewrite Ec; auto]].
  destruct (sample_late Rops d k (fed Rops d online_new obs) obs x Hk Ek) as [s' [-> _]]; auto.
  - apply fed_inv; auto. rewrite En. exact Ho'.
  - rewrite En. exact Hx'.
  - cbn [snd]. unfold next_counts. rewrite En. fold counts. etransitivity; [apply (decide_soft d counts (Z.to_nat x)); auto; apply counts_length|].
    unfold counts. rewrite Ec, Ep. reflexivity.
Qed.
Print Assumptions c41_probabilities.

(** Smoothing does not preserve the number of observations. *)
Theorem c41_total_refuted : exists delta mi c0 c1, (0 < delta < / 2)%R /\ inverse_of 2 (bsc delta) mi /\ (1 <= c0 + c1)%Z /\
  let s := smoothed (input_counts 2 mi [c0; c1] 0) (input_counts 2 mi [c0; c1] 1) in (fst s + snd s <> IZR (c0 + c1))%R.
Proof.
  exists (/ 4)%R, [[3 / 2; - / 2]; [- / 2; 3 / 2]]%R, 1%Z, 0%Z. split; [lra|]. split; [|split; [lia|]].
  - intros i j Hi Hj. destruct i as [|[|i]]; [| |lia]; destruct j as [|[|j]]; try lia; unfold bsc, ent; cbn; lra.
  - unfold smoothed, input_counts, ent. cbn. destruct (Rlt_dec _ _); [exfalso; lra|]. destruct (Rlt_dec _ _); cbn; lra.
Qed.
Print Assumptions c41_total_refuted.

(** C42.  DUDE.denoise_sequence: borders and short sequences are returned unchanged, every other estimate is decided by the counts of its
    two-sided context, and the result is accompanied by the mean cost. *)
Theorem c42_borders : forall (FO : fops) (d : dude FO) k obs, d_k FO d = Z.of_nat k -> Forall (in_alphabet (d_size FO d)) obs -> d_hard FO d = true \/ 2 <= d_size FO d ->
  exists es m, denoise_batch FO d obs = Ok (es, m) /\ length es = length obs /\
    forall i, i < length obs -> i < k \/ length obs <= i + k ->
      nth_error es i = Some (if d_hard FO d then Hard (nth i obs 0%Z) else Soft (map (fun j => if Z.eqb (Z.of_nat j) (nth i obs 0%Z) then fz FO 1 else fz FO 0) (seq 0 (d_size FO d)))).
Proof.
  intros FO d k obs Ek Ho Hd. destruct (batch_spec FO d k obs Ek Ho Hd) as (es & cs & E & L1 & L2 & H1 & _). exists es. eexists. split; [exact E|]. split; [exact L1|].
  intros i Hi Hb. rewrite (nth_error_nth' es (Hard 0)) by lia. f_equal. destruct (H1 i (Hard 0) (fz FO 0) Hi Hb) as [-> _]. unfold unchanged, unit_row.
  assert (Ha : in_alphabet (d_size FO d) (nth i obs 0%Z)) by (rewrite Forall_forall in Ho; apply Ho, nth_In; auto). destruct Ha.
  destruct (d_hard FO d); [rewrite Z2Nat.id by auto; reflexivity|]. f_equal. apply map_ext. intro j.
  destruct (Nat.eqb_spec j (Z.to_nat (nth i obs 0%Z))); destruct (Z.eqb_spec (Z.of_nat j) (nth i obs 0%Z)); auto; lia.
Qed.
Print Assumptions c42_borders.

(** Symbols out of the alphabet: those which are no index of an array of its size stop the denoiser, in the middle of the sequence, and for soft
    decisions anywhere; negative ones stand for those counted from the end. *)
Definition no_index (n : nat) (x : Z) : Prop := (Z.of_nat n <= x \/ x < - Z.of_nat n)%Z.
Lemma array_index_no n x : no_index n x -> array_index n x = Err IndexError.
Proof.
  intros H. unfold array_index, no_index in *. destruct (Z.leb_spec 0 x); destruct (Z.ltb_spec x (Z.of_nat n)); destruct (Z.leb_spec (- Z.of_nat n) x); destruct (Z.ltb_spec x 0); cbn [andb]; try reflexivity; lia.
Qed.
Lemma array_index_only n x : (exists a, array_index n x = Ok a) \/ array_index n x = Err IndexError.
Proof. unfold array_index. destruct (_ && _)%bool; [left; eauto|]. destruct (_ && _)%bool; [left; eauto|right; reflexivity]. Qed.
Lemma array_index_mod n x : (- Z.of_nat n <= x < Z.of_nat n)%Z -> array_index n x = Ok (Z.to_nat (x mod Z.of_nat n)).
Proof.
  intros H. unfold array_index. destruct (Z.leb_spec 0 x); destruct (Z.ltb_spec x (Z.of_nat n)); destruct (Z.leb_spec (- Z.of_nat n) x); destruct (Z.ltb_spec x 0); cbn [andb]; try lia.
  - rewrite Z.mod_small by lia. reflexivity.
  - replace (x mod Z.of_nat n)%Z with (x + Z.of_nat n)%Z; [reflexivity|]. rewrite <- (Z.mod_small (x + Z.of_nat n) (Z.of_nat n)) by lia.
    rewrite <- (Z_mod_plus_full x 1 (Z.of_nat n)). rewrite Z.mul_1_l. reflexivity.
Qed.
Lemma fold_index_only {B} (g : B -> nat -> nat -> B) n (f : nat -> Z) l b :
  let r := fold_res (fun b i => do! a <- array_index n (f i) in Ok (g b i a)) l b in
  ((exists y, r = Ok y) /\ forall i, In i l -> ~ no_index n (f i)) \/ r = Err IndexError.
Proof.
  cbv zeta. revert b. induction l as [|i l IH]; intros b; [left; split; [eexists; reflexivity|intros ? []]|]. cbn [fold_res].
  destruct (array_index_only n (f i)) as [[a E]|E]; rewrite E; cbn [bind]; [|right; reflexivity].
  destruct (IH (g b i a)) as [[Y N]|Y]; [left|right; exact Y]. split; [exact Y|]. intros j [<-|J]; [|exact (N j J)]. intros Z. rewrite (array_index_no _ _ Z) in E. discriminate.
Qed.
Lemma soft_border_only (FO : fops) (d : dude FO) l : d_hard FO d = false ->
  ((exists y, border FO d l = Ok y) /\ forall x, In x l -> ~ no_index (d_size FO d) x) \/ border FO d l = Err IndexError.
Proof.
  intros H. unfold border. rewrite H. induction l as [|x l IH]; [left; split; [eexists; reflexivity|intros ? []]|]. cbn [map_res].
  destruct (array_index_only (d_size FO d) x) as [[a E]|E]; rewrite E; cbn [bind]; [|right; reflexivity].
  destruct IH as [[[y Y] N]|Y]; rewrite Y; cbn [bind]; [left|right; reflexivity]. split; [eexists; reflexivity|].
  intros j [<-|J]; [|exact (N j J)]. intros Z. rewrite (array_index_no _ _ Z) in E. discriminate.
Qed.
Theorem c42_outside : forall (FO : fops) (d : dude FO) k obs i x, d_k FO d = Z.of_nat k -> nth_error obs i = Some x ->
  (Z.of_nat (d_size FO d) <= x \/ x < - Z.of_nat (d_size FO d))%Z -> d_hard FO d = false \/ k <= i /\ i + k < length obs ->
  denoise_batch FO d obs = Err IndexError.
Proof.
  intros FO d k obs i x Ek Hx Hn Hi. fold (no_index (d_size FO d) x) in Hn. unfold denoise_batch. cbv zeta. rewrite Ek, Nat2Z.id.
  assert (Li : i < length obs) by (apply nth_error_Some; congruence).
  assert (C : k <= i /\ i + k < length obs -> batch_contexts FO d k obs = Err IndexError).
  { intros Hm. unfold batch_contexts. cbv zeta.
    destruct (fold_index_only (fun contexts j a => dict_set sides_eqb contexts (two_sides k obs j) (bump match dict_get sides_eqb contexts (two_sides k obs j) with Some x => x | None => repeat 0%Z (d_size FO d) end a))
      (d_size FO d) (fun j => nth j obs 0%Z) (seq k (length obs - 2 * k)) []) as [[_ N]|E]; [|exact E].
    exfalso. apply (N i); [apply in_seq; lia|]. rewrite (nth_error_nth _ _ _ Hx). exact Hn. }
  destruct (d_hard FO d) eqn:Hh.
  - destruct Hi as [Hi|Hi]; [discriminate|]. unfold border. rewrite Hh. cbn [bind]. rewrite (C Hi). reflexivity.
  - destruct (soft_border_only FO d (firstn k obs) Hh) as [[[y1 E1] N1]|E1]; rewrite E1; cbn [bind]; [|reflexivity].
    destruct (soft_border_only FO d (skipn (if k =? 0 then 0 else length obs - k) obs) Hh) as [[[y2 E2] N2]|E2]; rewrite E2; cbn [bind]; [|reflexivity].
    destruct (le_lt_dec k i) as [Lk|Lk].
    + destruct (le_lt_dec (length obs) (i + k)) as [Ln|Ln]; [|rewrite (C (conj Lk Ln)); reflexivity]. exfalso. apply (N2 x); [|exact Hn].
      apply nth_error_split in Hx as (l1 & l2 & -> & <-). rewrite skipn_app. apply in_or_app. right. rewrite app_length in *. cbn [length] in *.
      replace ((if k =? 0 then 0 else length l1 + S (length l2) - k) - length l1) with 0 by (destruct (Nat.eqb_spec k 0); lia). left. reflexivity.
    + exfalso. apply (N1 x); [|exact Hn]. rewrite <- (firstn_skipn k obs), nth_error_app1 in Hx by (rewrite firstn_length; lia). exact (nth_error_In _ _ Hx).
Qed.
Print Assumptions c42_outside.

Theorem c42_negative : forall (FO : fops) (d : dude FO) k obs, d_k FO d = Z.of_nat k -> length obs <= k -> d_hard FO d = false ->
  Forall (fun x => - Z.of_nat (d_size FO d) <= x < Z.of_nat (d_size FO d))%Z obs ->
  denoise_batch FO d obs = Ok (map (fun x => Soft (map (fun j => if Z.eqb (Z.of_nat j) (x mod Z.of_nat (d_size FO d)) then fz FO 1 else fz FO 0) (seq 0 (d_size FO d)))) obs,
                               fmean FO (repeat (fz FO 0) (length obs))).
Proof.
  intros FO d k obs Ek L Hh Ho. set (row := fun x : Z => Soft (map (fun j => if Z.eqb (Z.of_nat j) (x mod Z.of_nat (d_size FO d)) then fz FO 1 else fz FO 0) (seq 0 (d_size FO d)))).
  assert (B : border FO d obs = Ok (map row obs)).
  { unfold border. rewrite Hh. apply map_res_ok. intros o O. rewrite Forall_forall in Ho. specialize (Ho o O). rewrite (array_index_mod _ _ Ho). cbn [bind]. unfold row, unit_row. do 2 f_equal.
    apply map_ext. intros j. pose proof (Z.mod_pos_bound o (Z.of_nat (d_size FO d)) ltac:(lia)) as M.
    destruct (Nat.eqb_spec j (Z.to_nat (o mod Z.of_nat (d_size FO d)))); destruct (Z.eqb_spec (Z.of_nat j) (o mod Z.of_nat (d_size FO d))); auto; lia. }
  unfold denoise_batch. cbv zeta. rewrite Ek, Nat2Z.id, firstn_all2 by exact L. rewrite B. cbn [bind].
  replace (if k =? 0 then 0 else length obs - k) with 0 by (destruct (Nat.eqb_spec k 0); lia). cbn [skipn firstn app]. rewrite B. cbn [bind].
  unfold batch_contexts. replace (length obs - 2 * k) with 0 by lia. cbn [seq fold_res bind fst snd]. reflexivity.
Qed.
Print Assumptions c42_negative.

Theorem c42_hard : forall (d : dude Rops) n k obs, matrices d n -> d_hard Rops d = true -> d_k Rops d = Z.of_nat k -> Forall (in_alphabet n) obs ->
  let counts i := counts_of n obs (between k obs (slice obs (i - k) i) (slice obs (i + 1) (i + k + 1))) in
  let loss i := loss_of n (d_channel Rops d) (d_inv Rops d) (d_loss Rops d) (counts i) (Z.to_nat (nth i obs 0%Z)) in
  exists (us : list nat) (cs : list R), denoise_batch Rops d obs = Ok (map (fun u => Hard (Z.of_nat u)) us, (Rsum cs / INR (length obs))%R) /\
    length us = length obs /\ length cs = length obs /\
    (forall i, i < k \/ length obs <= i + k -> i < length obs -> Z.of_nat (nth i us 0) = nth i obs 0%Z /\ nth i cs 0%R = 0%R) /\
    (forall i, k <= i -> i + k < length obs -> first_least n (loss i) (nth i us 0) /\ nth i cs 0%R = loss i (nth i us 0)).
Proof.
  intros d n k obs (En & L1 & L2 & L3) Hh Ek Ho counts loss. subst n.
  destruct (batch_spec Rops d k obs Ek Ho (or_introl Hh)) as (es & cs & E & Le & Lc & Hb & Hm).
  assert (Un : forall i, i < length obs -> exists u, nth i es (Hard 0) = Hard (Z.of_nat u) /\
     (i < k \/ length obs <= i + k -> Z.of_nat u = nth i obs 0%Z /\ nth i cs 0%R = 0%R) /\
     (k <= i -> i + k < length obs -> first_least (d_size Rops d) (loss i) u /\ nth i cs 0%R = loss i u)).
  { intros i Hi. assert (Ha : in_alphabet (d_size Rops d) (nth i obs 0%Z)) by (rewrite Forall_forall in Ho; apply Ho, nth_In; auto). destruct Ha as [Ha1 Ha2].
    destruct (le_lt_dec k i) as [Lk|Lk]; [destruct (le_lt_dec (length obs) (i + k)) as [Ln|Ln]|].
    - destruct (Hb i (Hard 0) 0%R Hi (or_intror Ln)) as [X1 X2]. unfold unchanged in X1. rewrite Hh in X1. exists (Z.to_nat (nth i obs 0%Z)). rewrite Z2Nat.id in * by auto. repeat split; auto; lia.
    - specialize (Hm i (Hard 0) 0%R Lk Ln).
      destruct (decide_hard d (counts i) (Z.to_nat (nth i obs 0%Z)) (d_size Rops d)) as (u & E' & Hu); auto; [lia|apply counts_length|].
      fold (loss i) in E', Hu. unfold two_sided_counts in Hm. fold (counts i) in Hm. rewrite E' in Hm. inversion Hm as [[X1 X2]]. exists u. split; [auto|]. split; [lia|]. intros _ _. split; [exact Hu|symmetry; exact X2].
    - destruct (Hb i (Hard 0) 0%R Hi (or_introl Lk)) as [X1 X2]. unfold unchanged in X1. rewrite Hh in X1. exists (Z.to_nat (nth i obs 0%Z)). rewrite Z2Nat.id in * by auto. repeat split; auto; lia. }
  assert (Us : exists us : list nat, length us = length obs /\ forall i, i < length obs -> nth i es (Hard 0) = Hard (Z.of_nat (nth i us 0)) /\
     (i < k \/ length obs <= i + k -> Z.of_nat (nth i us 0) = nth i obs 0%Z /\ nth i cs 0%R = 0%R) /\
     (k <= i -> i + k < length obs -> first_least (d_size Rops d) (loss i) (nth i us 0) /\ nth i cs 0%R = loss i (nth i us 0))).
  { exists (map (fun i => match nth i es (Hard 0) with Hard z => Z.to_nat z | Soft _ => 0 end) (seq 0 (length obs))). rewrite map_length, seq_length. split; [auto|].
    intros i Hi. rewrite nth_map_seq by auto. destruct (Un i Hi) as (u & -> & H1 & H2). rewrite Nat2Z.id. auto. }
  destruct Us as (us & Lu & Hus). exists us, cs. split; [|split; [auto|split; [auto|split]]].
  - rewrite E. f_equal. f_equal.
    + apply nth_ext with (d := Hard 0) (d' := Hard (Z.of_nat 0)); [rewrite map_length; lia|]. intros i Hi. rewrite (map_nth (fun u => Hard (Z.of_nat u))). apply Hus. lia.
    + unfold fmean. rewrite Lc. cbn [fdiv fz Rops]. rewrite <- INR_IZR_INZ. f_equal. apply fsum_R.
  - intros i Hi1 Hi2. apply Hus; auto.
  - intros i Hi1 Hi2. apply Hus; auto. lia.
Qed.
Print Assumptions c42_hard.

Theorem c42_soft : forall (d : dude Rops) k obs, matrices d 2 -> noisy_binary_channel (d_channel Rops d) -> inverse_of 2 (d_channel Rops d) (d_inv Rops d) ->
  d_hard Rops d = false -> d_k Rops d = Z.of_nat k -> Forall (in_alphabet 2) obs ->
  let counts i := counts_of 2 obs (between k obs (slice obs (i - k) i) (slice obs (i + 1) (i + k + 1))) in
  exists es m, denoise_batch Rops d obs = Ok (es, m) /\
    forall i, k <= i -> i + k < length obs -> exists p0 p1, nth_error es i = Some (@Soft Rops [p0; p1]) /\ (0 < p0 /\ 0 < p1 /\ p0 + p1 = 1)%R /\
      [p0; p1] = soft_estimate (d_channel Rops d) (d_inv Rops d) (counts i) (Z.to_nat (nth i obs 0%Z)).
Proof.
  intros d k obs (En & L1 & L2 & L3) Hn Hi Hh Ek Ho counts.
  assert (Ho' : Forall (in_alphabet (d_size Rops d)) obs) by (rewrite En; exact Ho).
  destruct (batch_spec Rops d k obs Ek Ho' (or_intror (eq_ind_r (fun m => 2 <= m) (le_n 2) En))) as (es & cs & E & Le & Lc & _ & Hm). exists es. eexists. split; [exact E|].
  intros i Hk Hik. specialize (Hm i (Hard 0) 0%R Hk Hik). unfold two_sided_counts in Hm. rewrite En in Hm. fold (counts i) in Hm.
  assert (Ha : in_alphabet 2 (nth i obs 0%Z)) by (rewrite Forall_forall in Ho; apply Ho, nth_In; lia).
  assert (Hx2 : Z.to_nat (nth i obs 0%Z) < 2) by (destruct Ha; lia).
  assert (Ec : exists c0 c1, counts i = [c0; c1] /\ (1 <= c0 + c1)%Z).
  { do 2 eexists. split; [reflexivity|]. rewrite <- Nat2Z.inj_add. rewrite holding_total.
    - assert (X : In i (between k obs (slice obs (i - k) i) (slice obs (i + 1) (i + k + 1)))).
      { unfold between. apply filter_In. split; [apply in_seq; lia|]. destruct (list_eq_dec _ _ _) as [_|N]; [|congruence]. destruct (list_eq_dec _ _ _) as [_|N]; [reflexivity|congruence]. }
      destruct (between k obs (slice obs (i - k) i) (slice obs (i + 1) (i + k + 1))); [destruct X|cbn [length]; lia].
    - apply Forall_forall. intros j Hj. unfold between in Hj. apply filter_In in Hj. destruct Hj as [Hj _]. apply in_seq in Hj. rewrite Forall_forall in Ho.
      specialize (Ho (nth j obs (-1)%Z) ltac:(apply nth_In; lia)). unfold in_alphabet in Ho. lia. }
  destruct Ec as (c0 & c1 & Ec & Hc).
  destruct (soft_positive _ _ c0 c1 _ Hn Hi Hc Hx2) as [P0 P1]. destruct (soft_distribution _ _ _ _ P0 P1) as (p0 & p1 & Ep & Q0 & Q1 & Qs).
  exists p0, p1. split; [|split; [auto|rewrite Ec; auto]].
  rewrite (nth_error_nth' es (Hard 0)) by lia. f_equal.
  assert (X : decide Rops d (counts i) (Z.to_nat (nth i obs 0%Z)) = Ok (@Soft Rops [p0; p1], soft_loss (d_loss Rops d) [p0; p1])).
  { etransitivity; [apply (decide_soft d (counts i)); auto; apply counts_length|]. rewrite Ec, Ep. reflexivity. }
  rewrite X in Hm. inversion Hm. reflexivity.
Qed.
Print Assumptions c42_soft.

(** DUDE.denoise_sample cannot be used. *)
Theorem c42_denoise_sample_refuted : forall (FO : fops) (d : dude FO) x, dude_denoise_sample FO d x = Err AttributeError.
Proof. reflexivity. Qed.

(** Examples. *)
Definition ex_dude (k : Z) (hard : bool) : dude Qops :=
  Dude Qops [[3 # 4; 1 # 4]; [1 # 4; 3 # 4]]%Q [[3 # 2; - 1 # 2]; [- 1 # 2; 3 # 2]]%Q [[0; 1]; [1; 0]]%Q k hard 2.
Example c39_ex : o_contexts (fed Qops (ex_dude 1 true) online_new [0; 1; 1; 0; 1; 1]%Z) = [([0%Z], [0; 2]%Z); ([1%Z], [1; 2]%Z)].
Proof. vm_compute. reflexivity. Qed.
Example c40_ex : map (fun r => match r with (Hard u, _) => u | _ => (-1)%Z end)
  (match snd (denoise_online Qops (ex_dude 1 true) online_new [1; 1; 1; 1; 1; 0; 1; 1]%Z) with Ok l => l | Err _ => [] end) = [1; 1; 1; 1; 1; 1; 1; 1]%Z.
Proof. vm_compute. reflexivity. Qed.
Example c40_ex_inverse : inverse_of 2 (bsc (/ 4)) [[3 / 2; - / 2]; [- / 2; 3 / 2]]%R.
Proof. intros i j Hi Hj. destruct i as [|[|i]]; [| |lia]; destruct j as [|[|j]]; try lia; unfold bsc, ent; cbn; lra. Qed.
Example c41_ex_channel : noisy_binary_channel (bsc (/ 4)).
Proof. do 4 eexists. split; [reflexivity|]. lra. Qed.
Example c42_ex : match denoise_batch Qops (ex_dude 1 true) [0; 0; 0; 1; 0; 0; 0; 0; 0; 1]%Z with Ok (es, _) => map (fun e => match e with Hard u => u | _ => (-1)%Z end) es | Err _ => [] end
  = [0; 0; 0; 0; 0; 0; 0; 0; 0; 1]%Z.
Proof. vm_compute. reflexivity. Qed.
Example c42_ex_outside : denoise_batch Qops (ex_dude 1 true) [5; 0; 1; 5]%Z <> Err IndexError /\ denoise_batch Qops (ex_dude 1 true) [0; 2; 1; 0]%Z = Err IndexError /\
  denoise_batch Qops (ex_dude 1 false) [0; 0; 1; -3]%Z = Err IndexError.
Proof.
  split; [|split; [apply (c42_outside Qops (ex_dude 1 true) 1 [0; 2; 1; 0]%Z 1 2)|apply (c42_outside Qops (ex_dude 1 false) 1 [0; 0; 1; -3]%Z 3 (-3))]]; try reflexivity; cbn; auto; try lia.
  intros E. apply (f_equal (fun r => match r with Ok _ => true | Err _ => false end)) in E. vm_compute in E. discriminate.
Qed.
Example c42_ex_negative : match denoise_batch Qops (ex_dude 3 false) [-1; 0; -2]%Z with Ok (es, _) => es | Err _ => [] end = [@Soft Qops [0; 1]%Q; @Soft Qops [1; 0]%Q; @Soft Qops [1; 0]%Q].
Proof. reflexivity. Qed.
