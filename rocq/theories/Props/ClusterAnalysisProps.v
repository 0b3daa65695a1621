(** C86: the comparison of clustering methods. *)
From Coq Require Import List ZArith Arith Bool Lia Permutation.
From Verif.Model Require Import Py Float InfoTheory Perf Clustering Relabel ClusterAnalysis.
From Verif.Spec Require Import RealOps Info Cluster ClusterAnalysisSpec.
From Verif.Proofs Require Import Base.
From Verif.Props Require Import ClusterProps RelabelProps.
Import ListNotations.

Lemma map_res_map {A B} (f : A -> res B) (g : A -> B) l : (forall x, In x l -> f x = Ok (g x)) -> map_res f l = Ok (map g l).
Proof. induction l as [|x l IH]; intros H; [reflexivity|]. cbn [map_res map]. rewrite H by (left; reflexivity). cbn [bind]. rewrite IH by (intros y Hy; apply H; right; exact Hy). reflexivity. Qed.
Lemma xor_at_nth word wrong i : i < length word -> nth i (xor_at word wrong) 0%Z = if existsb (Nat.eqb i) wrong then (1 - nth i word 0)%Z else nth i word 0%Z.
Proof.
  intros Hi. unfold xor_at. set (f := fun ix : nat * Z => if existsb (Nat.eqb (fst ix)) wrong then (1 - snd ix)%Z else snd ix).
  rewrite (nth_indep _ 0%Z (f (0, 0%Z))) by (rewrite map_length, combine_length, seq_length; lia). rewrite map_nth. rewrite combine_nth by apply seq_length. rewrite seq_nth by lia. reflexivity.
Qed.
Lemma xor_at_length word wrong : length (xor_at word wrong) = length word.
Proof. unfold xor_at. rewrite map_length, combine_length, seq_length. lia. Qed.

Lemma skipn_skipn {A} (l : list A) a b : skipn a (skipn b l) = skipn (a + b) l.
Proof. revert l. induction b as [|b IH]; intros l; [rewrite Nat.add_0_r; reflexivity|]. rewrite Nat.add_succ_r. destruct l; [rewrite !skipn_nil; reflexivity|]. cbn [skipn]. apply IH. Qed.
Lemma parts_whole part n : forall r : list Z, length r = part * n -> concat (map (fun c => firstn part (skipn (c * part) r)) (seq 0 n)) = r.
Proof.
  induction n as [|n IH]; intros r L.
  - destruct r; [reflexivity|cbn in L; lia].
  - change (seq 0 (S n)) with (0 :: seq 1 n). cbn [map concat]. rewrite Nat.mul_0_l. change (skipn 0 r) with r. transitivity (firstn part r ++ skipn part r); [|apply firstn_skipn]. f_equal.
    transitivity (concat (map (fun c => firstn part (skipn (c * part) (skipn part r))) (seq 0 n))); [|apply IH; rewrite skipn_length; nia].
    rewrite <- seq_shift, map_map. f_equal. apply map_ext. intros c. rewrite skipn_skipn. do 2 f_equal. lia.
Qed.

Section Words.
Variable pad : nat -> nat -> nat -> list Z.
Variable wrong : nat -> nat -> list nat.

Definition expected_word (k part : nat) (noisy : bool) (t : nat) (row : list Z) (c : nat) : list Z :=
  let b := clean_word part row (pad t c (k - part)) c in if noisy then xor_at b (wrong t c) else b.
Lemma word_ok k part nc ne nt twe t row c : 0 < nc -> length row = part * nc -> c < nc -> part <= k -> (forall t c n, length (pad t c n) = n) ->
  analysis_word pad wrong k (part * nc) nc ne nt twe t row c = Ok (expected_word k part (Nat.ltb 0 ne && (twe || Nat.leb nt t)) t row c).
Proof.
  intros Hn Hr Hc Hk Hp. unfold analysis_word. rewrite Nat.div_mul by lia. destruct (Nat.ltb_spec k part); [lia|]. cbv zeta.
  replace (c * (part * nc) / nc) with (c * part) by (rewrite Nat.mul_assoc, Nat.div_mul; lia). replace ((c + 1) * (part * nc) / nc) with ((c + 1) * part) by (rewrite Nat.mul_assoc, Nat.div_mul; lia).
  assert (E : slice row (c * part) ((c + 1) * part) = firstn part (skipn (c * part) row)) by (unfold slice; f_equal; lia).
  rewrite E. rewrite app_length, Hp, firstn_length, skipn_length, Hr. replace (Nat.min part (part * nc - c * part)) with part by nia. replace (part + (k - part)) with k by lia. rewrite Nat.eqb_refl. cbn [negb]. reflexivity.
Qed.
End Words.

(** The words: each row is cut into [nc] parts, each part followed by padding; the bits at the drawn positions are flipped in the words that are
    to have errors. *)
Theorem c86_words : forall pad wrong k part nc ne nt twe rows, 0 < nc -> part <= k -> Forall (fun r => length r = part * nc) rows -> (forall t c n, length (pad t c n) = n) ->
  exists words, analysis_words pad wrong k (part * nc) nc ne nt twe rows = Ok words /\ length words = length rows * nc /\
  (forall t c, t < length rows -> c < nc -> exists b, nth_error words (t * nc + c) = Some (b, c) /\ length b = k /\
     forall i, i < k -> let clean := nth i (clean_word part (nth t rows []) (pad t c (k - part)) c) 0%Z in
       nth i b 0%Z = if (Nat.ltb 0 ne && (twe || Nat.leb nt t) && existsb (Nat.eqb i) (wrong t c))%bool then (1 - clean)%Z else clean) /\
  (forall r, In r rows -> concat (map (fun c => firstn part (skipn (c * part) r)) (seq 0 nc)) = r).
Proof.
  intros pad wrong k part nc ne nt twe rows Hn Hk Hr Hp. set (noisy := fun t => (Nat.ltb 0 ne && (twe || Nat.leb nt t))%bool).
  set (row_words := fun tr : nat * list Z => map (fun c => (expected_word pad wrong k part (noisy (fst tr)) (fst tr) (snd tr) c, c)) (seq 0 nc)).
  exists (concat (map row_words (combine (seq 0 (length rows)) rows))). rewrite Forall_forall in Hr.
  assert (Len : forall l, length (concat (map row_words l)) = length l * nc).
  { induction l as [|x l IH]; [reflexivity|]. cbn [map concat length]. rewrite app_length, IH. unfold row_words at 1. rewrite map_length, seq_length. lia. }
  split.
  { unfold analysis_words. rewrite (map_res_map _ row_words); [reflexivity|]. intros [t r] Ht. apply in_combine_r in Ht. apply Hr in Ht. unfold row_words. cbn [fst snd]. apply map_res_map.
    intros c Hc. apply in_seq in Hc. rewrite word_ok by (auto; lia). reflexivity. }
  split; [rewrite Len, combine_length, seq_length; f_equal; lia|]. split.
  - intros t c Ht Hc. 
    assert (At : forall l t, t < length l -> nth_error (concat (map row_words l)) (t * nc + c) = nth_error (row_words (nth t l (0, []))) c).
    { induction l as [|x l IH]; intros u Hu; [cbn in Hu; lia|]. cbn [map concat]. destruct u as [|u].
      - cbn [Nat.mul Nat.add nth]. apply nth_error_app1. unfold row_words. rewrite map_length, seq_length. lia.
      - rewrite nth_error_app2 by (unfold row_words; rewrite map_length, seq_length; lia). replace (S u * nc + c - length (row_words x)) with (u * nc + c) by (unfold row_words; rewrite map_length, seq_length; lia). cbn [nth]. apply IH. cbn in Hu. lia. }
    rewrite At by (rewrite combine_length, seq_length; lia). rewrite combine_nth by apply seq_length. rewrite seq_nth by lia. cbn [Nat.add]. unfold row_words. cbn [fst snd].
    exists (expected_word pad wrong k part (noisy t) t (nth t rows []) c). split; [rewrite (map_nth_error _ _ _ (d := c)); [reflexivity|]; rewrite (nth_error_nth' _ 0) by (rewrite seq_length; lia); rewrite seq_nth by lia; reflexivity|].
    assert (Lc : length (clean_word part (nth t rows []) (pad t c (k - part)) c) = k).
    { unfold clean_word. rewrite app_length, Hp, firstn_length, skipn_length, (Hr (nth t rows [])) by (apply nth_In; lia). nia. }
    unfold expected_word. cbv zeta. fold (noisy t). split; [destruct (noisy t); rewrite ?xor_at_length; exact Lc|].
    intros i Hi. destruct (noisy t); cbn [andb]; [|reflexivity]. apply xor_at_nth. lia.
  - intros r Hin. apply parts_whole. auto.
Qed.
Print Assumptions c86_words.

Lemma all_or (f : nat -> nat) q n : (forall c, c < n -> f c = q) \/ exists c, c < n /\ f c <> q.
Proof.
  induction n as [|n IH]; [left; intros; lia|]. destruct IH as [IH|(c & Hc & E)]; [|right; exists c; split; [lia|exact E]].
  destruct (Nat.eq_dec (f n) q) as [E|E]; [left; intros c Hc; destruct (Nat.eq_dec c n) as [-> |]; [exact E|apply IH; lia]|right; exists n; split; [lia|exact E]].
Qed.
(** Rows that cannot be cut into equal parts end the run with ValueError, as do parts longer than the words. *)
Theorem c86_ragged : forall pad wrong k w nc ne nt twe rows, 0 < nc -> rows <> [] -> Forall (fun r => length r = w) rows -> (forall t c n, length (pad t c n) = n) ->
  w mod nc <> 0 \/ k < w / nc -> analysis_words pad wrong k w nc ne nt twe rows = Err ValueError.
Proof.
  intros pad wrong k w nc ne nt twe rows Hn Hr Hw Hp H. destruct rows as [|r rows]; [contradiction|]. inversion Hw; subst. unfold analysis_words.
  assert (V : forall t row c e, analysis_word pad wrong k (length r) nc ne nt twe t row c = Err e -> e = ValueError) by (intros t row c e; unfold analysis_word; destruct (Nat.ltb _ _); [congruence|]; destruct (negb _); congruence).
  assert (G : exists c, c < nc /\ analysis_word pad wrong k (length r) nc ne nt twe 0 r c = Err ValueError).
  { destruct (le_lt_dec (length r / nc) k) as [Hk|Hk]; [|exists 0; split; [exact Hn|]; unfold analysis_word; destruct (Nat.ltb_spec k (length r / nc)); [reflexivity|lia]]. destruct H as [H|H]; [|lia].
    assert (Ex : exists c, c < nc /\ (c + 1) * length r / nc - c * length r / nc <> length r / nc).
    { destruct (Nat.eq_dec nc 0); [lia|]. set (q := length r / nc) in *.
      destruct (all_or (fun c => (c + 1) * length r / nc - c * length r / nc) q nc) as [D|D]; [|exact D]. exfalso. assert (S : forall c, c <= nc -> c * length r / nc = c * q).
      { induction c as [|c IH]; intros Hc; [cbn; apply Nat.div_0_l; lia|]. specialize (D c ltac:(lia)). specialize (IH ltac:(lia)). replace (c + 1) with (S c) in D by lia. assert (M : c * length r / nc <= S c * length r / nc) by (apply Nat.div_le_mono; [lia|nia]). nia. }
      specialize (S nc (le_n _)). rewrite Nat.mul_comm, Nat.div_mul in S by lia. pose proof (Nat.div_mod (length r) nc n) as Q. fold q in Q. nia. }
    destruct Ex as (c & Hc & E). exists c. split; [exact Hc|]. unfold analysis_word. destruct (Nat.ltb_spec k (length r / nc)); [reflexivity|]. cbv zeta. rewrite app_length, Hp. unfold slice. rewrite firstn_length, skipn_length.
    assert (B1 : (c + 1) * length r / nc <= length r) by (apply Nat.div_le_upper_bound; nia). rewrite Nat.min_l by lia.
    destruct (Nat.eqb_spec ((c + 1) * length r / nc - c * length r / nc + (k - length r / nc)) k) as [K|K]; [lia|reflexivity]. }
  destruct G as (c & Hc & E). cbn [length seq combine map_res fst snd].
  assert (F : map_res (fun c => do! b <- analysis_word pad wrong k (length r) nc ne nt twe 0 r c in Ok (b, c)) (seq 0 nc) = Err ValueError).
  { assert (Hin : In c (seq 0 nc)) by (apply in_seq; lia). induction (seq 0 nc) as [|x l IH]; [destruct Hin|]. cbn [map_res]. destruct Hin as [-> |Hin].
    - rewrite E. reflexivity.
    - destruct (analysis_word pad wrong k (length r) nc ne nt twe 0 r x) as [b|e] eqn:Ex; cbn [bind]; [rewrite (IH Hin); reflexivity|]. rewrite (V _ _ _ _ Ex). reflexivity. }
  rewrite F. reflexivity.
Qed.
Print Assumptions c86_ragged.

(** A word with errors has [no_errors / nc] of them, all in the first [k / nc] bits; so no bit behind is ever tested with an error, and the
    fraction of wrong bits is smaller than asked for (defect). *)
Theorem c86_noise : forall word wrong nc ne, 0 < nc -> Forall a_bit word -> drawn (length word / nc) (ne / nc) wrong ->
  (forall i, In i (differ word (xor_at word wrong)) <-> In i wrong) /\ length (differ word (xor_at word wrong)) = ne / nc /\ nc * length (differ word (xor_at word wrong)) <= ne /\
  forall i, length word / nc <= i -> nth i (xor_at word wrong) 0%Z = nth i word 0%Z.
Proof.
  intros word wrong nc ne Hn Hb (Hd & Hl & Hw). rewrite Forall_forall in Hb, Hw. assert (Dv : length word / nc <= length word) by (apply Nat.div_le_upper_bound; nia).
  assert (I : forall i, In i (differ word (xor_at word wrong)) <-> In i wrong).
  { intros i. unfold differ. rewrite filter_In, in_seq. split.
    - intros [Hi Hx]. rewrite xor_at_nth in Hx by lia. destruct (existsb (Nat.eqb i) wrong) eqn:E; [|rewrite Z.eqb_refl in Hx; discriminate]. apply existsb_exists in E. destruct E as (j & Hj & Ej). apply Nat.eqb_eq in Ej. subst. exact Hj.
    - intros Hi. specialize (Hw i Hi). split; [lia|]. rewrite xor_at_nth by lia. assert (E : existsb (Nat.eqb i) wrong = true) by (apply existsb_exists; exists i; split; [exact Hi|apply Nat.eqb_refl]). rewrite E.
      destruct (Hb (nth i word 0%Z)) as [-> | -> ]; [apply nth_In; lia|reflexivity|reflexivity]. }
  assert (L : length (differ word (xor_at word wrong)) = ne / nc).
  { rewrite <- Hl. apply Permutation_length, NoDup_Permutation; [apply NoDup_filter, seq_NoDup|exact Hd|exact I]. }
  split; [exact I|]. split; [exact L|]. split; [rewrite L; apply Nat.mul_div_le; lia|].
  intros i Hi. destruct (le_lt_dec (length word) i) as [G|G]; [rewrite !nth_overflow by (rewrite ?xor_at_length; lia); reflexivity|]. rewrite xor_at_nth by lia. destruct (existsb (Nat.eqb i) wrong) eqn:E; [|reflexivity].
  apply existsb_exists in E. destruct E as (j & Hj & Ej). apply Nat.eqb_eq in Ej. subst. specialize (Hw j Hj). lia.
Qed.
Print Assumptions c86_noise.

(** With train_with_errors 0 and without shuffling, the test words with numbers below nc * n_training are sent without errors, too (defect). *)
Theorem c86_clean_tests : forall pad wrong k part nc ne nt rows words i b c, 0 < nc -> part <= k -> Forall (fun r => length r = part * nc) rows -> (forall t c n, length (pad t c n) = n) ->
  analysis_words pad wrong k (part * nc) nc ne nt false rows = Ok words -> i < nc * nt -> nth_error words i = Some (b, c) ->
  b = clean_word part (nth (i / nc) rows []) (pad (i / nc) c (k - part)) c /\ c = i mod nc.
Proof.
  intros pad wrong k part nc ne nt rows words i b c Hn Hk Hr Hp E Hi Hb. destruct (c86_words pad wrong k part nc ne nt false rows Hn Hk Hr Hp) as (words' & E' & L & W & _). rewrite E in E'. injection E' as <-.
  assert (Hl : i < length words) by (apply nth_error_Some; congruence). rewrite L in Hl. assert (Hq : i / nc < length rows) by (apply Nat.div_lt_upper_bound; nia). assert (Hm : i mod nc < nc) by (apply Nat.mod_upper_bound; lia).
  destruct (W (i / nc) (i mod nc) Hq Hm) as (b' & Eb & Lb & Vb). replace (i / nc * nc + i mod nc) with i in Eb by (pose proof (Nat.div_mod i nc); lia). rewrite Hb in Eb. injection Eb as -> ->.
  split; [|reflexivity]. rewrite Forall_forall in Hr. apply nth_ext with (d := 0%Z) (d' := 0%Z).
  - rewrite Lb. unfold clean_word. rewrite app_length, Hp, firstn_length, skipn_length, (Hr (nth (i / nc) rows [])) by (apply nth_In; lia). nia.
  - intros j Hj. rewrite Vb by lia. cbv zeta. destruct (Nat.leb_spec nt (i / nc)) as [K|K]; [|rewrite andb_false_r; reflexivity]. exfalso. pose proof (Nat.div_mod i nc). nia.
Qed.
Print Assumptions c86_clean_tests.

(** The labels of the clustering: nothing but the number of the cluster chosen for the word after all the words before it, which is one of the
    cluster numbers, for every word behind the training set. *)
Lemma labels_fold kl nt nc : forall buffers, 
  (forall h b, (exists t, buffers = h ++ b :: t) -> exists l, snd (classify Rops kl (after Rops kl (classifier_new (Z.of_nat nt) (Z.of_nat nc) CLogLikelihood MHellinger WLinear) h) b) = Ok l) ->
  exists labels, fold_res (fun (sl : list Z * classifier) b => let '(s, r) := classify Rops kl (snd sl) b in do! l <- r in Ok (fst sl ++ [(l mod 256)%Z], s)) buffers
      ([], classifier_new (Z.of_nat nt) (Z.of_nat nc) CLogLikelihood MHellinger WLinear) = Ok (labels, after Rops kl (classifier_new (Z.of_nat nt) (Z.of_nat nc) CLogLikelihood MHellinger WLinear) buffers) /\
    length labels = length buffers /\
    forall i, i < length buffers -> exists l, snd (classify Rops kl (after Rops kl (classifier_new (Z.of_nat nt) (Z.of_nat nc) CLogLikelihood MHellinger WLinear) (firstn i buffers)) (nth i buffers [])) = Ok l /\ nth i labels 0%Z = (l mod 256)%Z.
Proof.
  induction buffers as [|b buffers IH] using rev_ind; intros H.
  - exists []. split; [reflexivity|]. split; [reflexivity|]. intros i Hi. cbn in Hi. lia.
  - destruct IH as (labels & E & L & N). { intros h b' (t & ->). apply H. exists (t ++ [b]). rewrite <- app_assoc. reflexivity. }
    destruct (H buffers b (ex_intro _ [] eq_refl)) as (l & El).
    exists (labels ++ [(l mod 256)%Z]). rewrite fold_res_app, E. cbn [bind fold_res fst snd]. unfold after at 2. rewrite fold_left_app. cbn [fold_left]. fold (after Rops kl (classifier_new (Z.of_nat nt) (Z.of_nat nc) CLogLikelihood MHellinger WLinear) buffers).
    destruct (classify Rops kl (after Rops kl (classifier_new (Z.of_nat nt) (Z.of_nat nc) CLogLikelihood MHellinger WLinear) buffers) b) as [s r] eqn:C. cbn [fst snd] in *. subst r. cbn [bind].
    split; [reflexivity|]. split; [rewrite !app_length, L; reflexivity|]. intros i Hi. rewrite app_length in Hi. cbn in Hi. destruct (Nat.eq_dec i (length buffers)) as [-> |Ne].
    + rewrite <- (app_nil_r (firstn _ _)). rewrite firstn_app, Nat.sub_diag, firstn_all, app_nil_r, app_nil_r, nth_middle, C. exists l. split; [reflexivity|]. rewrite <- L, nth_middle. reflexivity.
    + rewrite firstn_app, app_nth1 by lia. replace (i - length buffers) with 0 by lia. cbn [firstn]. rewrite app_nil_r, app_nth1 by lia. apply N. lia.
Qed.
Theorem c86_labels : forall kl n nt nc buffers, 2 <= nt <= length buffers -> 1 <= nc < 256 -> Forall (bits_of_length n) buffers -> Forall both_values (firstn (nt - 1) buffers) ->
  exists labels, cluster_labels Rops kl nt nc buffers = Ok labels /\ length labels = length buffers - nt /\
  forall i, i < length labels -> exists u gs, nth i labels 0%Z = Z.of_nat u /\ u < length gs /\ length gs = Nat.min nc (nt - 1) /\
    let s := after Rops kl (classifier_new (Z.of_nat nt) (Z.of_nat nc) CLogLikelihood MHellinger WLinear) (firstn (nt + i) buffers) in
    represents n gs (k_clusters (ready Rops kl s)) /\ Permutation (concat gs) (firstn (nt + i) buffers) /\ first_max (fun g => fit g (nth (nt + i) buffers [])) gs u.
Proof.
  intros kl n nt nc buffers Hnt Hnc Hb Hv.
  assert (St : forall h b t, buffers = h ++ b :: t -> nt - 1 <= length h ->
    exists gs u, represents n gs (k_clusters (ready Rops kl (after Rops kl (classifier_new (Z.of_nat nt) (Z.of_nat nc) CLogLikelihood MHellinger WLinear) h))) /\ Permutation (concat gs) h /\ length gs = Nat.min nc (nt - 1) /\
      first_max (fun g => fit g b) gs u /\ u < length gs /\ snd (classify Rops kl (after Rops kl (classifier_new (Z.of_nat nt) (Z.of_nat nc) CLogLikelihood MHellinger WLinear) h) b) = Ok (Z.of_nat u)).
  { intros h b t -> Hh. apply Forall_app in Hb. destruct Hb as [Hb1 Hb2]. inversion Hb2; subst. rewrite firstn_app in Hv. apply Forall_app in Hv. destruct Hv as [Hv _].
    destruct (c36_log_likelihood kl n (Z.of_nat nt) (Z.of_nat nc) MHellinger WLinear h b) as (gs & u & A1 & A2 & A3 & A4 & A5 & A6 & _); [lia|lia|assumption|assumption| |lia|].
    - replace (Z.to_nat (Z.of_nat nt - 1)) with (nt - 1) by lia. exact Hv.
    - exists gs, u. repeat split; try apply A1; auto; lia. }
  destruct (labels_fold kl nt nc buffers) as (labels & E & L & N).
  { intros h b (t & Et). destruct (le_lt_dec (nt - 1) (length h)) as [G|G].
    - destruct (St h b t Et G) as (gs & u & _ & _ & _ & _ & _ & C). rewrite C. eauto.
    - subst buffers. destruct (c36_training Rops kl n (Z.of_nat nt) (Z.of_nat nc) CLogLikelihood MHellinger WLinear h b) as [C _].
      + replace (h ++ b :: t) with ((h ++ [b]) ++ t) in Hb by (rewrite <- app_assoc; reflexivity). apply Forall_app in Hb. apply Hb.
      + replace (h ++ b :: t) with ((h ++ [b]) ++ t) in Hv by (rewrite <- app_assoc; reflexivity). rewrite firstn_app in Hv. apply Forall_app in Hv. destruct Hv as [Hv _]. rewrite firstn_all2 in Hv by (rewrite app_length; cbn; lia). exact Hv.
      + rewrite app_length. cbn. lia.
      + rewrite C. eauto. }
  exists (skipn nt labels). unfold cluster_labels. rewrite E. cbn [bind]. split; [reflexivity|]. rewrite skipn_length, L. split; [reflexivity|].
  intros i Hi. destruct (N (nt + i) ltac:(lia)) as (l & C & Nl).
  destruct (St (firstn (nt + i) buffers) (nth (nt + i) buffers []) (skipn (S (nt + i)) buffers)) as (gs & u & A1 & A2 & A3 & A4 & A5 & A6).
  - rewrite <- (firstn_skipn (nt + i) buffers) at 1. f_equal. clear - Hi. assert (H : nt + i < length buffers) by lia. revert H. generalize (nt + i) as j. clear. induction buffers as [|x l IH]; intros [|j] H; cbn in *; try lia; [reflexivity|]. apply IH. lia.
  - rewrite firstn_length. lia.
  - rewrite A6 in C. injection C as <-. exists u, gs. split.
    + assert (Ns : forall m j (l : list Z), nth j (skipn m l) 0%Z = nth (m + j) l 0%Z) by (clear; induction m as [|m IH]; intros j [|x l]; cbn; auto; destruct j; auto). rewrite Ns, Nl. apply Z.mod_small. lia.
    + repeat split; try apply A1; auto.
Qed.
Print Assumptions c86_labels.

(** The whole analysis: the true classes are those of the words in the order of the split, the labels are those of the clustering under the
    names of relabel, and all of them are classes. *)
Theorem c86_analyze : forall pad wrong kl k part nc ne nt twe rows words order,
  0 < nc < 256 -> Forall (fun o => o < length words) order -> 2 <= nt <= length order ->
  analysis_words pad wrong k (part * nc) nc ne nt twe rows = Ok words ->
  Forall (fun bc => bits_of_length k (fst bc)) words -> Forall (fun o => both_values (fst (nth o words ([], 0)))) (firstn (nt - 1) order) ->
  exists y labels relabeled m,
    analyze pad wrong Rops kl k (part * nc) nc ne nt twe rows order = Ok (y, relabeled) /\
    y = map (fun o => Z.of_nat (snd (nth o words ([], 0)))) (skipn nt order) /\
    cluster_labels Rops kl nt nc (map (fun o => fst (nth o words ([], 0))) order) = Ok labels /\
    relabel labels nc (Some y) = Ok (relabeled, m) /\ length relabeled = length y /\
    Forall (fun l => (0 <= l < Z.of_nat nc)%Z) labels /\ Forall (fun l => (0 <= l < Z.of_nat nc)%Z) relabeled.
Proof.
  intros pad wrong kl k part nc ne nt twe rows words order Hnc Ho Hnt Ew Hb Hv. set (at_ := fun o => nth o words ([], 0)). rewrite Forall_forall in Ho.
  assert (Ar : map_res (fun i => index words i) order = Ok (map at_ order)).
  { apply map_res_map. intros o Hin. unfold index. rewrite (nth_error_nth' _ ([], 0)) by (apply Ho; exact Hin). reflexivity. }
  destruct (c86_labels kl k nt nc (map (fun o => fst (at_ o)) order)) as (labels & El & Ll & Nl).
  - rewrite map_length. lia.
  - lia.
  - rewrite Forall_map, Forall_forall. intros o Hin. rewrite Forall_forall in Hb. apply Hb, nth_In, Ho, Hin.
  - rewrite firstn_map, Forall_map. exact Hv.
  - rewrite map_length in Ll. set (y := map (fun o => Z.of_nat (snd (at_ o))) (skipn nt order)).
    assert (Ly : length y = length labels) by (unfold y; rewrite map_length, skipn_length; lia).
    destruct (proj2 (c56_succeeds labels nc (Some y))) as [[relabeled m] Er]; [split; [lia|exact Ly]|].
    exists y, labels, relabeled, m. destruct (c56_table _ _ _ _ _ Er) as (_ & Lr & Tr). destruct (c56_keys _ _ _ _ _ Er) as (_ & Keys & Vals).
    assert (Rl : Forall (fun l => (0 <= l < Z.of_nat nc)%Z) labels).
    { apply Forall_forall. intros l Hl. apply (In_nth _ _ 0%Z) in Hl. destruct Hl as (i & Hi & <-). destruct (Nl i Hi) as (u & gs & -> & Hu & Lg & _). lia. }
    split; [|split; [reflexivity|split; [exact El|split; [exact Er|split; [congruence|split; [exact Rl|]]]]]].
    + unfold analyze. rewrite Ew. cbn [bind]. rewrite Ar. cbn [bind]. cbv zeta. rewrite map_map, El. cbn [bind]. replace (map (fun bc => Z.of_nat (snd bc)) (skipn nt (map at_ order))) with y by (unfold y; rewrite skipn_map, map_map; reflexivity). rewrite Er. reflexivity.
    + apply Forall_forall. intros l Hl. apply (In_nth _ _ 0%Z) in Hl. destruct Hl as (i & Hi & <-). rewrite Lr in Hi. destruct (Nl i Hi) as (u & gs & Eu & Hu & Lg & _).
      assert (K : In u (map fst m)) by (apply Keys; lia). apply in_map_iff in K. destruct K as ([u' t] & Eq & K). cbn in Eq. subst u'. rewrite (proj1 (Tr i Hi) u t K Eu). rewrite Forall_forall in Vals. specialize (Vals _ K). cbn in Vals. lia.
Qed.
Print Assumptions c86_analyze.

Lemma round_div_spec a b : 0 < b ->
  2 * b * round_div a b <= 2 * a + b /\ 2 * a <= 2 * b * round_div a b + b /\
  (2 * b * round_div a b = 2 * a + b \/ 2 * a = 2 * b * round_div a b + b -> Nat.even (round_div a b) = true).
Proof.
  intros Hb. pose proof (Nat.div_mod a b ltac:(lia)) as D. pose proof (Nat.mod_upper_bound a b ltac:(lia)) as M. unfold round_div. set (q := a / b) in *. set (r := a mod b) in *. clearbody q r. cbv zeta.
  destruct (Nat.ltb_spec (2 * r) b) as [A|A]; [|destruct (Nat.ltb_spec b (2 * r)) as [B|B]; [|destruct (Nat.even q) eqn:Eq]]; (split; [nia|split; [nia|]]).
  - intros [K|K]; exfalso; nia.
  - intros [K|K]; exfalso; nia.
  - intros _. exact Eq.
  - intros _. rewrite Nat.even_succ. unfold Nat.odd. rewrite Eq. reflexivity.
Qed.
(** The mean confusion matrix: every entry is the nearest number to the mean, the even one of two; equal matrices give themselves.  Its total
    need not be the mean number of words (defect: the printed number of classified buffers). *)
Theorem c86_mean : forall nc cms i j, cms <> [] -> i < nc -> j < nc ->
  let total := list_sum (map (fun cm => nth j (nth i cm []) 0) cms) in let entry := nth j (nth i (mean_cm nc cms) []) 0 in
  2 * length cms * entry <= 2 * total + length cms /\ 2 * total <= 2 * length cms * entry + length cms /\
  (2 * length cms * entry = 2 * total + length cms \/ 2 * total = 2 * length cms * entry + length cms -> Nat.even entry = true) /\
  (forall x, (forall cm, In cm cms -> nth j (nth i cm []) 0 = x) -> entry = x).
Proof.
  intros nc cms i j Hc Hi Hj total entry. assert (Pos : 0 < length cms) by (destruct cms; [contradiction|cbn; lia]).
  assert (E : entry = round_div total (length cms)).
  { unfold entry, mean_cm. set (f := fun i => map (fun j => round_div (list_sum (map (fun cm => nth j (nth i cm []) 0) cms)) (length cms)) (seq 0 nc)).
    rewrite (nth_indep _ [] (f 0)) by (rewrite map_length, seq_length; exact Hi). rewrite map_nth, seq_nth by exact Hi. cbn [Nat.add]. unfold f.
    set (g := fun j => round_div (list_sum (map (fun cm => nth j (nth i cm []) 0) cms)) (length cms)). rewrite (nth_indep _ 0 (g 0)) by (rewrite map_length, seq_length; exact Hj). rewrite map_nth, seq_nth by exact Hj. reflexivity. }
  rewrite E. destruct (round_div_spec total (length cms) Pos) as (R1 & R2 & R3). split; [exact R1|]. split; [exact R2|]. split; [exact R3|].
  intros x Hx. assert (T : total = x * length cms).
  { unfold total. clear - Hx. induction cms as [|cm cms IH]; [cbn; lia|]. cbn [map list_sum fold_right length]. change (fold_right Nat.add 0) with list_sum. rewrite IH by (intros c H; apply Hx; right; exact H). rewrite (Hx cm) by (left; reflexivity). lia. }
  unfold round_div. rewrite T, Nat.div_mul, Nat.mod_mul by lia. cbv zeta. destruct (Nat.ltb_spec (2 * 0) (length cms)); [reflexivity|lia].
Qed.
Print Assumptions c86_mean.
Theorem c86_mean_refuted : exists cms, Forall (fun cm => list_sum (map list_sum cm) = 2) cms /\ list_sum (map list_sum (mean_cm 2 cms)) = 1.
Proof. exists [[[1; 0]; [0; 1]]; [[0; 1]; [0; 1]]]. split; [repeat constructor|reflexivity]. Qed.
Print Assumptions c86_mean_refuted.

(** Two transmissions of four bits, two classes, words of four bits, errors from the second transmission on. *)
Definition ex_pad (t c n : nat) : list Z := repeat (Z.of_nat ((t + c) mod 2)) n.
Definition ex_wrong (t c : nat) : list nat := [1].
Definition ex_rows : list (list Z) := [[0; 1; 1; 0]; [0; 1; 1; 0]]%Z.
Example c86_ex : analysis_words ex_pad ex_wrong 4 4 2 2 1 false ex_rows =
  Ok [([0; 1; 0; 0]%Z, 0); ([1; 0; 1; 1]%Z, 1); ([0; 0; 1; 1]%Z, 0); ([1; 1; 0; 0]%Z, 1)].
Proof. reflexivity. Qed.
Example c86_ex_ragged : analysis_words ex_pad ex_wrong 4 3 2 2 1 false [[0; 1; 1]]%Z = Err ValueError.
Proof. reflexivity. Qed.
Example c86_ex_noise : drawn (4 / 2) (2 / 2) (ex_wrong 1 0) /\ differ [0; 1; 1; 1]%Z (xor_at [0; 1; 1; 1]%Z (ex_wrong 1 0)) = [1].
Proof. split; [split; [repeat constructor; intros []|split; [reflexivity|repeat constructor]]|reflexivity]. Qed.
Example c86_ex_analyze : forall kl, exists y relabeled, analyze ex_pad ex_wrong Rops kl 4 (2 * 2) 2 2 2 false ex_rows [0; 1; 2; 3] = Ok (y, relabeled) /\ y = [0; 1]%Z /\ length relabeled = 2.
Proof.
  intros kl. destruct (c86_analyze ex_pad ex_wrong kl 4 2 2 2 2 false ex_rows [([0; 1; 0; 0]%Z, 0); ([1; 0; 1; 1]%Z, 1); ([0; 1; 1; 1]%Z, 0); ([1; 0; 0; 0]%Z, 1)] [0; 1; 2; 3]) as (y & labels & relabeled & m & E & Ey & _ & _ & L & _).
  - lia.
  - cbn. repeat constructor.
  - cbn. lia.
  - reflexivity.
  - repeat (apply Forall_cons; [split; [reflexivity|repeat (apply Forall_cons; [first [left; reflexivity|right; reflexivity]|]); apply Forall_nil]|]). apply Forall_nil.
  - apply Forall_cons; [|apply Forall_nil]. split; cbn; auto.
  - exists y, relabeled. rewrite L. subst y. auto.
Qed.
Example c86_ex_mean : mean_cm 2 [[[3; 1]; [0; 4]]; [[2; 2]; [0; 4]]; [[3; 1]; [1; 3]]] = [[3; 1]; [0; 4]].
Proof. reflexivity. Qed.
