(** C100: the clustering trials. *)
From Coq Require Import String.
From Coq Require Import List Arith ZArith Bool Lia Permutation Reals.
From Verif.Model Require Import Py Float InfoTheory Clustering Legacy Trials.
From Verif.Spec Require Import RealOps Info Cluster SimulationSpec TrialsSpec.
From Verif.Proofs Require Import Base InfoP SimulationP LegacyP TrialsP.
From Verif.Props Require Import ClusterProps.
Import ListNotations.
Local Open Scope nat_scope.

(** The parts of the script with [nc] classes. *)
Definition trial_parts (nc : nat) : list part := match nc with 2 => option_1 | _ => option_2 end.
Lemma parts_layout nc : nc = 2 \/ nc = 3 -> length (trial_parts nc) = nc /\ forall c p, nth_error (trial_parts nc) c = Some p ->
  exists i j f, nth_error (trial_layout nc) c = Some (i, j, f) /\ pt_pad p = f /\ i <= j <= 1224 /\ j - i + f = trial_bits nc /\
  forall row : list Z, length row = 1224 -> slice row (pt_from p) (match pt_to p with Some j => j | None => length row end) = firstn (j - i) (skipn i row).
Proof.
  assert (S : forall (row : list Z) i j, slice row i j = firstn (j - i) (skipn i row)) by reflexivity.
  intros [-> | -> ]; (split; [reflexivity|]); intros [|[|[|c]]] p H; try discriminate H; try (destruct c; discriminate H); cbn [trial_parts option_1 option_2 nth_error] in H; assert (E := f_equal (fun o => match o with Some q => q | None => p end) H); cbv beta iota in E; rewrite <- E; clear E H; cbn [pt_from pt_to pt_pad trial_layout nth_error].
  - exists 0, 576, 72. split; [reflexivity|]. split; [lia|]. split; [lia|]. split; [cbn [trial_bits]; lia|]. intros row L. rewrite S. reflexivity.
  - exists 576, 1224, 0. split; [reflexivity|]. split; [lia|]. split; [lia|]. split; [cbn [trial_bits]; lia|]. intros row L. rewrite S, L. reflexivity.
  - exists 0, 416, 70. split; [reflexivity|]. split; [lia|]. split; [lia|]. split; [cbn [trial_bits]; lia|]. intros row L. rewrite S. reflexivity.
  - exists 416, 864, 38. split; [reflexivity|]. split; [lia|]. split; [lia|]. split; [cbn [trial_bits]; lia|]. intros row L. rewrite S. reflexivity.
  - exists 864, 1224, 126. split; [reflexivity|]. split; [lia|]. split; [lia|]. split; [cbn [trial_bits]; lia|]. intros row L. rewrite S, L. reflexivity.
Qed.

(** For transmissions of 1224 bits, whatever is drawn: the word of class [c] of transmission [t] has 648 bits for two classes and 486 for three, and
    is its part of the transmission and the filling with exactly the bits at the drawn positions inverted. *)
Theorem c100_words : forall pad errors nc m rows, nc = 2 \/ nc = 3 -> Forall (word 1224) rows -> (forall t c n, word n (pad t c n)) -> (forall t c, draw (trial_bits nc) m (errors t c)) ->
  exists words, trial_words pad errors (trial_parts nc) rows = Ok words /\ length words = length rows * nc /\
  forall t c, t < length rows -> c < nc -> exists w cut, nth_error words (t * nc + c) = Some (w, c) /\ nth_error (trial_layout nc) c = Some cut /\ length w = trial_bits nc /\
    received (clean_part (nth t rows []) (pad t c (snd cut)) cut) (errors t c) w.
Proof.
  intros pad errors nc m rows Hnc Hr Hp He. destruct (parts_layout nc Hnc) as [Ln La].
  assert (Clean : forall t c row p, nth_error rows t = Some row -> nth_error (trial_parts nc) c = Some p -> exists cut, nth_error (trial_layout nc) c = Some cut /\
    slice row (pt_from p) (match pt_to p with Some j => j | None => length row end) ++ pad t c (pt_pad p) = clean_part row (pad t c (snd cut)) cut /\ word (trial_bits nc) (clean_part row (pad t c (snd cut)) cut)).
  { intros t c row p R P. rewrite Forall_forall in Hr. pose proof (Hr row (nth_error_In _ _ R)) as [Lr Br]. destruct (La c p P) as (i & j & f & E & Ef & Hij & Hk & Sl). exists (i, j, f). rewrite Sl, Ef by exact Lr. cbn [snd clean_part]. split; [exact E|]. split; [reflexivity|].
    destruct (Hp t c f) as [Lp Bp]. split.
    - rewrite app_length, firstn_length, skipn_length, Lr, Lp. lia.
    - apply Forall_app. split; [|exact Bp]. apply Forall_forall. intros x Hx. rewrite Forall_forall in Br. apply Br. rewrite <- (firstn_skipn i row). apply in_or_app. right. rewrite <- (firstn_skipn (j - i) (skipn i row)). apply in_or_app. left. exact Hx. }
  destruct (words_when pad errors (trial_parts nc) rows) as [[W _] _]. destruct W as (words & W).
  { intros t c row p R P. destruct (Clean t c row p R P) as (cut & _ & -> & [-> _]). destruct (He t c) as (_ & _ & B). apply Forall_forall. exact B. }
  exists words. split; [exact W|]. destruct (words_ok _ _ _ _ _ W) as [L N]. rewrite Ln in L, N. split; [exact L|]. intros t c Ht Hc.
  destruct (nth_error rows t) as [row|] eqn:R; [|apply nth_error_None in R; lia]. destruct (nth_error (trial_parts nc) c) as [p|] eqn:P; [|apply nth_error_None in P; lia].
  destruct (N t c row p R P) as (w & Hw & Tw). destruct (Clean t c row p R P) as (cut & Hcut & Es & Wc). exists w, cut. split; [exact Hw|]. split; [exact Hcut|]. rewrite (nth_error_nth _ _ [] R).
  unfold trial_word in Tw. rewrite Es in Tw. destruct (toggle_received _ _ _ _ Wc (He t c)) as (r & Er & Rr). assert (r = w) by congruence. subst r. split; [|exact Rr]. destruct Rr as [[Lw _] _]. rewrite Lw. apply Wc.
Qed.
Print Assumptions c100_words.

(** The parts are the whole transmission. *)
Theorem c100_parts : forall nc row, nc = 2 \/ nc = 3 -> length row = 1224 -> concat (map (fun cut => clean_part row [] cut) (trial_layout nc)) = row.
Proof.
  intros nc row H L. assert (J : forall i j : nat, i <= j -> firstn (j - i) (skipn i row) ++ skipn j row = skipn i row).
  { intros i j Hij. rewrite <- (firstn_skipn (j - i) (skipn i row)) at 2. f_equal. rewrite <- (firstn_skipn i row) at 1. destruct (le_lt_dec i (length row)) as [G|G].
    - rewrite skipn_app, firstn_length, Nat.min_l by exact G. rewrite skipn_all2 by (rewrite firstn_length; lia). reflexivity.
    - rewrite firstn_all2, (skipn_all2 row) by lia. rewrite app_nil_r. rewrite skipn_all2 by lia. destruct (j - i); reflexivity. }
  destruct H as [-> | -> ]; unfold trial_layout; cbn [map concat]; unfold clean_part; rewrite !app_nil_r.
  - transitivity (firstn (576 - 0) (skipn 0 row) ++ skipn 576 row); [f_equal; apply firstn_all2; rewrite skipn_length, L; lia|]. rewrite J by lia. reflexivity.
  - transitivity (firstn (416 - 0) (skipn 0 row) ++ firstn (864 - 416) (skipn 416 row) ++ skipn 864 row); [do 2 f_equal; apply firstn_all2; rewrite skipn_length, L; lia|]. rewrite J by lia. rewrite J by lia. reflexivity.
Qed.
Print Assumptions c100_parts.

(** For transmissions of any length: there are words exactly when every drawn position is in its word, and IndexError otherwise. *)
Theorem c100_any_length : forall pad errors parts rows,
  ((exists words, trial_words pad errors parts rows = Ok words) <->
   forall t c row p, nth_error rows t = Some row -> nth_error parts c = Some p ->
     Forall (fun i => i < Nat.min (match pt_to p with Some j => j - pt_from p | None => length row end) (length row - pt_from p) + length (pad t c (pt_pad p))) (errors t c)) /\
  ((exists words, trial_words pad errors parts rows = Ok words) \/ trial_words pad errors parts rows = Err IndexError).
Proof.
  intros pad errors parts rows. destruct (words_when pad errors parts rows) as [A B]. split; [|exact B]. rewrite <- A. split; intros H t c row p R P; specialize (H t c row p R P); (apply Forall_forall; intros i Hi; rewrite Forall_forall in H; specialize (H i Hi)).
  - rewrite app_length, length_slice in H. destruct (pt_to p); lia.
  - rewrite app_length, length_slice. destruct (pt_to p); lia.
Qed.
Print Assumptions c100_any_length.

(** ** The labels. *)
Notation start nt nc := (classifier_new (Z.of_nat nt) (Z.of_nat nc) CLogLikelihood MHellinger WSqrt).
Lemma trial_fold FO kl s0 : forall buffers,
  (forall h b, (exists t, buffers = h ++ b :: t) -> exists l, snd (classify FO kl (after FO kl s0 h) b) = Ok l) ->
  exists labels, fold_res (fun (sl : list Z * classifier) b => let '(s, r) := classify FO kl (snd sl) b in do! l <- r in Ok (fst sl ++ [l], s)) buffers ([], s0) = Ok (labels, after FO kl s0 buffers) /\
    length labels = length buffers /\
    forall h b t, buffers = h ++ b :: t -> snd (classify FO kl (after FO kl s0 h) b) = Ok (nth (length h) labels 0%Z).
Proof.
  induction buffers as [|b buffers IH] using rev_ind; intros H.
  - exists []. split; [reflexivity|]. split; [reflexivity|]. intros h b t E. destruct h; discriminate.
  - destruct IH as (labels & E & L & N). { intros h b' (t & ->). apply H. exists (t ++ [b]). rewrite <- app_assoc. reflexivity. }
    destruct (H buffers b (ex_intro _ [] eq_refl)) as (l & El).
    exists (labels ++ [l]). rewrite fold_res_app, E. cbn [bind fold_res fst snd]. unfold after at 2. rewrite fold_left_app. cbn [fold_left]. fold (after FO kl s0 buffers).
    destruct (classify FO kl (after FO kl s0 buffers) b) as [s r] eqn:C. cbn [fst snd] in *. subst r. cbn [bind].
    split; [reflexivity|]. split; [rewrite !app_length, L; reflexivity|]. intros h b' t Eh. destruct t as [|x t _] using rev_ind.
    + apply app_inj_tail in Eh as [-> ->]. rewrite <- L, nth_middle, C. reflexivity.
    + rewrite app_comm_cons, app_assoc in Eh. apply app_inj_tail in Eh as [-> ->]. rewrite app_nth1 by (rewrite L, app_length; cbn; lia). eapply N. reflexivity.
Qed.

Lemma split_at {A} (l : list A) j d : j < length l -> l = firstn j l ++ nth j l d :: skipn (S j) l.
Proof. revert j. induction l as [|x l IH]; intros [|j] H; cbn in *; try lia; [reflexivity|]. f_equal. apply IH. lia. Qed.

(** The first [nt - 1] words get the label -1, each later word the number of the cluster that fits best, counting the words before it. *)
Theorem c100_labels : forall kl n nt nc buffers, 2 <= nt -> 1 <= nc -> Forall (bits_of_length n) buffers -> Forall both_values (firstn (nt - 1) buffers) ->
  exists labels, trial_labels Rops kl nt nc buffers = Ok labels /\ length labels = length buffers /\
  (forall j, j < nt - 1 -> j < length labels -> nth j labels 0%Z = (-1)%Z) /\
  (forall j, nt - 1 <= j < length labels -> exists u gs, nth j labels 0%Z = Z.of_nat u /\ u < length gs /\ length gs = Nat.min nc (nt - 1) /\
    let s := after Rops kl (start nt nc) (firstn j buffers) in
    represents n gs (k_clusters (ready Rops kl s)) /\ Permutation (concat gs) (firstn j buffers) /\ first_max (fun g => fit g (nth j buffers [])) gs u).
Proof.
  intros kl n nt nc buffers Hnt Hnc Hb Hv.
  assert (St : forall h b t, buffers = h ++ b :: t -> nt - 1 <= length h ->
    exists gs u, represents n gs (k_clusters (ready Rops kl (after Rops kl (start nt nc) h))) /\ Permutation (concat gs) h /\ length gs = Nat.min nc (nt - 1) /\
      first_max (fun g => fit g b) gs u /\ u < length gs /\ snd (classify Rops kl (after Rops kl (start nt nc) h) b) = Ok (Z.of_nat u)).
  { intros h b t E Hh. subst buffers. apply Forall_app in Hb. destruct Hb as [Hb1 Hb2]. inversion Hb2; subst. rewrite firstn_app in Hv. apply Forall_app in Hv. destruct Hv as [Hv _].
    destruct (c36_log_likelihood kl n (Z.of_nat nt) (Z.of_nat nc) MHellinger WSqrt h b) as (gs & u & A1 & A2 & A3 & A4 & A5 & A6 & _); [lia|lia|assumption|assumption| |lia|].
    - replace (Z.to_nat (Z.of_nat nt - 1)) with (nt - 1) by lia. exact Hv.
    - exists gs, u. split; [exact A1|]. split; [exact A2|]. split; [lia|]. auto. }
  assert (Tr : forall h b t, buffers = h ++ b :: t -> length h < nt - 1 -> snd (classify Rops kl (after Rops kl (start nt nc) h) b) = Ok (-1)%Z).
  { intros h b t E G. subst buffers. replace (h ++ b :: t) with ((h ++ [b]) ++ t) in Hb, Hv by (rewrite <- app_assoc; reflexivity).
    destruct (c36_training Rops kl n (Z.of_nat nt) (Z.of_nat nc) CLogLikelihood MHellinger WSqrt h b) as [C _].
    - apply Forall_app in Hb. apply Hb.
    - rewrite firstn_app in Hv. apply Forall_app in Hv. destruct Hv as [Hv _]. rewrite firstn_all2 in Hv by (rewrite app_length; cbn; lia). exact Hv.
    - rewrite app_length. cbn. lia.
    - exact C. }
  destruct (trial_fold Rops kl (start nt nc) buffers) as (labels & E & L & N).
  { intros h b (t & Et). destruct (le_lt_dec (nt - 1) (length h)) as [G|G]; [destruct (St h b t Et G) as (gs & u & _ & _ & _ & _ & _ & C)|pose proof (Tr h b t Et G) as C]; eauto. }
  exists labels. unfold trial_labels. rewrite E. cbn [bind]. split; [reflexivity|]. split; [exact L|].
  assert (At : forall j, j < length labels -> buffers = firstn j buffers ++ nth j buffers [] :: skipn (S j) buffers /\ length (firstn j buffers) = j).
  { intros j Hj. rewrite L in Hj. split; [apply split_at; exact Hj|rewrite firstn_length; lia]. }
  split; intros j Hj.
  - intros Hj'. destruct (At j Hj') as [Ej Lj]. pose proof (N _ _ _ Ej) as C. rewrite (Tr _ _ _ Ej) in C by lia. rewrite Lj in C. congruence.
  - destruct (At j (proj2 Hj)) as [Ej Lj]. destruct (St _ _ _ Ej) as (gs & u & A1 & A2 & A3 & A4 & A5 & A6); [lia|]. pose proof (N _ _ _ Ej) as C. rewrite A6, Lj in C. exists u, gs. split; [congruence|]. auto.
Qed.
Print Assumptions c100_labels.

(** Entry [i] of what is reported lists each label that occurs among the words from number [nt - 1] on whose true class is (nt - 1 + i) mod nc, in
    increasing order, with the number of these words. *)
Theorem c100_result : forall nt nc labels, 1 <= nt -> 0 < nc -> length (trial_result nt nc labels) = nc /\
  forall i, i < nc -> let shown := nth i (trial_result nt nc labels) [] in
    alphabet_of (map (fun j => nth j labels 0%Z) (in_turn (nt - 1) (length labels) nc ((nt - 1 + i) mod nc))) (map fst shown) /\
    forall v n, In (v, n) shown <-> n = tally labels (in_turn (nt - 1) (length labels) nc ((nt - 1 + i) mod nc)) v /\ 0 < n.
Proof.
  intros nt nc labels Hnt Hnc. unfold trial_result. rewrite map_length, seq_length. split; [reflexivity|]. intros i Hi. cbv zeta.
  rewrite (nth_indep _ [] (unique_counts (stride labels (nt - 1 + 0) nc))) by (rewrite map_length, seq_length; exact Hi). rewrite (map_nth (fun i => unique_counts (stride labels (nt - 1 + i) nc)) (seq 0 nc) 0 i). rewrite seq_nth by exact Hi. cbn [Nat.add]. rewrite stride_in_turn by exact Hi. split.
  - unfold unique_counts. rewrite map_map. cbn [fst]. rewrite map_id. apply unique_alphabet.
  - intros v n. rewrite unique_counts_in, occurrences_tally. reflexivity.
Qed.
Print Assumptions c100_result.

(** Nothing is counted twice or left out. *)
Theorem c100_total : forall nt nc labels, 0 < nc -> list_sum (map (fun g => list_sum (map snd g)) (trial_result nt nc labels)) = length labels - (nt - 1).
Proof.
  intros nt nc labels Hnc. unfold trial_result. rewrite map_map. rewrite <- (tot_in_turn (nt - 1) (length labels) nc Hnc). f_equal. apply map_ext_in. intros i Hi. apply in_seq in Hi. rewrite unique_counts_sum, stride_in_turn by lia. apply map_length.
Qed.
Print Assumptions c100_total.

(** With 100 words of training, the entries for two classes are in the wrong order, those for three in the right one. *)
Theorem c100_order : forall labels,
  (forall v n, In (v, n) (nth 0 (trial_result 100 2 labels) []) <-> n = tally labels (in_turn 99 (length labels) 2 1) v /\ 0 < n) /\
  (forall v n, In (v, n) (nth 1 (trial_result 100 2 labels) []) <-> n = tally labels (in_turn 99 (length labels) 2 0) v /\ 0 < n) /\
  (forall c v n, c < 3 -> In (v, n) (nth c (trial_result 100 3 labels) []) <-> n = tally labels (in_turn 99 (length labels) 3 c) v /\ 0 < n).
Proof.
  intros labels. split; [|split].
  - intros v n. destruct (c100_result 100 2 labels ltac:(lia) ltac:(lia)) as [_ H]. destruct (H 0 ltac:(lia)) as [_ K]. apply K.
  - intros v n. destruct (c100_result 100 2 labels ltac:(lia) ltac:(lia)) as [_ H]. destruct (H 1 ltac:(lia)) as [_ K]. apply K.
  - intros c v n Hc. destruct (c100_result 100 3 labels ltac:(lia) ltac:(lia)) as [_ H]. destruct (H c ltac:(lia)) as [_ K]. rewrite K. replace ((100 - 1 + c) mod 3) with c; [reflexivity|]. destruct c as [|[|[|c]]]; [reflexivity| | |lia]; reflexivity.
Qed.
Print Assumptions c100_order.

(** The whole trial: entry [i] counts the labels of the words of class (99 + i) mod nc after the 99 words of the training, each label being the number
    of a cluster. *)
Theorem c100_trial : forall kl pad errors nc m rows, nc = 2 \/ nc = 3 -> Forall (word 1224) rows -> (forall t c n, word n (pad t c n)) -> (forall t c, draw (trial_bits nc) m (errors t c)) ->
  (forall words, trial_words pad errors (trial_parts nc) rows = Ok words -> Forall both_values (firstn 99 (map fst words))) ->
  exists words labels, trial_words pad errors (trial_parts nc) rows = Ok words /\ trial_labels Rops kl 100 nc (map fst words) = Ok labels /\ length labels = length rows * nc /\
    trial Rops kl pad errors (trial_parts nc) 100 rows = Ok (trial_result 100 nc labels) /\
    forall i v n, i < nc -> In (v, n) (nth i (trial_result 100 nc labels) []) -> (0 <= v < Z.of_nat nc)%Z /\
      n = length (filter (fun j => Nat.leb 99 j && Nat.eqb (snd (nth j words ([], 0))) ((99 + i) mod nc) && Z.eqb (nth j labels 0%Z) v) (seq 0 (length words))).
Proof.
  intros kl pad errors nc m rows Hnc Hr Hp He Hb. destruct (c100_words pad errors nc m rows Hnc Hr Hp He) as (words & W & L & N).
  assert (Cls : forall j, j < length words -> exists w, nth j words ([], 0) = (w, j mod nc) /\ word (trial_bits nc) w).
  { intros j Hj. assert (Q : j / nc < length rows) by (apply Nat.div_lt_upper_bound; lia). assert (M : j mod nc < nc) by (apply Nat.mod_upper_bound; lia). destruct (N (j / nc) (j mod nc) Q M) as (w & cut & E & _ & Lw & R). replace (j / nc * nc + j mod nc) with j in E by (pose proof (Nat.div_mod j nc); lia). exists w. split; [apply nth_error_nth; exact E|]. split; [exact Lw|]. apply R. }
  assert (Bits : Forall (bits_of_length (trial_bits nc)) (map fst words)).
  { apply Forall_forall. intros x Hx. apply in_map_iff in Hx as (wc & <- & Hin). apply (In_nth _ _ ([], 0)) in Hin as (j & Hj & <-). destruct (Cls j Hj) as (w & -> & Lw & Bw). split; [exact Lw|exact Bw]. }
  destruct (c100_labels kl (trial_bits nc) 100 nc (map fst words) ltac:(lia) ltac:(lia) Bits (Hb words W)) as (labels & El & Ll & _ & Hl). rewrite map_length in Ll.
  exists words, labels. split; [exact W|]. split; [exact El|]. split; [lia|]. split.
  { unfold trial. destruct (parts_layout nc Hnc) as [-> _]. rewrite W. cbn [bind]. rewrite El. reflexivity. }
  intros i v n Hi Hin. destruct (c100_result 100 nc labels ltac:(lia) ltac:(lia)) as [_ H]. destruct (H i Hi) as [_ K]. apply K in Hin as [En Hn]. replace (100 - 1 + i) with (99 + i) in En by lia. change (100 - 1) with 99 in En.
  assert (Filt : n = length (filter (fun j => Nat.leb 99 j && Nat.eqb (snd (nth j words ([], 0))) ((99 + i) mod nc) && Z.eqb (nth j labels 0%Z) v) (seq 0 (length words)))).
  { rewrite En. unfold tally, in_turn. rewrite Ll. f_equal. assert (FF : forall (f g : nat -> bool) l, filter f (filter g l) = filter (fun j => g j && f j) l). { clear. intros f g l. induction l as [|x l IH]; [reflexivity|]. cbn [filter]. destruct (g x); cbn [filter andb]; [|exact IH]. destruct (f x); [f_equal|]; exact IH. }
    rewrite FF. apply filter_ext_in. intros j Hj. apply in_seq in Hj. destruct (Cls j ltac:(lia)) as (w & -> & _). reflexivity. }
  split; [|exact Filt]. assert (Ex : exists j, In j (filter (fun j => Nat.leb 99 j && Nat.eqb (snd (nth j words ([], 0))) ((99 + i) mod nc) && Z.eqb (nth j labels 0%Z) v) (seq 0 (length words)))).
  { destruct (filter _ _) as [|j q]; [cbn in Filt; lia|]. exists j. left. reflexivity. }
  destruct Ex as (j & Hj). apply filter_In in Hj as [Hj Cj]. apply in_seq in Hj. apply andb_prop in Cj as [Cj Vj]. apply andb_prop in Cj as [Cj _]. apply Nat.leb_le in Cj. apply Z.eqb_eq in Vj. destruct (Hl j ltac:(lia)) as (u & gs & Eu & Hu & Lg & _). rewrite Vj in Eu. lia.
Qed.
Print Assumptions c100_trial.

(** The digits: the script ends with AttributeError after the training, since a classifier cannot be saved. *)
Theorem c100_digits : forall kl n train test, 2 <= length train -> Forall (bits_of_length n) train -> Forall both_values (firstn (length train - 1) train) -> digits Rops kl train test = Err AttributeError.
Proof.
  intros kl n train test Hl Hb Hv. unfold digits.
  assert (St : forall h, (exists t, train = h ++ t) -> fold_res (fun s b => let '(s, r) := classify Rops kl s b in do! _ <- r in Ok s) h (classifier_new (Z.of_nat (length train)) 10 CLogLikelihood MHellinger WLinear) =
     Ok (after Rops kl (classifier_new (Z.of_nat (length train)) 10 CLogLikelihood MHellinger WLinear) h)).
  { induction h as [|b h IH] using rev_ind; intros (t & E); [reflexivity|]. rewrite fold_res_app, IH by (exists (b :: t); rewrite E, <- app_assoc; reflexivity). cbn [bind fold_res]. unfold after at 2. rewrite fold_left_app. cbn [fold_left]. fold (after Rops kl (classifier_new (Z.of_nat (length train)) 10 CLogLikelihood MHellinger WLinear) h).
    assert (C : exists l, snd (classify Rops kl (after Rops kl (classifier_new (Z.of_nat (length train)) 10 CLogLikelihood MHellinger WLinear) h) b) = Ok l).
    { pose proof (f_equal (@length _) E) as El. rewrite !app_length in El. cbn [length] in El. rewrite E in Hb, Hv. rewrite <- E in Hv at 1. apply Forall_app in Hb as [Hb _]. rewrite firstn_app in Hv. apply Forall_app in Hv as [Hv _].
      destruct (le_lt_dec (length train - 1) (length h)) as [G|G].
      - apply Forall_app in Hb as [Hb1 Hb2]. inversion Hb2 as [|? ? Hb3 Hb4]. rewrite firstn_app in Hv. apply Forall_app in Hv as [Hv _].
        destruct (c36_log_likelihood kl n (Z.of_nat (length train)) 10 MHellinger WLinear h b) as (gs & u & _ & _ & _ & _ & _ & A6 & _); [lia|lia|assumption|assumption| |lia|eauto].
        replace (Z.to_nat (Z.of_nat (length train) - 1)) with (length train - 1) by lia. exact Hv.
      - destruct (c36_training Rops kl n (Z.of_nat (length train)) 10 CLogLikelihood MHellinger WLinear h b) as [C _]; [exact Hb| | |eauto].
        + rewrite firstn_all2 in Hv by (rewrite app_length; cbn; lia). exact Hv.
        + rewrite app_length. cbn. lia. }
    destruct C as (l & C). destruct (classify Rops kl (after Rops kl (classifier_new (Z.of_nat (length train)) 10 CLogLikelihood MHellinger WLinear) h) b) as [s r]. cbn [fst snd] in *. subst r. reflexivity. }
  rewrite St by (exists []; symmetry; apply app_nil_r). reflexivity.
Qed.
Print Assumptions c100_digits.

(** Cases that meet the hypotheses. *)
Example c100_ex_cut : trial_words (fun _ _ n => repeat 0%Z n) (fun t c => [t; 4 + c]) [Part 0 (Some 4) 2; Part 4 None 0] [[1;0;1;1;0;0;1;1;0;1]%Z; [0;0;0;0;1;1;1;1;1;1]%Z] =
  Ok [([0;0;1;1;1;0]%Z, 0); ([1;0;1;1;0;0]%Z, 1); ([0;1;0;0;1;0]%Z, 0); ([1;0;1;1;1;0]%Z, 1)].
Proof. vm_compute. reflexivity. Qed.
Example c100_ex_short : trial_words (fun _ _ n => repeat 0%Z n) (fun t c => [t; 4 + c]) [Part 0 (Some 4) 2; Part 4 None 0] [[1;0;1;1;0;0;1;1;0]%Z] = Err IndexError.
Proof. vm_compute. reflexivity. Qed.
Example c100_ex_1224 : match trial_words (fun _ _ n => repeat 0%Z n) (fun t c => [t; 4 + c]) option_2 [repeat 1%Z 1224] with Ok l => map (fun x => (length (fst x), snd x)) l | Err _ => [] end = [(486, 0); (486, 1); (486, 2)].
Proof. vm_compute. reflexivity. Qed.
Example c100_ex_result : trial_result 4 2 [-1; -1; -1; 0; 1; 0; 1; 1; 1; 0]%Z = [[(0%Z, 3); (1%Z, 1)]; [(1%Z, 3)]].
Proof. vm_compute. reflexivity. Qed.
(** Transmissions of alternating bits, zeros as filling and two errors in each word meet what [c100_trial] asks for. *)
Example c100_ex_trial : let rows := repeat (concat (repeat [0; 1]%Z 612)) 60 in let pad := fun (_ _ n : nat) => repeat 0%Z n in let errors := fun (t _ : nat) => [t mod 600; 647] in
  Forall (word 1224) rows /\ (forall t c n, word n (pad t c n)) /\ (forall t c, draw 648 2 (errors t c)) /\
  match trial_words pad errors option_1 rows with Ok words => forallb (fun w => existsb (Z.eqb 0) w && existsb (Z.eqb 1) w) (map fst words) | Err _ => false end = true.
Proof.
  cbv zeta. split; [|split; [|split]].
  - apply Forall_forall. intros x Hx. apply repeat_spec in Hx. subst x. split; [vm_compute; reflexivity|]. apply Forall_forall. intros y Hy. apply in_concat in Hy as (p & Hp & Hy). apply repeat_spec in Hp. subst p. destruct Hy as [<- |[<- |[]]]; [left|right]; reflexivity.
  - intros t c n. split; [apply repeat_length|]. apply Forall_forall. intros x Hx. apply repeat_spec in Hx. left. exact Hx.
  - intros t c. pose proof (Nat.mod_upper_bound t 600 ltac:(lia)). split; [|split; [reflexivity|]].
    + constructor; [intros [E|[]]; lia|]. constructor; [intros []|constructor].
    + intros p [<- |[<- |[]]]; lia.
  - vm_compute. reflexivity.
Qed.
Example c100_ex_digits : let train := [[0; 1; 1]; [1; 0; 1]; [1; 1; 1]]%Z in 2 <= length train /\ Forall (bits_of_length 3) train /\ Forall both_values (firstn (length train - 1) train).
Proof.
  cbv zeta. split; [cbn; lia|]. split.
  - repeat apply Forall_cons; try apply Forall_nil; (split; [reflexivity|]); repeat apply Forall_cons; try apply Forall_nil; (left; reflexivity) + (right; reflexivity).
  - repeat apply Forall_cons; try apply Forall_nil; (split; cbn; tauto).
Qed.
