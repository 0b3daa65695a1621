(** Statistics helpers in utils/ and the confusion counts (C31 - C35, C54, C58, C61). *)
From Coq Require Import List ZArith QArith Reals Bool Sorting.Sorted Lra Lia.
From Verif.Model Require Import Py Float InfoTheory Perf Markov.
From Verif.Spec Require Import RealOps Info.
From Verif.Proofs Require Import RealP InfoP EntropyP HellingerP PerfP MarkovP.
Import ListNotations.
Local Close Scope R_scope.
Local Close Scope Q_scope.

(** C31.  prob_with_alphabet of a vector and of a matrix of integers. *)
Theorem c31_vector : forall l p a, prob_with_alphabet Rops (DVec l) = Ok (p, a) <-> alphabet_of l a /\ p = FVec (frequencies l a).
Proof.
  intros l p a. rewrite prob_vec, divide_freq, alphabet_fun. split; [intro E; inversion E; auto|intros [-> ->]; reflexivity].
Qed.
Print Assumptions c31_vector.

Theorem c31_matrix : forall rows cols p a, Forall (fun r => length r = cols) rows ->
  (prob_with_alphabet Rops (DMat rows cols) = Ok (p, a) <->
   alphabet_of (concat rows) a /\ p = FMat (map (fun r => frequencies r a) rows)).
Proof.
  intros rows cols p a H. rewrite prob_mat, alphabet_fun.
  assert (E : map (fun r => divide Rops cols (map (occurrences r) (unique (concat rows)))) rows
              = map (fun r => frequencies r (unique (concat rows))) rows).
  { apply map_ext_in. intros r Hr. rewrite Forall_forall in H. rewrite <- (H r Hr). apply divide_freq. }
  rewrite E. split; [intro X; inversion X; auto|intros [-> ->]; reflexivity].
Qed.
Print Assumptions c31_matrix.

(** The rows are probability distributions. *)
Theorem c31_distribution : forall l a, l <> [] -> StronglySorted Z.lt a -> (forall v, In v l -> In v a) -> distribution (frequencies l a).
Proof. intros l a N S I. apply frequencies_distribution; auto. apply sorted_nodup. exact S. Qed.
Print Assumptions c31_distribution.

(** Floats and other shapes raise, integer vectors and matrices never do; prob drops the alphabet. *)
Theorem c31_errors : forall (FO : fops) d,
  (prob_with_alphabet FO d = Err UnsupportedDtype <-> d = DFloat) /\ (prob_with_alphabet FO d = Err ValueError <-> d = DOther) /\
  (is_ok (prob_with_alphabet FO d) = false <-> d = DFloat \/ d = DOther).
Proof.
  intros FO d. destruct d as [|l|rows cols|]; rewrite ?prob_mat, ?prob_vec; cbn; repeat split; try tauto; try discriminate;
    intros [H|H]; discriminate.
Qed.
Print Assumptions c31_errors.
Theorem c31_prob : forall (FO : fops) d, prob FO d = match prob_with_alphabet FO d with Ok (p, _) => Ok p | Err e => Err e end.
Proof. intros FO d. unfold prob, bind. destruct (prob_with_alphabet FO d) as [[p a]|e]; reflexivity. Qed.
Print Assumptions c31_prob.

Example c31_ex : exists p, prob_with_alphabet Qops (DMat [[3; 1; 3; 7]; [1; 1; 1; 1]]%Z 4) = Ok (FMat p, [1; 3; 7]%Z) /\
  map (map Qred) p = [[1 # 4; 1 # 2; 1 # 4]; [1; 0; 0]]%Q.
Proof. eexists. split; vm_compute; reflexivity. Qed.
Example c31_ex_alphabet : alphabet_of [3; 1; 3; 7]%Z [1; 3; 7]%Z /\ occurrences [3; 1; 3; 7]%Z 3 = 2.
Proof. split; [split; [repeat constructor; lia|intro v; cbn; tauto]|reflexivity]. Qed.

(** C32.  Entropy of a non-negative row of positive sum: Shannon's entropy of the scaled row. *)
Theorem c32_value : forall b p, Forall (fun x => (0 <= x)%R) p -> (0 < Rsum p)%R ->
  entropy Rops (FVec p) b = Ok [shannon b (normalised p)] /\ distribution (normalised p).
Proof. intros b p H P. split; [unfold entropy; rewrite row_entropy_R; reflexivity|apply normalised_distribution; auto]. Qed.
Print Assumptions c32_value.
Theorem c32_matrix : forall b rows, entropy Rops (FMat rows) b = Ok (map (fun p => shannon b (normalised p)) rows) /\
  entropy Rops FOther b = Err ValueError.
Proof. intros b rows. split; [|reflexivity]. unfold entropy. f_equal. apply map_ext. intro p. apply row_entropy_R. Qed.
Print Assumptions c32_matrix.
(** A probability row needs no scaling; bounds and extreme cases, in every base from 2 on. *)
Theorem c32_bounds : forall b p h, (2 <= b)%Z -> distribution p -> entropy Rops (FVec p) b = Ok [h] ->
  h = shannon b p /\ (0 <= h <= log_in b (INR (length p)))%R /\ (h = 0%R <-> In 1%R p) /\
  (h = log_in b (INR (length p)) <-> Forall (fun x => x = (/ INR (length p))%R) p).
Proof.
  intros b p h Hb D E. unfold entropy in E. rewrite row_entropy_R, distribution_normalised in E by exact D. inversion E; subst.
  split; [reflexivity|]. split; [apply entropy_bounds; auto|]. split; [apply entropy_zero; auto|apply entropy_max; auto].
Qed.
Print Assumptions c32_bounds.

Example c32_ex : distribution [1 / 2; 0; 1 / 4; 1 / 4]%R /\ shannon 2 [1 / 2; 0; 1 / 4; 1 / 4]%R = (3 / 2)%R.
Proof.
  split; [split; [repeat constructor; lra|cbn; lra]|].
  pose proof (ln_base_pos 2 ltac:(lia)) as L.
  assert (A : log_in 2 1 = 0%R) by (unfold log_in; rewrite ln_1; lra).
  assert (B : log_in 2 2 = 1%R) by (unfold log_in; field; lra).
  unfold shannon. cbn [map Rsum fold_right]. destruct (Rlt_dec 0 (1 / 2)); [|lra]. destruct (Rlt_dec 0 0); [lra|]. destruct (Rlt_dec 0 (1 / 4)); [|lra].
  replace (1 / 2)%R with (2 / 4)%R by lra. rewrite !log2_frac by lra. rewrite A, B. lra.
Qed.

(** C33.  typical_set_cardinality: errors, formula, order. *)
Theorem c33_errors : forall n pk ent eps, typical_set_cardinality Rops n pk ent eps = Err ValueError <->
  (n <= 0)%Z \/ (eps <= 0)%R \/ pk = None /\ ent = None.
Proof.
  intros n pk ent eps. rewrite typical_set_R. destruct (Rle_dec eps 0) as [L|L]; [tauto|]. destruct (Z.leb_spec n 0) as [M|M]; [tauto|].
  destruct ent as [e|]; [|destruct pk as [p|]]; cbn [option_map].
  - split; [discriminate|]. intros [H|[H|[_ H]]]; [lia|lra|discriminate].
  - split; [discriminate|]. intros [H|[H|[H _]]]; [lia|lra|discriminate].
  - tauto.
Qed.
Print Assumptions c33_errors.
Theorem c33_value : forall n pk ent eps lb ub, typical_set_cardinality Rops n pk ent eps = Ok (lb, ub) <->
  (0 < n)%Z /\ (0 < eps)%R /\
  exists h, (ent = Some h \/ ent = None /\ exists p, pk = Some p /\ h = shannon 2 (normalised p)) /\
    ub = Rpower 2 (IZR n * (h + eps)) /\ lb = ((1 - eps) * Rpower 2 (IZR n * (h - eps)))%R.
Proof.
  intros n pk ent eps lb ub. rewrite typical_set_R. destruct (Rle_dec eps 0) as [L|L]; [split; [discriminate|intros (_ & H & _); lra]|].
  destruct (Z.leb_spec n 0) as [M|M]; [split; [discriminate|intros (H & _); lia]|].
  destruct ent as [e|]; [|destruct pk as [p|]]; cbn [option_map].
  - split; [intro E; inversion E; subst; split; [lia|split; [lra|exists e; auto]]|].
    intros (_ & _ & h & [H|[H _]] & -> & ->); inversion H; reflexivity.
  - split; [intro E; inversion E; subst; split; [lia|split; [lra|]]|].
    + eexists. split; [right; split; [reflexivity|exists p; split; reflexivity]|auto].
    + intros (_ & _ & h & [H|[_ [q [H ->]]]] & -> & ->); inversion H; reflexivity.
  - split; [discriminate|]. intros (_ & _ & h & [H|[_ [q [H _]]]] & _); discriminate.
Qed.
Print Assumptions c33_value.
Theorem c33_order : forall n pk ent eps lb ub, typical_set_cardinality Rops n pk ent eps = Ok (lb, ub) ->
  (lb < ub)%R /\ (0 < ub)%R /\ ((0 < lb)%R <-> (eps < 1)%R).
Proof.
  intros n pk ent eps lb ub H. apply c33_value in H. destruct H as (Hn & He & h & _ & -> & ->).
  assert (A : (0 < Rpower 2 (IZR n * (h - eps)))%R) by apply exp_pos. assert (B : (0 < Rpower 2 (IZR n * (h + eps)))%R) by apply exp_pos.
  assert (C : (Rpower 2 (IZR n * (h - eps)) < Rpower 2 (IZR n * (h + eps)))%R).
  { apply Rpower_lt; [lra|]. apply Rmult_lt_compat_l; [apply IZR_lt; lia|lra]. }
  split; [nra|]. split; [exact B|]. split; intro; nra.
Qed.
Print Assumptions c33_order.
(** The upper bound is right: no set of typical sequences of length n has more elements. *)
Theorem c33_upper_bound : forall p n eps lb ub A, distribution p -> typical_set_cardinality Rops (Z.of_nat n) (Some p) None eps = Ok (lb, ub) ->
  NoDup A -> incl A (words (length p) n) -> Forall (typical p (shannon 2 p) eps n) A -> (INR (length A) <= ub)%R.
Proof.
  intros p n eps lb ub A D H N I T. apply c33_value in H. destruct H as (Hn & He & h & [H|[_ [q [H Eh]]]] & -> & _); inversion H; subst.
  rewrite distribution_normalised, <- INR_IZR_INZ by exact D. apply typical_upper with (p := q); auto. lia.
Qed.
Print Assumptions c33_upper_bound.
(** The lower bound holds once typical sequences have total probability at least 1 - eps (which needs n large enough) ... *)
Theorem c33_lower_bound : forall p n eps lb ub A, distribution p -> typical_set_cardinality Rops (Z.of_nat n) (Some p) None eps = Ok (lb, ub) ->
  Forall (typical p (shannon 2 p) eps n) A -> (1 - eps <= Rsum (map (word_prob p) A))%R -> (lb <= INR (length A))%R.
Proof.
  intros p n eps lb ub A D H T Q. apply c33_value in H. destruct H as (Hn & He & h & [H|[_ [q [H Eh]]]] & _ & ->); inversion H; subst.
  rewrite distribution_normalised, <- INR_IZR_INZ by exact D. apply typical_lower with (p := q); auto. lia.
Qed.
Print Assumptions c33_lower_bound.
(** ... but not for every n: here no sequence at all is typical and the lower bound is positive. *)
Theorem c33_lower_bound_refuted : exists p n eps lb ub, distribution p /\
  typical_set_cardinality Rops (Z.of_nat n) (Some p) None eps = Ok (lb, ub) /\ (0 < lb)%R /\
  forall w, In w (words (length p) n) -> ~ typical p (shannon 2 p) eps n w.
Proof.
  set (p := [1 / 4; 3 / 4]%R). assert (D : distribution p) by (split; [repeat constructor; lra|cbn; lra]).
  exists p, 1, (1 / 10)%R. eexists. eexists. split; [exact D|]. split.
  - apply c33_value. split; [reflexivity|]. split; [lra|]. eexists. split; [right; split; [reflexivity|exists p; split; reflexivity]|split; reflexivity].
  - split; [|exact quarter_not_typical]. apply Rmult_lt_0_compat; [lra|apply exp_pos].
Qed.
Print Assumptions c33_lower_bound_refuted.

Example c33_ex : distribution [1 / 2; 1 / 2]%R /\ words 2 2 = [[0; 0]; [1; 0]; [0; 1]; [1; 1]] /\ NoDup (words 2 2) /\
  Forall (typical [1 / 2; 1 / 2]%R (shannon 2 [1 / 2; 1 / 2]%R) (1 / 10)%R 2) (words 2 2) /\
  Rsum (map (word_prob [1 / 2; 1 / 2]%R) (words 2 2)) = 1%R.
Proof.
  assert (D : distribution [1 / 2; 1 / 2]%R) by (split; [repeat constructor; lra|cbn; lra]).
  split; [exact D|]. split; [reflexivity|]. split; [repeat constructor; cbn; intuition discriminate|]. split; [|unfold word_prob; cbn; lra].
  assert (H : shannon 2 [1 / 2; 1 / 2]%R = log_in 2 2).
  { apply (proj2 (entropy_max 2 [1 / 2; 1 / 2]%R ltac:(lia) D)). cbn. repeat constructor; lra. }
  pose proof (ln_base_pos 2 ltac:(lia)) as L. assert (B : log_in 2 2 = 1%R) by (unfold log_in; field; lra).
  assert (A : log_in 2 1 = 0%R) by (unfold log_in; rewrite ln_1; lra).
  rewrite H, B. cbn. repeat constructor; unfold word_prob; cbn; try lra;
    replace (1 / 2 * (1 / 2 * 1))%R with (1 / 4)%R by lra; rewrite log2_frac, A by lra;
    replace (- (0 - 2) / (1 + 1) - 1)%R with 0%R by field; rewrite Rabs_R0; lra.
Qed.

(** C34.  hellinger of two probability rows is the textbook distance, a metric bounded by 1. *)
Theorem c34_value : forall p q, length p = length q -> distribution p -> distribution q ->
  hellinger Rops (FVec p) (FVec q) = Ok [sqrt (gap p q / 2)].
Proof. intros p q E P Q. unfold hellinger. rewrite hellinger_row_R by auto. reflexivity. Qed.
Print Assumptions c34_value.
Theorem c34_matrix : forall ps qs, length ps = length qs -> Forall2 (fun p q => length p = length q /\ distribution p /\ distribution q) ps qs ->
  hellinger Rops (FMat ps) (FMat qs) = Ok (map (fun pq => sqrt (gap (fst pq) (snd pq) / 2)) (combine ps qs)).
Proof.
  intros ps qs E H. cbn. rewrite E, Nat.eqb_refl. apply map_res_ok. intros [p q] Hin. cbn.
  assert (X : length p = length q /\ distribution p /\ distribution q).
  { clear E. induction H; [destruct Hin|]. destruct Hin as [X|X]; [inversion X; subst; auto|auto]. }
  apply hellinger_row_R; tauto.
Qed.
Print Assumptions c34_matrix.
Theorem c34_metric : forall p q d, length p = length q -> distribution p -> distribution q -> hellinger Rops (FVec p) (FVec q) = Ok [d] ->
  (0 <= d <= 1)%R /\ (d = 0%R <-> p = q) /\ (d = 1%R <-> forall i, nth i p 0%R = 0%R \/ nth i q 0%R = 0%R) /\
  hellinger Rops (FVec q) (FVec p) = Ok [d].
Proof.
  intros p q d E P Q H. rewrite c34_value in H by auto. inversion H; subst.
  split; [apply hell_bounds; auto|]. split; [apply hell_zero; auto|]. split; [apply hell_one; auto|].
  rewrite c34_value by auto. rewrite gap_sym by auto. reflexivity.
Qed.
Print Assumptions c34_metric.
Theorem c34_triangle : forall p q r a b c, length p = length q -> length q = length r -> distribution p -> distribution q -> distribution r ->
  hellinger Rops (FVec p) (FVec q) = Ok [a] -> hellinger Rops (FVec q) (FVec r) = Ok [b] -> hellinger Rops (FVec p) (FVec r) = Ok [c] ->
  (c <= a + b)%R.
Proof.
  intros p q r a b c E1 E2 P Q R. rewrite !c34_value by congruence. intros Ha Hb Hc. inversion Ha; inversion Hb; inversion Hc; subst.
  rewrite !half_sqrt by apply gap_nonneg. pose proof (gap_triangle p q r E1 E2). pose proof (sqrt_pos (/ 2)). nra.
Qed.
Print Assumptions c34_triangle.
Theorem c34_errors : forall (FO : fops) p q, length p <> length q -> length p <> 1 -> length q <> 1 ->
  hellinger FO (FVec p) (FVec q) = Err ValueError /\
  (forall m, hellinger FO (FVec p) (FMat m) = Err ValueError /\ hellinger FO (FMat m) (FVec p) = Err ValueError).
Proof. intros FO p q H1 H2 H3. split; [cbn; unfold hellinger_row; rewrite broadcast_error by auto; reflexivity|auto]. Qed.
Print Assumptions c34_errors.

Example c34_ex : distribution [1; 0; 0]%R /\ distribution [0; 1 / 3; 2 / 3]%R /\ hellinger Rops (FVec [1; 0; 0]%R) (FVec [0; 1 / 3; 2 / 3]%R) = Ok [1%R].
Proof.
  assert (A : distribution [1; 0; 0]%R) by (split; [repeat constructor; lra|cbn; lra]).
  assert (B : distribution [0; 1 / 3; 2 / 3]%R) by (split; [repeat constructor; lra|cbn; lra]).
  split; [exact A|]. split; [exact B|]. rewrite c34_value by auto. do 2 f_equal.
  apply (hell_one [1; 0; 0]%R [0; 1 / 3; 2 / 3]%R eq_refl A B). intros [|[|[|[|i]]]]; cbn; auto.
Qed.

(** C35.  ber on signed bit arrays is the fraction of differing positions. *)
Theorem c35_signed : forall g p, length g = length p -> g <> [] -> Forall is_bit g -> Forall is_bit p ->
  ber Rops Signed g p = Ok (INR (differences g p) / INR (length g))%R.
Proof. intros g p E _ G P. rewrite ber_ok by exact E. cbn [fdiv fz Rops]. rewrite abs_sum by auto. rewrite <- !INR_IZR_INZ. reflexivity. Qed.
Print Assumptions c35_signed.
(** On uint8 arrays a 0 decoded as 1 counts 255 times. *)
Theorem c35_uint8 : forall g p, length g = length p -> g <> [] -> Forall is_bit g -> Forall is_bit p ->
  ber Rops UInt8 g p = Ok ((255 * INR (changes 0 1 g p) + INR (changes 1 0 g p)) / INR (length g))%R.
Proof.
  intros g p E _ G P. rewrite ber_ok by exact E. cbn [fdiv fz Rops]. rewrite wrap_sum by auto.
  rewrite plus_IZR, mult_IZR. rewrite <- !INR_IZR_INZ. reflexivity.
Qed.
Print Assumptions c35_uint8.
Theorem c35_uint8_refuted : exists g p v, length g = length p /\ Forall is_bit g /\ Forall is_bit p /\
  ber Rops UInt8 g p = Ok v /\ (1 < v)%R /\ v <> (INR (differences g p) / INR (length g))%R.
Proof.
  exists [0; 1]%Z, [1; 1]%Z. eexists. split; [reflexivity|]. split; [repeat (constructor; [unfold is_bit; auto|]); constructor|]. split; [repeat (constructor; [unfold is_bit; auto|]); constructor|].
  split; [apply c35_uint8; [reflexivity|discriminate|repeat (constructor; [unfold is_bit; auto|]); constructor|repeat (constructor; [unfold is_bit; auto|]); constructor]|].
  unfold changes, differences. cbn. lra.
Qed.
Print Assumptions c35_uint8_refuted.
Theorem c35_length : forall (FO : fops) t g p, ber FO t g p = Err ValueError <-> length g <> length p.
Proof.
  intros FO t g p. unfold ber. destruct (Nat.eqb_spec (length g) (length p)); split; intro; try discriminate; try contradiction; auto.
Qed.
Print Assumptions c35_length.
Example c35_ex : ber Qops Signed [0; 1; 1; 0]%Z [1; 1; 0; 0]%Z = Ok (1 # 2)%Q /\ differences [0; 1; 1; 0]%Z [1; 1; 0; 0]%Z = 2.
Proof. vm_compute. auto. Qed.

(** C54.  The confusion counts. *)
Theorem c54_confusion : forall predicted actual negative, exists tp fp fn,
  confusion predicted actual negative = [Z.of_nat tp; Z.of_nat fp; negative - Z.of_nat fp; Z.of_nat fn; Z.of_nat (length actual); negative]%Z /\
  tp = distinct (filter (fun v => existsb (Z.eqb v) actual) predicted) /\ tp + fp = distinct predicted /\ tp + fn = distinct actual.
Proof. exact confusion_spec. Qed.
Print Assumptions c54_confusion.
(** The reported number of positives counts repetitions, so true positives + false negatives can miss it. *)
Theorem c54_positives_refuted : exists predicted actual negative tp fp tn fn pos,
  confusion predicted actual negative = [tp; fp; tn; fn; pos; negative] /\ (tp + fn < pos)%Z.
Proof. exists [1]%Z, [1; 1; 2]%Z, 4%Z. do 5 eexists. split; [vm_compute; reflexivity|]. cbn. lia. Qed.
Print Assumptions c54_positives_refuted.
Example c54_ex : confusion [3; 5; 5; 9]%Z [5; 9; 11; 9]%Z 10%Z = [2; 1; 9; 1; 4; 10]%Z.
Proof. reflexivity. Qed.

(** C58.  What the Markov generator computes: every sample is drawn from the row addressed by the *end* of the array. *)
Theorem c58_exact : forall P (t : tensor P) choice init n s,
  generate_markov_samples choice t init n = Ok s <->
  length (start_values init) = t_order t /\ 0 < t_order t /\ t_last t = t_before_last t /\
  (t_order t <= n \/ t_order t = 1) /\ length s = n /\ firstn (t_order t) s = firstn n (start_values init) /\
  forall i, t_order t <= i < n -> exists p, t_row t (tail_seen (t_order t) n s i) = Ok p /\ choice i p = Ok (nth i s 0%Z).
Proof. exact markov_exact. Qed.
Print Assumptions c58_exact.
(** Hence all samples but the last ones are drawn from the row of the all-zero history, whatever the initial states. *)
Theorem c58_zero_row : forall P (t : tensor P) choice init n s, generate_markov_samples choice t init n = Ok s ->
  forall i, t_order t <= i -> i + t_order t <= n -> exists p, t_row t (repeat 0%Z (t_order t)) = Ok p /\ choice i p = Ok (nth i s 0%Z).
Proof. exact markov_zero_row. Qed.
Print Assumptions c58_zero_row.
(** The documented chain, in which sample i follows the k samples before it, is not what is produced. *)
Definition alternating : tensor Z :=
  Tensor 1 2 2 (fun c => match c with [0%Z] => Ok 1%Z | [1%Z] => Ok 0%Z | _ => Err IndexError end).
Theorem c58_chain_refuted : exists (t : tensor Z) choice init n s, generate_markov_samples choice t init n = Ok s /\
  exists i p, t_order t <= i < n /\ t_row t (map (fun j => nth j s 0%Z) (seq (i - t_order t) (t_order t))) = Ok p /\ choice i p <> Ok (nth i s 0%Z).
Proof.
  exists alternating, (fun _ p => Ok p), (IInt 0), 4, [0; 1; 1; 1]%Z. split; [reflexivity|].
  exists 2, 0%Z. split; [cbn; lia|]. split; [reflexivity|]. cbn. discriminate.
Qed.
Print Assumptions c58_chain_refuted.
Example c58_ex : generate_markov_samples (fun _ p => Ok p) alternating (ISeq [1]%Z) 5 = Ok [1; 1; 1; 1; 1]%Z /\
  generate_markov_samples (fun _ p => Ok p) alternating (ISeq [1; 1]%Z) 5 = Err ValueError.
Proof. split; reflexivity. Qed.

(** C61.  stats on a square matrix of counts: recall, precision, f1 and accuracy.  None stands for nan. *)
Theorem c61_stats : forall cm recall precision f1 accuracy, square cm -> stats Rops cm = (recall, precision, f1, accuracy) ->
  recall = map (recall_at cm) (seq 0 (length cm)) /\ precision = map (fun j => Some (precision_at cm j)) (seq 0 (length cm)) /\
  accuracy = (if Nat.eqb (grand_total cm) 0 then None else Some (INR (diagonal_total cm) / INR (grand_total cm))%R).
Proof.
  intros cm re pr f1 ac S E. split; [|split].
  - rewrite <- recall_eq by exact S. rewrite E. reflexivity.
  - rewrite <- precision_eq. rewrite E. reflexivity.
  - rewrite <- accuracy_eq by exact S. rewrite E. reflexivity.
Qed.
Print Assumptions c61_stats.
(** f1 of a class that occurs is the harmonic mean 2 tp / (row + column); a class that does not occur gets nan, or 0 as soon as
    some occurring class is never recognised. *)
Theorem c61_f1 : forall cm recall precision f1 accuracy i, square cm -> stats Rops cm = (recall, precision, f1, accuracy) -> i < length cm ->
  (0 < row_total cm i -> nth i f1 None = Some (2 * INR (cell cm i i) / INR (row_total cm i + col_total cm i))%R) /\
  (row_total cm i = 0 -> nth i f1 None = Some 0%R <-> exists k, k < length cm /\ 0 < row_total cm k /\ cell cm k k = 0) /\
  (row_total cm i = 0 -> nth i f1 None = None <-> forall k, k < length cm -> 0 < row_total cm k -> 0 < cell cm k k).
Proof.
  intros cm re pr f1 ac i S E Hi. pose proof (f1_eq cm S i Hi) as H. rewrite E in H. cbn [fst snd] in H. rewrite H.
  split; [|split]; intro Z.
  - destruct (Nat.eqb_spec (row_total cm i) 0); [lia|reflexivity].
  - rewrite Z. cbn. destruct (forallb _ _) eqn:A.
    + split; [discriminate|]. intros [k [Hk [R C]]]. rewrite forallb_forall in A. specialize (A k). rewrite in_seq in A. specialize (A ltac:(lia)).
      rewrite C in A. destruct (Nat.eqb_spec (row_total cm k) 0); [lia|discriminate].
    + split; [intros _|reflexivity]. assert (X : existsb (fun k => negb (Nat.eqb (row_total cm k) 0 || negb (Nat.eqb (cell cm k k) 0))) (seq 0 (length cm)) = true).
      { revert A. generalize (seq 0 (length cm)) as l. induction l as [|x l IH]; [discriminate|]. cbn. destruct (_ || _); cbn; auto. }
      apply existsb_exists in X. destruct X as [k [Hk X]]. apply in_seq in Hk. exists k.
      destruct (Nat.eqb_spec (row_total cm k) 0); [discriminate|]. destruct (Nat.eqb_spec (cell cm k k) 0); [|discriminate]. lia.
  - rewrite Z. cbn. destruct (forallb _ _) eqn:A.
    + split; [intros _|reflexivity]. intros k Hk R. rewrite forallb_forall in A. specialize (A k). rewrite in_seq in A. specialize (A ltac:(lia)).
      destruct (Nat.eqb_spec (row_total cm k) 0); [lia|]. destruct (Nat.eqb_spec (cell cm k k) 0); [discriminate|lia].
    + split; [discriminate|]. intro F. exfalso. assert (X : forallb (fun k => Nat.eqb (row_total cm k) 0 || negb (Nat.eqb (cell cm k k) 0)) (seq 0 (length cm)) = true); [|congruence].
      apply forallb_forall. intros k Hk. apply in_seq in Hk. destruct (Nat.eqb_spec (row_total cm k) 0); [reflexivity|]. specialize (F k ltac:(lia) ltac:(lia)).
      destruct (Nat.eqb_spec (cell cm k k) 0); [lia|reflexivity].
Qed.
Print Assumptions c61_f1.
(** The code's intention that a class which neither occurs nor is predicted has precision 1 is never met. *)
Theorem c61_absent_class_refuted : exists cm i recall precision f1 accuracy, square cm /\ i < length cm /\ row_total cm i = 0 /\ col_total cm i = 0 /\
  stats Rops cm = (recall, precision, f1, accuracy) /\ nth i precision None = Some 0%R.
Proof.
  set (cm := [[3; 1; 0]; [0; 2; 0]; [0; 0; 0]]). exists cm, 2. assert (S : square cm) by (repeat constructor).
  destruct (stats Rops cm) as [[[re pr] f1] ac] eqn:E. exists re, pr, f1, ac. split; [exact S|]. split; [cbn; lia|]. split; [reflexivity|]. split; [reflexivity|].
  split; [reflexivity|]. destruct (c61_stats cm re pr f1 ac S E) as [_ [-> _]]. reflexivity.
Qed.
Print Assumptions c61_absent_class_refuted.
Example c61_ex : stats Qops [[3; 1]; [0; 2]] = ([Some (3 # 4); Some 1], [Some 1; Some (2 # 3)], [Some (6 # 7); Some (4 # 5)], Some (5 # 6))%Q.
Proof. vm_compute. reflexivity. Qed.
