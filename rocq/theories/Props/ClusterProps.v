(** The online buffer classifier (C36 - C38). *)
From Coq Require Import List ZArith QArith Reals Bool Lia Permutation.
From Verif.Model Require Import Py Float InfoTheory Clustering.
From Verif.Spec Require Import RealOps Info Cluster.
From Verif.Proofs Require Import Base RealP InfoP ClusterP ClusterH ClusterR ClusterRun.
Import ListNotations.
Local Close Scope R_scope.
Local Close Scope Q_scope.

Ltac bits := repeat match goal with |- Forall _ [] => constructor | |- Forall _ (_ :: _) => constructor | |- bits_of_length _ _ => split; [reflexivity|]
  | |- is_bit _ => first [left; reflexivity|right; reflexivity] | |- both_values _ => split; cbn; auto end.

(** C36.  The first min_data_size - 1 calls return -1 and make one cluster each. *)
Theorem c36_training : forall (FO : fops) kl n m k cd md ws h b,
  Forall (bits_of_length n) (h ++ [b]) -> Forall both_values (h ++ [b]) -> (Z.of_nat (length (h ++ [b])) < m)%Z ->
  let s := after FO kl (classifier_new m k cd md ws) h in
  snd (classify FO kl s b) = Ok (-1)%Z /\ represents n (map (fun b => [b]) (h ++ [b])) (k_clusters (fst (classify FO kl s b))).
Proof.
  intros FO kl n m k cd md ws h b B V L s. rewrite app_length in L. cbn [length] in L. apply Forall_app in B. apply Forall_app in V. destruct B as [B Bb]. destruct V as [V Vb]. inversion Bb; inversion Vb; subst.
  destruct (training FO kl n m k cd md ws h) as [cs [E R]]; auto; [lia|].
  destruct (training_step FO kl n m k cd md ws s h cs b E R) as [c [E' R']]; auto; [lia|]. rewrite E'. split; [reflexivity|exact R'].
Qed.
Print Assumptions c36_training.

(** Every later call returns the number of the first cluster that fits best and adds the buffer to it only. *)
Theorem c36_log_likelihood : forall kl n m k md ws h b, (2 <= m)%Z -> (1 <= k)%Z ->
  Forall (bits_of_length n) h -> bits_of_length n b -> Forall both_values (firstn (Z.to_nat (m - 1)) h) -> (m - 1 <= Z.of_nat (length h))%Z ->
  let s := after Rops kl (classifier_new m k CLogLikelihood md ws) h in
  exists gs u, represents n gs (k_clusters (ready Rops kl s)) /\ Permutation (concat gs) h /\ Z.of_nat (length gs) = Z.min k (m - 1) /\
    first_max (fun g => fit g b) gs u /\ u < length gs /\ snd (classify Rops kl s b) = Ok (Z.of_nat u) /\
    represents n (set_nth gs u (nth u gs [] ++ [b])) (k_clusters (fst (classify Rops kl s b))).
Proof.
  intros kl n m k md ws h b Hm Hk B Hb V L s.
  destruct (next Rops kl n m k CLogLikelihood md ws Hm Hk (fun _ _ _ => True)) with (h := h) (b := b) as (gs & u & R & P & Lg & Hu & E & R' & _ & st & Ec & Rs & Es); auto.
  - intros g c F _ Lc. destruct (pick_any Rops kl n md ws g c F Lc) as (d & i & j & X & Y). exists d, i, j. auto.
  - exists gs, u. repeat (split; [first [exact R|exact P|exact Lg|exact Hu|exact E|eapply closest_LL; eauto; apply Rs]|]). exact R'.
Qed.
Print Assumptions c36_log_likelihood.

Theorem c36_hamming : forall kl n m k md ws h b, (2 <= m)%Z -> (1 <= k)%Z ->
  Forall (bits_of_length n) h -> bits_of_length n b -> Forall both_values (firstn (Z.to_nat (m - 1)) h) -> (m - 1 <= Z.of_nat (length h))%Z ->
  let s := after Rops kl (classifier_new m k CHamming md ws) h in
  exists gs u, represents n gs (k_clusters (ready Rops kl s)) /\ Permutation (concat gs) h /\ Z.of_nat (length gs) = Z.min k (m - 1) /\
    first_min (mismatch b) gs u /\ u < length gs /\ snd (classify Rops kl s b) = Ok (Z.of_nat u) /\
    represents n (set_nth gs u (nth u gs [] ++ [b])) (k_clusters (fst (classify Rops kl s b))).
Proof.
  intros kl n m k md ws h b Hm Hk B Hb V L s.
  destruct (next Rops kl n m k CHamming md ws Hm Hk (fun _ _ _ => True)) with (h := h) (b := b) as (gs & u & R & P & Lg & Hu & E & R' & _ & st & Ec & Rs & Es); auto.
  - intros g c F _ Lc. destruct (pick_any Rops kl n md ws g c F Lc) as (d & i & j & X & Y). exists d, i, j. auto.
  - exists gs, u. repeat (split; [first [exact R|exact P|exact Lg|exact Hu|exact E|eapply closest_Hamming; eauto; apply Rs]|]). exact R'.
Qed.
Print Assumptions c36_hamming.

(** Without training buffers (min_data_size <= 1) every call raises. *)
Theorem c36_no_training : forall (FO : fops) kl m k cd md ws h b, (m <= 1)%Z -> (0 <= k)%Z ->
  snd (classify FO kl (after FO kl (classifier_new m k cd md ws) h) b) = Err UnboundLocal.
Proof.
  intros FO kl m k cd md ws h b Hm Hk.
  assert (G : forall t ini x b, (0 <= t)%Z -> classify FO kl (Classifier m k [] ini x t cd md ws) b = (Classifier m k [] true x (t + 1) cd md ws, Err UnboundLocal)).
  { intros t ini x b' Ht. unfold classify. cbn [k_min k_k k_clusters k_init k_uid k_samples k_classify k_merge k_weight].
    destruct (Z.ltb_spec (t + 1) m); [lia|].
    assert (E : (if ini then (Classifier m k [] ini x (t + 1) cd md ws, Ok tt) else merge_clusters FO kl (Classifier m k [] ini x (t + 1) cd md ws)) = (Classifier m k [] ini x (t + 1) cd md ws, Ok tt)).
    { destruct ini; [reflexivity|]. unfold merge_clusters. cbn [k_min k_k k_clusters k_init k_uid k_samples k_classify k_merge k_weight length merge_loop].
      destruct (Z.ltb_spec k (Z.of_nat 0)); [lia|]. reflexivity. }
    rewrite E. unfold closest_index. cbn [k_classify k_clusters]. destruct cd; reflexivity. }
  assert (I : exists t ini x, (0 <= t)%Z /\ after FO kl (classifier_new m k cd md ws) h = Classifier m k [] ini x t cd md ws).
  { induction h as [|b' h IH] using rev_ind; [exists 0%Z, false, 0%Z; split; [lia|reflexivity]|].
    destruct IH as (t & ini & x & Ht & E). exists (t + 1)%Z, true, x. split; [lia|]. unfold after in *. rewrite fold_left_app. cbn [fold_left]. rewrite E, G by auto. reflexivity. }
  destruct I as (t & ini & x & Ht & ->). rewrite G by auto. reflexivity.
Qed.
Print Assumptions c36_no_training.

(** The buffers of the training phase must hold both bit values: after training on one constant buffer every call raises. *)
Lemma unique_repeat v n : length (unique (repeat v n)) <= 1.
Proof.
  assert (H : forall x, In x (unique (repeat v n)) -> x = v) by (intros x Hx; apply (proj1 (in_unique _ _)) in Hx; apply repeat_spec in Hx; auto).
  pose proof (unique_nodup (repeat v n)) as N. destruct (unique (repeat v n)) as [|x [|y l]]; cbn; try lia.
  inversion N; subst. exfalso. apply H2. left. rewrite (H x) by (left; auto). apply H. right; left; auto.
Qed.
Theorem c36_constant_training_refuted : forall (FO : fops) kl k cd md ws v n h b, (1 <= k)%Z ->
  snd (classify FO kl (after FO kl (classifier_new 2 k cd md ws) (repeat v n :: h)) b) = Err IndexError.
Proof.
  intros FO kl k cd md ws v n h b Hk.
  assert (C : exists c, new_cluster (repeat v n) 0 = Ok c /\ c_cols c <= 1).
  { unfold new_cluster. destruct (map_res_all (fun b => count_row (unique (repeat v n)) [b]) (repeat v n)) as [r ->].
    - intros x Hx. eexists. apply count_row_spec; [apply unique_nodup|]. intros y [<-|[]]. apply (proj2 (in_unique _ _)). exact Hx.
    - cbn [bind]. eexists. split; [reflexivity|]. apply unique_repeat. }
  destruct C as [c [Ec Hc]].
  assert (S1 : exists u0, after FO kl (classifier_new 2 k cd md ws) [repeat v n] = Classifier 2 k [c] false u0 1 cd md ws).
  { exists 1%Z. cbn [after fold_left]. unfold classify, classifier_new. cbn [k_min k_k k_clusters k_init k_uid k_samples k_classify k_merge k_weight].
    change (0 + 1 <? 2)%Z with true. cbn iota. rewrite Ec. reflexivity. }
  destruct S1 as [u0 S1].
  assert (G : forall t ini c b, (1 <= t)%Z -> c_cols c <= 1 -> exists c', c_cols c' <= 1 /\
     classify FO kl (Classifier 2 k [c] ini u0 t cd md ws) b = (Classifier 2 k [c'] true u0 (t + 1) cd md ws, Err IndexError)).
  { clear - Hk. intros t ini c b' Ht Hc. unfold classify. cbn [k_min k_k k_clusters k_init k_uid k_samples k_classify k_merge k_weight].
    destruct (Z.ltb_spec (t + 1) 2); [lia|].
    assert (E : exists c', c_cols c' <= 1 /\ (if ini then (Classifier 2 k [c] ini u0 (t + 1) cd md ws, Ok tt) else merge_clusters FO kl (Classifier 2 k [c] ini u0 (t + 1) cd md ws))
       = (Classifier 2 k [c'] ini u0 (t + 1) cd md ws, Ok tt)).
    { destruct ini; [exists c; auto|]. unfold merge_clusters. cbn [k_min k_k k_clusters k_init k_uid k_samples k_classify k_merge k_weight length merge_loop].
      destruct (Z.ltb_spec k (Z.of_nat 1)); [lia|]. eexists. split; [|reflexivity]. exact Hc. }
    destruct E as [c' [Hc' ->]]. exists c'. split; [exact Hc'|].
    assert (X : forall A (rows : list (list A)) d, column rows (c_cols c') 1 d = Err IndexError).
    { intros. unfold column. destruct (Nat.ltb_spec 1 (c_cols c')); [lia|reflexivity]. }
    unfold closest_index. cbn [k_classify k_clusters k_min k_k k_init k_uid k_samples k_merge k_weight]. destruct cd; cbn [closest].
    - unfold hard_bits. rewrite X. reflexivity.
    - unfold log_likelihood. rewrite X. reflexivity. }
  assert (I : forall h s t ini c, s = Classifier 2 k [c] ini u0 t cd md ws -> (1 <= t)%Z -> c_cols c <= 1 ->
     exists t' ini' c', after FO kl s h = Classifier 2 k [c'] ini' u0 t' cd md ws /\ (1 <= t')%Z /\ c_cols c' <= 1).
  { clear h. induction h as [|x h IH]; intros s t ini c0 -> Ht Hc0; [exists t, ini, c0; auto|].
    destruct (G t ini c0 x Ht Hc0) as [c' [Hc' E]]. cbn [after fold_left]. rewrite E. cbn [fst]. eapply IH; [reflexivity|lia|exact Hc']. }
  destruct (I h _ 1%Z false c S1) as (t & ini & c' & E & Ht & Hc'); [lia|exact Hc|].
  change (repeat v n :: h) with ([repeat v n] ++ h). unfold after in *. rewrite fold_left_app, E. destruct (G t ini c' b Ht Hc') as [c2 [_ ->]]. reflexivity.
Qed.
Print Assumptions c36_constant_training_refuted.

(** C37.  After training every buffer ever classified is a member of exactly one cluster, clusters count exactly their members, and a
    call changes only the cluster it returns. *)
Theorem c37_members : forall (FO : fops) kl n m k cd md ws h b, (2 <= m)%Z -> (1 <= k)%Z ->
  Forall (bits_of_length n) h -> bits_of_length n b -> Forall both_values (firstn (Z.to_nat (m - 1)) h) -> (m - 1 <= Z.of_nat (length h))%Z ->
  let s := after FO kl (classifier_new m k cd md ws) h in
  exists gs u, represents n gs (k_clusters (ready FO kl s)) /\ Permutation (concat gs) h /\ Z.of_nat (length gs) = Z.min k (m - 1) /\
    fold_right Z.add 0%Z (map c_n (k_clusters (ready FO kl s))) = Z.of_nat (length h) /\
    u < length gs /\ snd (classify FO kl s b) = Ok (Z.of_nat u) /\
    represents n (set_nth gs u (nth u gs [] ++ [b])) (k_clusters (fst (classify FO kl s b))) /\
    (forall j, j <> u -> nth_error (k_clusters (fst (classify FO kl s b))) j = nth_error (k_clusters (ready FO kl s)) j).
Proof.
  intros FO kl n m k cd md ws h b Hm Hk B Hb V L s.
  destruct (next FO kl n m k cd md ws Hm Hk (fun _ _ _ => True)) with (h := h) (b := b) as (gs & u & R & P & Lg & Hu & E & R' & Ho & _); auto.
  - intros g c F _ Lc. destruct (pick_any FO kl n md ws g c F Lc) as (d & i & j & X & Y). exists d, i, j. auto.
  - exists gs, u. repeat (split; [first [exact R|exact P|exact Lg|exact Hu|exact E|exact R'|rewrite <- (Permutation_length P); exact (total_members n gs _ (proj1 R))]|]). exact Ho.
Qed.
Print Assumptions c37_members.

(** The clusters are made by merging, again and again, the first closest pair of groups, starting from single buffers. *)
Theorem c37_merging : forall kl n m k cd ws h, (2 <= m)%Z -> (1 <= k)%Z ->
  Forall (bits_of_length n) h -> Forall both_values h -> Z.of_nat (length h) = (m - 1)%Z ->
  exists gs, merging (first_closest (group_distance ws n)) k (map (fun b => [b]) h) gs /\
    represents n gs (k_clusters (ready Rops kl (after Rops kl (classifier_new m k cd MHellinger ws) h))).
Proof.
  intros kl n m k cd ws h Hm Hk B V L. apply trained; auto. intros gs cs F Bc Lc. apply pick_R; auto.
Qed.
Print Assumptions c37_merging.

(** Training buffers with one bit value are merged into wrong counters: both buffers have bit 0 at position 0, yet one of the two
    members is counted as having a 1 there. *)
Theorem c37_members_refuted : forall kl, exists h, Forall (bits_of_length 2) h /\ length h = 2 /\
  k_clusters (ready Qops kl (after Qops kl (classifier_new 3 1 CLogLikelihood MHellinger WLinear) h)) = [Cluster [[2; 1]; [1; 2]]%Z 2 0 2] /\
  ~ exists g, counts_exactly 2 g (Cluster [[2; 1]; [1; 2]]%Z 2 0 2) /\ Permutation g h.
Proof.
  intro kl. exists [[0; 1]; [0; 0]]%Z. split; [bits|]. split; [reflexivity|]. split; [vm_compute; reflexivity|].
  intros (g & (R & _) & P). cbn [c_rows] in R. cbn [seq map] in R. injection R as R0 R1 _ _.
  rewrite (votes_perm _ _ 1 0 P) in R1. vm_compute in R1. discriminate.
Qed.
Print Assumptions c37_members_refuted.

(** C38.  hard_bits is 1 wherever at least one member of the cluster has a 1. *)
Theorem c38_hard_bits : forall n g c, counts_exactly n g c -> hard_bits Rops c = Ok (map (hard_bit g) (seq 0 n)).
Proof.
  intros n g c G. rewrite (hard_bits_spec Rops n g c G). f_equal. apply map_ext. intro i. apply hard_of_R. apply G.
Qed.
Print Assumptions c38_hard_bits.
Theorem c38_majority_refuted : exists n g c, counts_exactly n g c /\ hard_bits Rops c <> Ok (map (majority_bit g) (seq 0 n)).
Proof.
  exists 1, [[0]; [0]; [1]]%Z, (Cluster [[2; 1]]%Z 2 0 3).
  assert (G : counts_exactly 1 [[0]; [0]; [1]]%Z (Cluster [[2; 1]]%Z 2 0 3)) by (repeat split; discriminate).
  split; [exact G|]. rewrite (c38_hard_bits _ _ _ G). vm_compute. discriminate.
Qed.
Print Assumptions c38_majority_refuted.

(** Examples: two training buffers, one cluster each, then two more buffers. *)
Definition run_ex cd h := after Qops (fun _ _ => 0%Q) (classifier_new 3 2 cd MHellinger WLinear) h.
Example c36_ex_phases :
  map (fun p => snd (classify Qops (fun _ _ => 0%Q) (run_ex CHamming (fst p)) (snd p)))
    [([], [0; 1; 1]); ([[0; 1; 1]], [1; 0; 0]); ([[0; 1; 1]; [1; 0; 0]], [1; 0; 1]); ([[0; 1; 1]; [1; 0; 0]; [1; 0; 1]], [0; 1; 1])]%Z
  = [Ok (-1); Ok (-1); Ok 1; Ok 0]%Z.
Proof. vm_compute. reflexivity. Qed.
Example c36_ex_hypotheses : let h := [[0; 1; 1]; [1; 0; 0]]%Z in
  (2 <= 3)%Z /\ (1 <= 2)%Z /\ Forall (bits_of_length 3) h /\ bits_of_length 3 [1; 0; 1]%Z /\ Forall both_values (firstn (Z.to_nat (3 - 1)) h) /\ (3 - 1 <= Z.of_nat (length h))%Z.
Proof. cbn [firstn Z.to_nat Z.sub Pos.to_nat]. split; [lia|]. split; [lia|]. split; [bits|]. split; [bits|]. split; [|cbn; lia]. change (Pos.to_nat 2) with 2. cbn [firstn]. constructor; [|constructor; [|constructor]]. all: split; cbn; auto. Qed.
Example c37_ex : k_clusters (run_ex CHamming [[0; 1; 1]; [1; 0; 0]; [1; 0; 1]]%Z) =
  [Cluster [[1; 0]; [0; 1]; [0; 1]]%Z 2 0 1; Cluster [[0; 2]; [2; 0]; [1; 1]]%Z 2 1 2].
Proof. vm_compute. reflexivity. Qed.
Example c38_ex : hard_bits Qops (Cluster [[0; 2]; [2; 0]; [1; 1]]%Z 2 1 2) = Ok [1; 0; 1]%Z.
Proof. vm_compute. reflexivity. Qed.
