(** Histories of the classifier. *)
From Coq Require Import List ZArith Bool Lia Arith Permutation.
From Verif.Model Require Import Py Float BitOps InfoTheory Clustering.
From Verif.Spec Require Import Info Cluster.
From Verif.Proofs Require Import Base InfoP PerfP HellingerP ClusterP.
Import ListNotations.

Lemma Forall2_length {A B} (R : A -> B -> Prop) l l' : Forall2 R l l' -> length l = length l'.
Proof. induction 1; cbn; congruence. Qed.

(** ** The closest cluster *)
Lemma closest_spec {M} (better : M -> M -> bool) (metric : cluster -> res M) (f : cluster -> M) :
  (forall a b, better a b = true -> better b a = false) ->
  (forall a b c, better a b = true -> better c b = false -> better a c = true) ->
  forall cs, (forall c, In c cs -> metric c = Ok (f c)) -> cs <> [] ->
  exists u c, closest better metric cs 0 None = Ok (Some (f c, u)) /\ nth_error cs u = Some c /\
    forall j y, nth_error cs j = Some y -> better (f y) (f c) = false /\ (j < u -> better (f c) (f y) = true).
Proof.
  intros As Ct cs Hm Hne.
  assert (G : forall t p u c, (forall c, In c t -> metric c = Ok (f c)) -> nth_error p u = Some c ->
     (forall j y, nth_error p j = Some y -> better (f y) (f c) = false /\ (j < u -> better (f c) (f y) = true)) ->
     exists u' c', closest better metric t (length p) (Some (f c, u)) = Ok (Some (f c', u')) /\ nth_error (p ++ t) u' = Some c' /\
       forall j y, nth_error (p ++ t) j = Some y -> better (f y) (f c') = false /\ (j < u' -> better (f c') (f y) = true)).
  { induction t as [|x t IH]; intros p u c Ht Hu Hp.
    - exists u, c. rewrite app_nil_r. auto.
    - cbn [closest]. rewrite Ht by (left; auto). cbn [bind].
      replace (p ++ x :: t) with ((p ++ [x]) ++ t) by (rewrite <- app_assoc; reflexivity).
      replace (S (length p)) with (length (p ++ [x])) by (rewrite app_length; cbn; lia).
      assert (Lu : u < length p) by (apply nth_error_Some; congruence).
      assert (Sp : forall j y, nth_error (p ++ [x]) j = Some y -> j < length p /\ nth_error p j = Some y \/ j = length p /\ y = x).
      { intros j y E. destruct (lt_dec j (length p)) as [L|L]; [rewrite nth_error_app1 in E by auto; auto|].
        rewrite nth_error_app2 in E by lia. destruct (j - length p) as [|q] eqn:Eq; cbn in E; [inversion E; right; split; [lia|auto]|destruct q; discriminate]. }
      destruct (better (f x) (f c)) eqn:B.
      + apply IH; [intros; apply Ht; right; auto|rewrite nth_error_app2, Nat.sub_diag by lia; reflexivity|].
        intros j y E. destruct (Sp j y E) as [[Lj Ej]|[-> ->]].
        * destruct (Hp j y Ej) as [Q _]. assert (X : better (f x) (f y) = true) by (eapply Ct; eauto). split; [apply As; auto|auto].
        * split; [destruct (better (f x) (f x)) eqn:Bx; [rewrite (As _ _ Bx) in Bx; discriminate|auto]|lia].
      + apply IH; [intros; apply Ht; right; auto|rewrite nth_error_app1 by auto; exact Hu|].
        intros j y E. destruct (Sp j y E) as [[Lj Ej]|[-> ->]]; [auto|]. split; [auto|lia]. }
  destruct cs as [|x t]; [congruence|]. cbn [closest]. rewrite Hm by (left; auto). cbn [bind].
  assert (Ix : better (f x) (f x) = false) by (destruct (better (f x) (f x)) eqn:Bx; [rewrite (As _ _ Bx) in Bx; discriminate|auto]).
  destruct (G t [x] 0 x) as [u [c [E1 [E2 E3]]]]; [intros; apply Hm; right; auto|reflexivity| |].
  - intros j y E. destruct j as [|j]; cbn in E; [inversion E; subst; split; [auto|lia]|destruct j; discriminate].
  - exists u, c. auto.
Qed.

(** For an arbitrary order the result is at least an index. *)
Lemma closest_valid {M} (better : M -> M -> bool) (metric : cluster -> res M) cs :
  (forall c, In c cs -> exists d, metric c = Ok d) -> cs <> [] ->
  exists m u, closest better metric cs 0 None = Ok (Some (m, u)) /\ u < length cs.
Proof.
  intros Hm Hne.
  assert (G : forall t i m u, (forall c, In c t -> exists d, metric c = Ok d) -> u < i ->
     exists m' u', closest better metric t i (Some (m, u)) = Ok (Some (m', u')) /\ u' < i + length t).
  { induction t as [|x t IH]; intros i m u Ht Hu; cbn [closest].
    - exists m, u. split; [auto|cbn; lia].
    - destruct (Ht x (or_introl eq_refl)) as [d ->]. cbn [bind length].
      destruct (better d m); [destruct (IH (S i) d i) as [m' [u' [E L]]]|destruct (IH (S i) m u) as [m' [u' [E L]]]];
        try (intros; apply Ht; right; auto); try lia; exists m', u'; split; auto; lia. }
  destruct cs as [|x t]; [congruence|]. cbn [closest]. destruct (Hm x (or_introl eq_refl)) as [d ->]. cbn [bind].
  destruct (G t 1 d 0) as [m [u [E L]]]; [intros; apply Hm; right; auto|lia|]. exists m, u. split; [auto|cbn; lia].
Qed.

Section H.
Variable FO : fops.
Variable kl : list (F FO) -> list (F FO) -> F FO.
Variable n : nat.

(** ** Metrics of an exact cluster *)
Definition hard_of (g : list (list Z)) (i : nat) : Z :=
  if flt FO (fdiv FO (fz FO (Z.of_nat (votes g 0 i))) (fz FO (Z.of_nat (length g)))) (fz FO (Z.of_nat (votes g 1 i))) then 1%Z else 0%Z.
Lemma hard_bits_spec g c : counts_exactly n g c -> hard_bits FO c = Ok (map (hard_of g) (seq 0 n)).
Proof.
  intros (R & C & N & NE). unfold hard_bits, column, c_dist. rewrite C. cbn [Nat.ltb Nat.leb bind]. rewrite R, !map_map, N, zip_with_map. reflexivity.
Qed.

Definition logp (g : list (list Z)) (v : Z) (i : nat) : F FO :=
  flog FO (fadd FO (fdiv FO (fz FO (Z.of_nat (votes g v i))) (fz FO (Z.of_nat (length g)))) (feps FO)).
Lemma log_likelihood_spec g c b : length b = n -> counts_exactly n g c -> log_likelihood FO c b =
  Ok (fmean FO (map (fun i => fclip FO (fadd FO (fmul FO (logp g 1 i) (fz FO (nth i b (-1)%Z))) (fmul FO (logp g 0 i) (fz FO (1 - nth i b (-1)%Z))))
                                   (fz FO (-100)) (fz FO 0)) (seq 0 n))).
Proof.
  intros L (R & C & N & NE). unfold log_likelihood, column, c_dist. rewrite C. cbn [Nat.ltb Nat.leb bind]. rewrite R, !map_map, N.
  assert (Eb : b = map (fun i => nth i b (-1)%Z) (seq 0 n)) by (rewrite <- L; apply list_seq).
  rewrite !broadcast_same by (rewrite map_length, seq_length; auto). cbn [bind].
  rewrite Eb. rewrite !combine_map_seq, !map_map. cbn [fst snd map nth].
  rewrite broadcast_same by (rewrite !map_length; auto). cbn [bind]. rewrite combine_map_seq, !map_map. cbn [fst snd]. do 2 f_equal.
  apply map_ext. intro i. rewrite <- Eb. reflexivity.
Qed.

Lemma hamming_arrays a b : length a = length b -> hamming_distance (HArray a) (HArray b) 8 = Ok (xor_count (map (fun z => negb (z =? 0)%Z) a) (map (fun z => negb (z =? 0)%Z) b)).
Proof. intro E. unfold hamming_distance. cbn. rewrite !map_length, E, Nat.eqb_refl. reflexivity. Qed.

Lemma closest_index_ok s gs b : length b = n -> Forall2 (counts_exactly n) gs (k_clusters s) -> k_clusters s <> [] ->
  exists u, closest_index FO s b = Ok u /\ u < length (k_clusters s).
Proof.
  intros L F Hne.
  assert (X : forall c, In c (k_clusters s) -> exists g, counts_exactly n g c).
  { clear Hne. induction F; intros c Hc; [destruct Hc|]. destruct Hc as [<-|Hc]; eauto. }
  unfold closest_index. destruct (k_classify s).
  - destruct (closest_valid Nat.ltb (fun c => do! h <- hard_bits FO c in hamming_distance (HArray b) (HArray h) 8) (k_clusters s)) as [m [u [-> Hu]]]; auto.
    + intros c Hc. destruct (X c Hc) as [g Hg]. rewrite (hard_bits_spec g c Hg). cbn [bind]. rewrite hamming_arrays by (rewrite map_length, seq_length; auto). eexists; reflexivity.
    + exists u. auto.
  - destruct (closest_valid (fun d m => flt FO m d) (fun c => log_likelihood FO c b) (k_clusters s)) as [m [u [-> Hu]]]; auto.
    + intros c Hc. destruct (X c Hc) as [g Hg]. rewrite (log_likelihood_spec g c b L Hg). eexists; reflexivity.
    + exists u. auto.
Qed.

(** ** Merging *)
Section Merging.
Variables (md : merge_dist) (ws : weight_scheme) (Q : list (list (list Z)) -> nat -> nat -> Prop).
Hypothesis pick : forall gs cs, Forall2 (counts_exactly n) gs cs -> Forall (bits_of_length n) (concat gs) -> 2 <= length cs ->
  exists d i j, best_pair FO kl md ws cs (pairs (length cs)) None = Ok (Some (d, (i, j))) /\ i < j < length cs /\ Q gs i j.

Lemma merge_loop_spec k fuel : (1 <= k)%Z -> forall gs cs pair, Forall2 (counts_exactly n) gs cs -> Forall (bits_of_length n) (concat gs) ->
  length cs < fuel ->
  exists gs' cs', merge_loop FO kl fuel k md ws cs pair = (cs', Ok tt) /\ merging Q k gs gs' /\ Forall2 (counts_exactly n) gs' cs'.
Proof.
  intro Hk. induction fuel as [|f IH]; intros gs cs pair F2 B Hf; [lia|]. cbn [merge_loop].
  assert (Lg : length gs = length cs) by (eapply Forall2_length; eauto).
  destruct (Z.ltb_spec k (Z.of_nat (length cs))) as [Hlt|Hge].
  - destruct (pick gs cs F2 B) as [d [i [j [E [Hij HQ]]]]]; [lia|]. rewrite E. cbn zeta.
    destruct (nth_error cs j) as [c'|] eqn:Ej; [|apply nth_error_None in Ej; lia].
    rewrite nth_error_remove by lia. destruct (nth_error cs i) as [c|] eqn:Ei; [|apply nth_error_None in Ei; lia].
    assert (Gi : counts_exactly n (nth i gs []) c).
    { pose proof (F2_nth _ gs cs i [] c F2 ltac:(lia)) as X. rewrite (nth_error_nth cs i c Ei) in X. exact X. }
    assert (Gj : counts_exactly n (nth j gs []) c').
    { pose proof (F2_nth _ gs cs j [] c' F2 ltac:(lia)) as X. rewrite (nth_error_nth cs j c' Ej) in X. exact X. }
    destruct (merge_cluster_spec n _ _ c c' Gi Gj) as [m [-> Gm]].
    destruct (IH (join gs i j) (set_nth (firstn j cs ++ skipn (S j) cs) i m) (Some (i, j))) as [gs' [cs' [E' [M' F']]]].
    + unfold join. apply F2_set; [|exact Gm]. apply F2_remove. exact F2.
    + eapply Permutation_Forall; [symmetry; apply join_perm; lia|exact B].
    + rewrite length_set_nth, length_remove by lia. lia.
    + exists gs', cs'. split; [exact E'|]. split; [|exact F']. eapply merging_step; eauto; lia.
  - exists gs, cs. split; [reflexivity|]. split; [|exact F2]. apply merging_done. lia.
Qed.
End Merging.

Lemma pick_any md ws gs cs : Forall2 (counts_exactly n) gs cs -> 2 <= length cs ->
  exists d i j, best_pair FO kl md ws cs (pairs (length cs)) None = Ok (Some (d, (i, j))) /\ i < j < length cs.
Proof.
  intros F2 L. destruct (best_pair_ok FO kl md ws n gs cs F2 (pairs (length cs)) None) as [b [E [B1 B2]]].
  - intros i j H. apply in_pairs in H. exact H.
  - discriminate.
  - destruct b as [[d [i j]]|].
    + exists d, i, j. eauto.
    + destruct (B2 eq_refl) as [X _]. assert (In (0, 1) (pairs (length cs))) by (apply in_pairs; lia). rewrite X in H. destruct H.
Qed.

Lemma renumber cs : numbered (zip_with (fun i c => Cluster (c_rows c) (c_cols c) (Z.of_nat i) (c_n c)) (seq 0 (length cs)) cs).
Proof.
  unfold numbered. rewrite length_zip_with by apply seq_length. rewrite seq_length. unfold zip_with. rewrite map_map. cbn [c_uid].
  generalize 0. induction cs as [|c t IH]; intro k; [reflexivity|]. cbn [length seq combine map fst]. f_equal. apply IH.
Qed.
Lemma renumber_exact gs cs : Forall2 (counts_exactly n) gs cs ->
  Forall2 (counts_exactly n) gs (zip_with (fun i c => Cluster (c_rows c) (c_cols c) (Z.of_nat i) (c_n c)) (seq 0 (length cs)) cs).
Proof.
  intro F. unfold zip_with. generalize 0. induction F as [|g c gs cs H F IH]; intro k; [constructor|]. cbn [length seq combine map fst snd].
  constructor; [exact H|apply IH].
Qed.

(** ** Phases *)
Variables (m k : Z) (cd : classify_dist) (md : merge_dist) (ws : weight_scheme).
Hypothesis Hm : (2 <= m)%Z.
Hypothesis Hk : (1 <= k)%Z.
Let s0 := classifier_new m k cd md ws.

Lemma training_step s h cs b : s = Classifier m k cs false (Z.of_nat (length h)) (Z.of_nat (length h)) cd md ws ->
  represents n (map (fun b => [b]) h) cs -> (Z.of_nat (S (length h)) < m)%Z -> bits_of_length n b -> both_values b ->
  exists c, classify FO kl s b = (Classifier m k (cs ++ [c]) false (Z.of_nat (S (length h))) (Z.of_nat (S (length h))) cd md ws, Ok (-1)%Z) /\
    represents n (map (fun b => [b]) (h ++ [b])) (cs ++ [c]).
Proof.
  intros -> [F N] L B V. unfold classify. cbn [k_min k_k k_clusters k_init k_uid k_samples k_classify k_merge k_weight].
  replace (Z.of_nat (length h) + 1)%Z with (Z.of_nat (S (length h))) by lia. rewrite (proj2 (Z.ltb_lt _ _) L).
  destruct (new_cluster_spec n b (Z.of_nat (length h)) B V) as [c [-> [E U]]]. exists c. split; [reflexivity|].
  assert (Lc : length cs = length h) by (rewrite <- (Forall2_length _ _ _ F); apply map_length).
  split.
  - rewrite map_app. apply Forall2_app; [exact F|]. cbn. constructor; [exact E|constructor].
  - unfold numbered in *. rewrite map_app, app_length, seq_app, map_app, N. cbn [map length Nat.add seq]. rewrite U, Lc. reflexivity.
Qed.

Lemma training h : (Z.of_nat (length h) < m)%Z -> Forall (bits_of_length n) h -> Forall both_values h ->
  exists cs, after FO kl s0 h = Classifier m k cs false (Z.of_nat (length h)) (Z.of_nat (length h)) cd md ws /\ represents n (map (fun b => [b]) h) cs.
Proof.
  induction h as [|b h IH] using rev_ind; intros L B V.
  - exists []. split; [reflexivity|]. split; [constructor|reflexivity].
  - rewrite app_length in L |- *. cbn [length] in L |- *. replace (length h + 1) with (S (length h)) in * by lia. apply Forall_app in B. apply Forall_app in V. destruct B as [B Bb]. destruct V as [V Vb]. inversion Bb; inversion Vb; subst.
    destruct IH as [cs [E R]]; auto; [lia|]. destruct (training_step _ h cs b E R) as [c [E' R']]; auto.
    exists (cs ++ [c]). split; [|exact R']. unfold after in *. rewrite fold_left_app. cbn [fold_left]. rewrite E'. reflexivity.
Qed.

Section Pick.
Variable Q : list (list (list Z)) -> nat -> nat -> Prop.
Hypothesis pick : forall gs cs, Forall2 (counts_exactly n) gs cs -> Forall (bits_of_length n) (concat gs) -> 2 <= length cs ->
  exists d i j, best_pair FO kl md ws cs (pairs (length cs)) None = Ok (Some (d, (i, j))) /\ i < j < length cs /\ Q gs i j.

Lemma merge_spec s h cs t : s = Classifier m k cs false t t cd md ws -> represents n (map (fun b => [b]) h) cs -> Forall (bits_of_length n) h ->
  exists gs cs', (forall x, merge_clusters FO kl (Classifier m k cs false t x cd md ws) = (Classifier m k cs' false t x cd md ws, Ok tt)) /\
     merging Q k (map (fun b => [b]) h) gs /\ represents n gs cs'.
Proof.
  intros -> [F N] B.
  assert (Bc : Forall (bits_of_length n) (concat (map (fun b => [b]) h))).
  { replace (concat (map (fun b => [b]) h)) with h; [exact B|]. clear. induction h; cbn; congruence. }
  destruct (merge_loop_spec md ws Q pick k (S (length cs)) Hk _ cs None F Bc ltac:(lia)) as [gs [cs' [E [M F']]]].
  exists gs. eexists. split; [|split; [exact M|split; [apply renumber_exact; exact F'|apply renumber]]].
  intro x. unfold merge_clusters. cbn [k_min k_k k_clusters k_init k_uid k_samples k_classify k_merge k_weight]. rewrite E. reflexivity.
Qed.
End Pick.

Lemma numbered_set cs i c : numbered cs -> (forall x, nth_error cs i = Some x -> c_uid c = c_uid x) -> numbered (set_nth cs i c).
Proof.
  unfold numbered. rewrite length_set_nth. intros <- H.
  revert i H. induction cs as [|x t IH]; intros [|i] H; cbn; auto; [rewrite (H x eq_refl); reflexivity|]. f_equal. apply IH. exact H.
Qed.
Lemma numbered_uid cs i c : numbered cs -> nth_error cs i = Some c -> c_uid c = Z.of_nat i.
Proof.
  intros N E. unfold numbered in N. assert (X : nth_error (map c_uid cs) i = Some (c_uid c)) by (apply map_nth_error; auto).
  rewrite N in X. assert (L : i < length cs) by (apply nth_error_Some; congruence).
  rewrite nth_error_map, nth_error_nth' with (d := 0), seq_nth in X by (rewrite ?seq_length; auto). cbn in X. inversion X. reflexivity.
Qed.

(** A call after training. *)
Lemma classify_late s gs cs t b ini u0 : s = Classifier m k cs ini u0 t cd md ws -> (m <= t + 1)%Z -> 2 <= n -> bits_of_length n b ->
  (ini = true /\ represents n gs cs \/ ini = false /\ exists cs0, merge_clusters FO kl (Classifier m k cs ini u0 (t + 1) cd md ws) = (Classifier m k cs0 false u0 (t + 1) cd md ws, Ok tt)
     /\ represents n gs cs0) -> gs <> [] ->
  exists u cs1 cs', closest_index FO (Classifier m k cs1 true u0 (t + 1) cd md ws) b = Ok u /\ u < length gs /\ represents n gs cs1 /\
    (cs1 = if ini then cs else k_clusters (fst (merge_clusters FO kl (Classifier m k cs ini u0 (t + 1) cd md ws)))) /\
    classify FO kl s b = (Classifier m k cs' true u0 (t + 1) cd md ws, Ok (Z.of_nat u)) /\
    represents n (set_nth gs u (nth u gs [] ++ [b])) cs' /\ (forall j, j <> u -> nth_error cs' j = nth_error cs1 j).
Proof.
  intros -> Ht Hn Hb Hs Hg. unfold classify. cbn [k_min k_k k_clusters k_init k_uid k_samples k_classify k_merge k_weight].
  destruct (Z.ltb_spec (t + 1) m) as [|_]; [lia|].
  assert (X : exists cs1, (if ini then (Classifier m k cs ini u0 (t + 1) cd md ws, Ok tt) else merge_clusters FO kl (Classifier m k cs ini u0 (t + 1) cd md ws))
      = (Classifier m k cs1 ini u0 (t + 1) cd md ws, Ok tt) /\ represents n gs cs1 /\
      (cs1 = if ini then cs else k_clusters (fst (merge_clusters FO kl (Classifier m k cs ini u0 (t + 1) cd md ws))))).
  { destruct Hs as [[-> R]|[-> [cs0 [E R]]]]; [exists cs; auto|exists cs0; rewrite E; auto]. }
  destruct X as [cs1 [-> [[F N] Ecs]]]. cbn [k_min k_k k_clusters k_init k_uid k_samples k_classify k_merge k_weight].
  assert (Lg : length gs = length cs1) by (eapply Forall2_length; eauto).
  destruct (closest_index_ok (Classifier m k cs1 true u0 (t + 1) cd md ws) gs b (proj1 Hb) F) as [u [E Hu]].
  { cbn. intro Ez. apply Hg. destruct gs; [auto|]. rewrite Ez in Lg. discriminate Lg. }
  rewrite E. cbn [k_clusters] in Hu. destruct (nth_error cs1 u) as [c|] eqn:Eu; [|apply nth_error_None in Eu; lia].
  assert (Gc : counts_exactly n (nth u gs []) c).
  { pose proof (F2_nth _ gs cs1 u [] c F ltac:(lia)) as X. rewrite (nth_error_nth cs1 u c Eu) in X. exact X. }
  destruct (add_sample_spec n _ c b Hn Hb Gc) as [c' [-> [Gc' Uc]]].
  exists u, cs1. eexists. split; [exact E|]. split; [lia|]. split; [split; auto|]. split; [exact Ecs|]. cbn [bind]. split.
  - rewrite Uc, (numbered_uid cs1 u c N Eu). reflexivity.
  - split; [split; [apply F2_set; auto|]|].
    + apply numbered_set; [exact N|]. intros x Ex. congruence.
    + intros j Hj. clear - Hj. revert u j Hj. induction cs1 as [|x l IH]; intros [|u] [|j] Hj; cbn; auto; try congruence.
Qed.
End H.
