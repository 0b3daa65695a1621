(** The classifier over exact reals, and its complete histories. *)
From Coq Require Import List ZArith Reals Lra Bool Lia Arith Permutation Sorted.
From Verif.Model Require Import Py Float BitOps InfoTheory Clustering.
From Verif.Spec Require Import RealOps Stats Info Cluster.
From Verif.Proofs Require Import Base RealP StatReal InfoP PerfP HellingerP ClusterP ClusterH.
Import ListNotations.
Local Close Scope R_scope.

Lemma before_trans a b c : before a b -> before b c -> before a c.
Proof. unfold before. lia. Qed.
Lemma before_irrefl a : ~ before a a.
Proof. unfold before. lia. Qed.
Lemma sorted_app {A} (R : A -> A -> Prop) l l' : StronglySorted R l -> StronglySorted R l' -> (forall x y, In x l -> In y l' -> R x y) -> StronglySorted R (l ++ l').
Proof.
  intros S1 S2 H. induction S1 as [|x l S1 IH F]; [exact S2|]. cbn. constructor; [apply IH; intros; apply H; [right|]; auto|].
  apply Forall_app. split; [exact F|]. apply Forall_forall. intros y Hy. apply H; [left|]; auto.
Qed.
Lemma pairs_sorted n : StronglySorted before (pairs n).
Proof.
  unfold pairs.
  assert (G : forall m k, StronglySorted before (flat_map (fun i => map (fun j => (i, j)) (seq (S i) (n - S i))) (seq k m))).
  { induction m as [|m IH]; intro k; [constructor|]. cbn [seq flat_map]. apply sorted_app; [|apply IH|].
    - generalize (S k) (n - S k). intros a d; revert a. induction d as [|d IHd]; intro a; [constructor|]. cbn [seq map]. constructor; [apply IHd|].
      apply Forall_map, Forall_forall. intros x Hx. apply in_seq in Hx. right. cbn. lia.
    - intros x y Hx Hy. apply in_map_iff in Hx. destruct Hx as [j [<- _]]. apply in_flat_map in Hy. destruct Hy as [i [Hi Hy]].
      apply in_seq in Hi. apply in_map_iff in Hy. destruct Hy as [j' [<- _]]. left. cbn. lia. }
  apply G.
Qed.

(** ** The search for the closest pair *)
Section Best.
Variable kl : list (F Rops) -> list (F Rops) -> F Rops.
Variables (md : merge_dist) (ws : weight_scheme) (cs : list cluster) (D : nat * nat -> R).
Hypothesis HD : forall i j, i < j < length cs -> exists c c', nth_error cs i = Some c /\ nth_error cs j = Some c' /\ pair_dist Rops kl md ws c c' = Ok (D (i, j)).

Lemma best_step i j t best : i < j < length cs -> best_pair Rops kl md ws cs ((i, j) :: t) best =
  best_pair Rops kl md ws cs t (match best with Some (m, _) => if Rltb (D (i, j)) m then Some (D (i, j), (i, j)) else best | None => Some (D (i, j), (i, j)) end).
Proof.
  intro H. destruct (HD i j H) as [c [c' [E1 [E2 E3]]]]. cbn [best_pair]. unfold index. rewrite E1, E2. cbn [bind]. rewrite E3. cbn [bind]. reflexivity.
Qed.

Lemma best_first ps : (forall i j, In (i, j) ps -> i < j < length cs) -> StronglySorted before ps -> ps <> [] ->
  exists p, best_pair Rops kl md ws cs ps None = Ok (Some (D p, p)) /\ In p ps /\ forall q, In q ps -> (D p <= D q)%R /\ (before q p -> (D p < D q)%R).
Proof.
  intros Hin Hs Hne.
  assert (G : forall t l p, StronglySorted before (l ++ t) -> (forall i j, In (i, j) (l ++ t) -> i < j < length cs) -> In p l ->
     (forall q, In q l -> (D p <= D q)%R /\ (before q p -> (D p < D q)%R)) ->
     exists p', best_pair Rops kl md ws cs t (Some (D p, p)) = Ok (Some (D p', p')) /\ In p' (l ++ t) /\
       forall q, In q (l ++ t) -> (D p' <= D q)%R /\ (before q p' -> (D p' < D q)%R)).
  { induction t as [|[i j] t IH]; intros l p St Ht Hp Hl.
    - exists p. rewrite app_nil_r. auto.
    - rewrite best_step by (apply Ht; apply in_or_app; right; left; auto).
      assert (B : forall q, In q l -> before q (i, j)).
      { clear - St. induction l as [|x l IH]; [intros q []|]. cbn in St. inversion St as [|? ? Sx Fx]; subst. intros q [<-|Hq]; [|auto].
        rewrite Forall_forall in Fx. apply Fx. apply in_or_app. right; left; auto. }
      replace (l ++ (i, j) :: t) with ((l ++ [(i, j)]) ++ t) in * by (rewrite <- app_assoc; reflexivity).
      destruct (Rltb (D (i, j)) (D p)) eqn:E.
      + apply (proj1 (Rltb_spec _ _)) in E. apply IH; auto; [apply in_or_app; right; left; auto|]. intros q Hq. apply in_app_or in Hq. destruct Hq as [Hq|[<-|[]]].
        * destruct (Hl q Hq) as [L _]. split; [lra|intros; lra].
        * split; [lra|]. intro X. destruct (before_irrefl _ X).
      + apply (proj1 (Rltb_false _ _)) in E. apply IH; auto; [apply in_or_app; auto|]. intros q Hq. apply in_app_or in Hq. destruct Hq as [Hq|[<-|[]]]; [auto|].
        split; [lra|]. intro X. destruct (before_irrefl p). eapply before_trans; [|exact X]. apply B; auto. }
  destruct ps as [|[i j] t]; [congruence|]. rewrite best_step by (apply Hin; left; auto).
  destruct (G t [(i, j)] (i, j)) as [p [E1 [E2 E3]]]; auto; [left; auto| |exists p; auto].
  intros q [<-|[]]. split; [lra|]. intro X. destruct (before_irrefl _ X).
Qed.
End Best.

Lemma IZR_nat x : IZR (Z.of_nat x) = INR x. Proof. symmetry. apply INR_IZR_INZ. Qed.

Lemma share_distribution n g i : g <> [] -> Forall (bits_of_length n) g -> i < n -> distribution [share g 0 i; share g 1 i].
Proof.
  intros Hg Hb Hi. unfold share. pose proof (votes_total n g i Hb Hi) as T.
  assert (P : (0 < INR (length g))%R) by (apply lt_0_INR; destruct g; [congruence|cbn; lia]).
  split.
  - assert (X : forall k, (0 <= INR k / INR (length g))%R) by (intro; apply Rmult_le_pos; [apply pos_INR|left; apply Rinv_0_lt_compat; auto]).
    constructor; [apply X|constructor; [apply X|constructor]].
  - unfold Rsum. cbn [fold_right]. rewrite <- T, plus_INR in *. field. lra.
Qed.

Lemma c_dist_R n g c : counts_exactly n g c -> c_dist Rops c = map (fun i => [share g 0 i; share g 1 i]) (seq 0 n).
Proof.
  intros (R & C & N & NE). unfold c_dist. rewrite R, map_map. apply map_ext. intro i. cbn [map fdiv fz Rops]. rewrite N, !IZR_nat. reflexivity.
Qed.

Lemma pair_dist_R kl ws n g g' c c' : counts_exactly n g c -> counts_exactly n g' c' -> Forall (bits_of_length n) g -> Forall (bits_of_length n) g' ->
  pair_dist Rops kl MHellinger ws c c' = Ok (group_distance ws n g g').
Proof.
  intros G G' B B'. assert (NE : g <> []) by (destruct G as (_ & _ & _ & X); auto). assert (NE' : g' <> []) by (destruct G' as (_ & _ & _ & X); auto).
  unfold pair_dist. cbn [hellinger]. rewrite (c_dist_R n g c G), (c_dist_R n g' c' G'), !map_length, Nat.eqb_refl, combine_map_seq.
  rewrite (map_res_ok _ (fun xy => sqrt (gap (fst xy) (snd xy) / 2))).
  - cbn [bind]. f_equal. unfold group_distance. cbn [fmul Rops]. f_equal.
    + destruct G as (_ & _ & N & _). destruct G' as (_ & _ & N' & _). unfold pair_weight, size_weight. rewrite N, N'. cbn [fsqrt fdiv fz Rops]. rewrite plus_IZR, !IZR_nat. destruct ws; reflexivity.
    + etransitivity; [apply fmean_R|]. unfold mean_of, group_hellinger. rewrite map_map. cbn [fst snd]. rewrite !map_length, seq_length. reflexivity.
  - intros xy Hxy. apply in_map_iff in Hxy. destruct Hxy as [i [<- Hi]]. apply in_seq in Hi. cbn [fst snd].
    apply hellinger_row_R; [reflexivity|apply (share_distribution n); auto; lia|apply (share_distribution n); auto; lia].
Qed.

Lemma forall_concat_nth {A} (P : A -> Prop) gs i : Forall P (concat gs) -> Forall P (nth i gs []).
Proof. revert i. induction gs as [|g gs IH]; intros [|i] H; cbn in *; auto; apply Forall_app in H; destruct H; auto. Qed.

Lemma pick_R kl ws n gs cs : Forall2 (counts_exactly n) gs cs -> Forall (bits_of_length n) (concat gs) -> 2 <= length cs ->
  exists d i j, best_pair Rops kl MHellinger ws cs (pairs (length cs)) None = Ok (Some (d, (i, j))) /\ i < j < length cs /\ first_closest (group_distance ws n) gs i j.
Proof.
  intros F2 B L. assert (Lg : length gs = length cs) by (eapply Forall2_length; eauto).
  destruct (best_first kl MHellinger ws cs (fun p => group_distance ws n (nth (fst p) gs []) (nth (snd p) gs []))) with (ps := pairs (length cs)) as [[i j] [E [Hp Hq]]].
  - intros i j Hij. destruct (nth_error cs i) as [c|] eqn:Ei; [|apply nth_error_None in Ei; lia]. destruct (nth_error cs j) as [c'|] eqn:Ej; [|apply nth_error_None in Ej; lia].
    exists c, c'. repeat split; auto. cbn [fst snd]. apply pair_dist_R; try (apply forall_concat_nth; auto).
    + pose proof (F2_nth _ gs cs i [] c F2 ltac:(lia)) as X. rewrite (nth_error_nth cs i c Ei) in X. exact X.
    + pose proof (F2_nth _ gs cs j [] c' F2 ltac:(lia)) as X. rewrite (nth_error_nth cs j c' Ej) in X. exact X.
  - intros i j H. apply in_pairs in H. exact H.
  - apply pairs_sorted.
  - intro X. assert (Y : In (0, 1) (pairs (length cs))) by (apply in_pairs; lia). rewrite X in Y. destruct Y.
  - eexists; exists i, j. split; [exact E|]. split; [apply in_pairs in Hp; exact Hp|].
    intros i' j' Hij. destruct (Hq (i', j')) as [X Y]; [apply in_pairs; lia|]. split; [exact X|exact Y].
Qed.

(** ** The metrics *)
Lemma votes_le g i : votes g 0 i + votes g 1 i <= length g.
Proof.
  induction g as [|b g IH]; [reflexivity|]. change (b :: g) with ([b] ++ g). rewrite !votes_app, !votes_one. cbn [length app].
  destruct (Z.eqb_spec (nth i b (-1)%Z) 0) as [->|]; [cbn; lia|]. destruct (Z.eqb _ 1); lia.
Qed.
Lemma votes_any g v i : existsb (fun b => Z.eqb (nth i b (-1)%Z) v) g = Nat.ltb 0 (votes g v i).
Proof. induction g as [|b g IH]; [reflexivity|]. change (b :: g) with ([b] ++ g). rewrite votes_app, votes_one. cbn [existsb app]. rewrite IH. destruct (Z.eqb _ _); reflexivity. Qed.
Lemma hard_of_R g i : g <> [] -> hard_of Rops g i = hard_bit g i.
Proof.
  intro Hg. unfold hard_of, hard_bit. cbn [flt fdiv fz Rops]. rewrite !IZR_nat, votes_any. pose proof (votes_le g i) as T.
  assert (P : (0 < INR (length g))%R) by (apply lt_0_INR; destruct g; [congruence|cbn; lia]).
  destruct (Nat.ltb_spec 0 (votes g 1 i)) as [H|H].
  - rewrite (proj2 (Rltb_spec _ _)); [reflexivity|]. assert (X : votes g 0 i < votes g 1 i * length g) by nia. apply lt_INR in X. rewrite mult_INR in X.
    apply Rmult_lt_reg_r with (INR (length g)); auto. unfold Rdiv. rewrite Rmult_assoc, Rinv_l, Rmult_1_r by lra. exact X.
  - rewrite (proj2 (Rltb_false _ _)); [reflexivity|]. replace (votes g 1 i) with 0 by lia. cbn [INR]. apply Rmult_le_pos; [apply pos_INR|left; apply Rinv_0_lt_compat; auto].
Qed.

Lemma fclip_R x lo hi : fclip Rops x lo hi = Rmin (Rmax x lo) hi.
Proof.
  unfold fclip, fmin, fmax. cbn [fle Rops].
  destruct (Rleb lo x) eqn:E; [apply (proj1 (Rleb_spec _ _)) in E; rewrite Rmax_left by auto|apply (proj1 (Rleb_false _ _)) in E; rewrite Rmax_right by lra];
  match goal with |- context [Rleb ?a ?b] => destruct (Rleb a b) eqn:E2; [apply (proj1 (Rleb_spec _ _)) in E2; rewrite Rmin_left by auto|apply (proj1 (Rleb_false _ _)) in E2; rewrite Rmin_right by lra] end; reflexivity.
Qed.

Lemma log_likelihood_R n g c b : bits_of_length n b -> counts_exactly n g c -> log_likelihood Rops c b = Ok (fit g b).
Proof.
  intros Hb G. rewrite (log_likelihood_spec Rops n g c b (proj1 Hb) G). f_equal. etransitivity; [apply fmean_R|]. unfold mean_of, fit.
  rewrite !map_length, seq_length, (proj1 Hb). f_equal. f_equal. apply map_ext_in. intros i Hi. apply in_seq in Hi.
  rewrite fclip_R. cbn [fz Rops]. f_equal. f_equal. unfold logp, feps. cbn [fadd fmul flog fdiv fz Rops]. rewrite !IZR_nat. fold (share g 1 i) (share g 0 i).
  replace (1 / 4503599627370496)%R with (/ 4503599627370496)%R by lra.
  destruct (bit_nth n b i Hb ltac:(lia)) as [->| ->]; cbn; lra.
Qed.

Lemma xor_count_seq (f h : nat -> Z) m : (forall i, i < m -> is_bit (f i)) -> (forall i, i < m -> is_bit (h i)) -> forall k d, k + d <= m ->
  xor_count (map (fun z => negb (z =? 0)%Z) (map f (seq k d))) (map (fun z => negb (z =? 0)%Z) (map h (seq k d))) = length (filter (fun i => negb (f i =? h i)%Z) (seq k d)).
Proof.
  intros Hf Hh k d; revert k. induction d as [|d IH]; intros k L; [reflexivity|]. cbn [seq map xor_count filter]. rewrite IH by lia.
  destruct (Hf k ltac:(lia)) as [->| ->]; destruct (Hh k ltac:(lia)) as [->| ->]; reflexivity.
Qed.

Lemma hamming_R n g c b : bits_of_length n b -> counts_exactly n g c ->
  (do! h <- hard_bits Rops c in hamming_distance (HArray b) (HArray h) 8) = Ok (mismatch b g).
Proof.
  intros Hb G. assert (NE : g <> []) by (destruct G as (_ & _ & _ & X); auto).
  rewrite (hard_bits_spec Rops n g c G). cbn [bind]. rewrite hamming_arrays by (rewrite map_length, seq_length; apply Hb).
  f_equal. unfold mismatch. rewrite (proj1 Hb).
  assert (Eb : b = map (fun i => nth i b (-1)%Z) (seq 0 n)) by (rewrite <- (proj1 Hb) at 1; apply list_seq).
  rewrite Eb at 1. rewrite (map_ext _ _ (fun i => hard_of_R g i NE)). apply xor_count_seq with n; auto.
  - intros i Hi. apply (bit_nth n b i Hb Hi).
  - intros i _. unfold hard_bit, is_bit. destruct (existsb _ _); auto.
Qed.

Lemma F2_exists {A B} (R : A -> B -> Prop) l l' : Forall2 R l l' -> forall j y, nth_error l' j = Some y -> exists x, nth_error l j = Some x /\ R x y.
Proof. induction 1 as [|x y l l' H F IH]; intros [|j] z E; cbn in *; try discriminate; [inversion E; subst; eauto|auto]. Qed.
Lemma F2_exists_l {A B} (R : A -> B -> Prop) l l' : Forall2 R l l' -> forall j x, nth_error l j = Some x -> exists y, nth_error l' j = Some y /\ R x y.
Proof. induction 1 as [|x y l l' H F IH]; intros [|j] z E; cbn in *; try discriminate; [inversion E; subst; eauto|auto]. Qed.

Lemma ok_inj {A} (x y : A) : Ok x = Ok y -> x = y. Proof. congruence. Qed.

Lemma closest_LL n s gs b u : k_classify s = CLogLikelihood -> bits_of_length n b -> Forall2 (counts_exactly n) gs (k_clusters s) ->
  closest_index Rops s b = Ok u -> first_max (fun g => fit g b) gs u.
Proof.
  intros Hc Hb F E. unfold closest_index in E. rewrite Hc in E.
  set (metric := fun c => log_likelihood Rops c b) in *.
  set (f := fun c => match metric c with Ok x => x | Err _ => 0%R end).
  assert (M : forall g c, counts_exactly n g c -> metric c = Ok (fit g b)) by (intros; unfold metric; apply (log_likelihood_R n); auto).
  destruct (closest_spec (fun d m => flt Rops m d) metric f) with (cs := k_clusters s) as [v [c [E' [Hv Hj]]]].
  - intros x y H. cbn in *. apply (proj1 (Rltb_spec _ _)) in H. apply (proj2 (Rltb_false _ _)). lra.
  - intros x y z H H'. cbn in *. apply (proj1 (Rltb_spec _ _)) in H. apply (proj1 (Rltb_false _ _)) in H'. apply (proj2 (Rltb_spec _ _)). lra.
  - intros c Hin. apply In_nth_error in Hin. destruct Hin as [j Hj]. destruct (F2_exists _ _ _ F j c Hj) as [g [_ G]]. unfold f. rewrite (M g c G). reflexivity.
  - intro X. rewrite X in E. cbn in E. discriminate.
  - change R with (Float.F Rops) in E'. rewrite E' in E. cbn [bind] in E. apply ok_inj in E. subst v.
    destruct (F2_exists _ _ _ F u c Hv) as [g [Eg G]]. exists g. split; [exact Eg|].
    intros j y Ey. destruct (F2_exists_l _ _ _ F j y Ey) as [c' [Ec' G']]. specialize (Hj j c' Ec').
    unfold f in Hj. rewrite (M g c G), (M y c' G') in Hj. cbn in Hj. destruct Hj as [H1 H2]. apply (proj1 (Rltb_false _ _)) in H1. split; [exact H1|].
    intro L. specialize (H2 L). apply (proj1 (Rltb_spec _ _)) in H2. exact H2.
Qed.

Lemma closest_Hamming n s gs b u : k_classify s = CHamming -> bits_of_length n b -> Forall2 (counts_exactly n) gs (k_clusters s) ->
  closest_index Rops s b = Ok u -> first_min (mismatch b) gs u.
Proof.
  intros Hc Hb F E. unfold closest_index in E. rewrite Hc in E.
  set (metric := fun c => do! h <- hard_bits Rops c in hamming_distance (HArray b) (HArray h) 8) in *.
  set (f := fun c => match metric c with Ok x => x | Err _ => 0 end).
  assert (M : forall g c, counts_exactly n g c -> metric c = Ok (mismatch b g)) by (intros; unfold metric; apply (hamming_R n); auto).
  destruct (closest_spec Nat.ltb metric f) with (cs := k_clusters s) as [v [c [E' [Hv Hj]]]].
  - intros x y H. apply Nat.ltb_lt in H. apply Nat.ltb_ge. lia.
  - intros x y z H H'. apply Nat.ltb_lt in H. apply Nat.ltb_ge in H'. apply Nat.ltb_lt. lia.
  - intros c Hin. apply In_nth_error in Hin. destruct Hin as [j Hj]. destruct (F2_exists _ _ _ F j c Hj) as [g [_ G]]. unfold f. rewrite (M g c G). reflexivity.
  - intro X. rewrite X in E. cbn in E. discriminate.
  - rewrite E' in E. cbn [bind] in E. apply ok_inj in E. subst v.
    destruct (F2_exists _ _ _ F u c Hv) as [g [Eg G]]. exists g. split; [exact Eg|].
    intros j y Ey. destruct (F2_exists_l _ _ _ F j y Ey) as [c' [Ec' G']]. specialize (Hj j c' Ec').
    unfold f in Hj. rewrite (M g c G), (M y c' G') in Hj. destruct Hj as [H1 H2]. apply Nat.ltb_ge in H1. split; [exact H1|].
    intro L. apply Nat.ltb_lt. auto.
Qed.
