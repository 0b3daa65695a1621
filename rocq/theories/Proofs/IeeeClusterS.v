(** The choices of the classifier in double precision. *)
From Coq Require Import List NArith ZArith Reals Bool Lia Lra Psatz Arith Permutation Sorted.
From Flocq Require Import Core IEEE754.BinarySingleNaN.
From Verif.Model Require Import Py Float BitOps InfoTheory Clustering.
From Verif.Spec Require Import RealOps Info Stats Cluster IeeeOps IeeeCluster.
From Verif.Proofs Require Import Base RealP StatReal InfoP PerfP HellingerP ClusterP ClusterH ClusterR IeeeP IeeeInfoP IeeeHellP IeeeEmleP IeeeSweepP IeeeClusterP IeeeClusterR.
Import ListNotations.
Local Close Scope R_scope.

(** ** The closest cluster *)
Lemma closest_sim {M M'} (phi : M -> M') (P : M -> Prop) (better : M -> M -> bool) (better' : M' -> M' -> bool) (metric : cluster -> res M) (metric' : cluster -> res M') :
  (forall a b, P a -> P b -> better a b = better' (phi a) (phi b)) ->
  let out := option_map (fun p : M * nat => (phi (fst p), snd p)) in
  forall cs i best, (forall c, In c cs -> exists d, metric c = Ok d /\ P d /\ metric' c = Ok (phi d)) -> (match best with Some p => P (fst p) | None => True end) ->
  forall r, closest better metric cs i best = Ok r -> closest better' metric' cs i (out best) = Ok (out r).
Proof.
  intros HB out. induction cs as [|c t IH]; intros i best Hm Hp r E; [cbn in E; cbn; congruence|].
  destruct (Hm c (or_introl eq_refl)) as (d & E1 & Pd & E2). cbn [closest] in E |- *. rewrite E1 in E. rewrite E2. cbn [bind] in E |- *.
  assert (Hb : out (match best with Some (m, _) => if better d m then Some (d, i) else best | None => Some (d, i) end) =
     match out best with Some (m, _) => if better' (phi d) m then Some (phi d, i) else out best | None => Some (phi d, i) end).
  { destruct best as [[m j]|]; cbn; [|reflexivity]. cbn in Hp. rewrite (HB d m Pd Hp). destruct (better' _ _); reflexivity. }
  rewrite <- Hb. apply IH; [intros; apply Hm; right; assumption| |exact E].
  destruct best as [[m j]|]; cbn; [|exact Pd]. cbn in Hp. destruct (better d m); cbn; assumption.
Qed.

Section S.
Variable l : libm.

Lemma closest_LL_64 n s gs b u : accurate_log l -> 0 < n -> (Z.of_nat n <= 2 ^ 40)%Z -> k_classify s = CLogLikelihood -> bits_of_length n b ->
  Forall2 (counts_exactly n) gs (k_clusters s) -> Forall (bits_of_length n) (concat gs) -> (Z.of_nat (length (concat gs)) <= 2 ^ 50)%Z ->
  closest_index (Bops l) s b = Ok u -> best_up_to (2 * tolerance n) (fun g => fit g b) gs u /\ (Exists (copies b) gs -> first_index (copies b) gs u).
Proof.
  intros AL Pn Bn Hc Hb F B Lg E. unfold closest_index in E. rewrite Hc in E.
  set (metric := fun c => log_likelihood (Bops l) c b) in *.
  assert (M : forall j g c, nth_error gs j = Some g -> counts_exactly n g c -> exists x : b64, metric c = Ok x /\ fin x /\ (Rabs (val x - fit g b) <= tolerance n)%R /\ (val x = 0%R <-> Forall (eq b) g) /\ (val x <= 0)%R).
  { intros j g c Ej G. assert (Ig : In g gs) by (eapply nth_error_In; eauto). destruct (fit_64 l n g c b AL G) as (x & X1 & X2 & X3 & X4 & X5); auto.
    - rewrite Forall_forall in B |- *. intros y Hy. apply B. apply in_concat. eauto.
    - apply in_split in Ig as (a1 & a2 & ->). rewrite concat_app in Lg. cbn [concat] in Lg. rewrite !app_length in Lg. lia.
    - exists x. repeat split; auto; [apply X5|apply X5|apply X3]. }
  set (phi := fun c => match metric c with Ok x => val x | Err _ => 0%R end).
  destruct (closest (fun d m => flt (Bops l) m d) metric (k_clusters s) 0 None) as [r|e] eqn:Er; [|discriminate E]. cbn [bind] in E.
  assert (Er' : closest (fun d m => Rltb m d) (fun c => Ok (phi c)) (k_clusters s) 0 None = Ok (option_map (fun p : b64 * nat => (val (fst p), snd p)) r)).
  { apply (closest_sim (fun x : b64 => val x) (fun x => fin x) (fun d m => flt (Bops l) m d) (fun d m => Rltb m d) metric (fun c => Ok (phi c))) with (best := None) (r := r); auto.
    - intros a c Fa Fc. cbn [flt Bops]. destruct (Bltb c a) eqn:Q; symmetry.
      + apply (ltb_spec _ _ Fc Fa) in Q. apply Rltb_spec. exact Q.
      + destruct (Rltb (val c) (val a)) eqn:Q2; [|reflexivity]. apply (proj1 (Rltb_spec _ _)) in Q2. apply (ltb_spec _ _ Fc Fa) in Q2. rewrite Q2 in Q. discriminate.
    - intros c Hin. apply In_nth_error in Hin. destruct Hin as [j Hj]. destruct (F2_exists _ _ _ F j c Hj) as [g [Eg G]]. destruct (M j g c Eg G) as (x & X1 & X2 & _).
      exists x. split; [exact X1|]. split; [exact X2|]. unfold phi. rewrite X1. reflexivity. }
  destruct (closest_spec (fun d m => Rltb m d) (fun c => Ok (phi c)) phi) with (cs := k_clusters s) as [v [c [E' [Hv Hj]]]].
  - intros x y H. apply (proj1 (Rltb_spec _ _)) in H. apply (proj2 (Rltb_false _ _)). lra.
  - intros x y z H H'. apply (proj1 (Rltb_spec _ _)) in H. apply (proj1 (Rltb_false _ _)) in H'. apply (proj2 (Rltb_spec _ _)). lra.
  - reflexivity.
  - intro X. rewrite X in Er. cbn in Er. injection Er as <-. discriminate E.
  - rewrite E' in Er'. destruct r as [[m u0]|]; [|discriminate Er']. cbn in Er'. apply ok_inj in Er'. assert (v = u0) by congruence. subst u0. apply ok_inj in E. subst v. clear Er' E'.
    destruct (F2_exists _ _ _ F u c Hv) as [g [Eg G]]. destruct (M u g c Eg G) as (x & X1 & X2 & X3 & X4 & X5). assert (Px : phi c = val x) by (unfold phi; rewrite X1; reflexivity).
    assert (K : forall j y, nth_error gs j = Some y -> exists z : b64, fin z /\ (Rabs (val z - fit y b) <= tolerance n)%R /\ (val z = 0%R <-> Forall (eq b) y) /\ (val z <= val x)%R /\ (j < u -> (val z < val x)%R)).
    { intros j y Ey. destruct (F2_exists_l _ _ _ F j y Ey) as [c' [Ec' G']]. destruct (Hj j c' Ec') as [H1 H2]. destruct (M j y c' Ey G') as (z & Z1 & Z2 & Z3 & Z4 & Z5).
      assert (Pz : phi c' = val z) by (unfold phi; rewrite Z1; reflexivity). rewrite Px, Pz in H1, H2. apply (proj1 (Rltb_false _ _)) in H1.
      exists z. split; [exact Z2|]. split; [exact Z3|]. split; [exact Z4|]. split; [exact H1|]. intro L. apply (proj1 (Rltb_spec _ _)). apply H2, L. }
    split.
    + exists g. split; [exact Eg|]. intros j y Ey. destruct (K j y Ey) as (z & _ & Z3 & _ & Z5 & _). apply Rabs_le_inv in X3. apply Rabs_le_inv in Z3. lra.
    + intro Ex. apply Exists_exists in Ex as (g0 & Ig0 & Cg0). apply In_nth_error in Ig0 as [j0 Ej0]. destruct (K j0 g0 Ej0) as (z0 & _ & _ & Z4 & Z5 & _).
      assert (val z0 = 0%R) by (apply Z4, Cg0). assert (val x = 0%R) by lra. split.
      * exists g. split; [exact Eg|]. split; [destruct G as (_ & _ & _ & Q); exact Q|apply X4; assumption].
      * intros j y Ey Cy. destruct (K j y Ey) as (z & _ & _ & W4 & W5 & W6). assert (val z = 0%R) by (apply W4, Cy). destruct (lt_dec j u) as [L|L]; [|lia]. specialize (W6 L). exfalso. lra.
Qed.

Lemma closest_Hamming_64 n s gs b u : k_classify s = CHamming -> bits_of_length n b -> Forall2 (counts_exactly n) gs (k_clusters s) -> (Z.of_nat (length (concat gs)) <= 2 ^ 50)%Z ->
  closest_index (Bops l) s b = Ok u -> first_min (mismatch b) gs u.
Proof.
  intros Hc Hb F Lg E. unfold closest_index in E. rewrite Hc in E.
  set (metric := fun c => do! h <- hard_bits (Bops l) c in hamming_distance (HArray b) (HArray h) 8) in *.
  set (f := fun c => match metric c with Ok x => x | Err _ => 0 end).
  assert (M : forall j g c, nth_error gs j = Some g -> counts_exactly n g c -> metric c = Ok (mismatch b g)).
  { intros j g c Ej G. unfold metric. apply (hamming_64 l n); auto. apply nth_error_In in Ej. apply in_split in Ej as (a1 & a2 & ->). rewrite concat_app in Lg. cbn [concat] in Lg. rewrite !app_length in Lg. lia. }
  destruct (closest_spec Nat.ltb metric f) with (cs := k_clusters s) as [v [c [E' [Hv Hj]]]].
  - intros x y H. apply Nat.ltb_lt in H. apply Nat.ltb_ge. lia.
  - intros x y z H H'. apply Nat.ltb_lt in H. apply Nat.ltb_ge in H'. apply Nat.ltb_lt. lia.
  - intros c Hin. apply In_nth_error in Hin. destruct Hin as [j Hj]. destruct (F2_exists _ _ _ F j c Hj) as [g [Eg G]]. unfold f. rewrite (M j g c Eg G). reflexivity.
  - intro X. rewrite X in E. cbn in E. discriminate.
  - rewrite E' in E. cbn [bind] in E. apply ok_inj in E. subst v.
    destruct (F2_exists _ _ _ F u c Hv) as [g [Eg G]]. exists g. split; [exact Eg|].
    intros j y Ey. destruct (F2_exists_l _ _ _ F j y Ey) as [c' [Ec' G']]. specialize (Hj j c' Ec').
    unfold f in Hj. rewrite (M u g c Eg G), (M j y c' Ey G') in Hj. destruct Hj as [H1 H2]. apply Nat.ltb_ge in H1. split; [exact H1|].
    intro L. apply Nat.ltb_lt. auto.
Qed.

(** ** The distance of two clusters *)
Lemma pair_dist_64 kl ws n g g' c c' : counts_exactly n g c -> counts_exactly n g' c' -> Forall (bits_of_length n) g -> Forall (bits_of_length n) g' -> 0 < n -> (Z.of_nat n <= 2 ^ 40)%Z ->
  (Z.of_nat (length g) * Z.of_nat (length g') <= 2 ^ 24)%Z ->
  exists x : b64, pair_dist (Bops l) kl MHellinger ws c c' = Ok x /\ fin x /\ (0 <= val x)%R /\ (val x = 0%R <-> same_shares n g g').
Proof.
  intros G G' B B' Pn Bn Bg. assert (NE : g <> []) by (destruct G as (_ & _ & _ & X); auto). assert (NE' : g' <> []) by (destruct G' as (_ & _ & _ & X); auto).
  assert (Pg : 0 < length g) by (destruct g; [congruence|cbn; lia]). assert (Pg' : 0 < length g') by (destruct g'; [congruence|cbn; lia]).
  unfold pair_dist. cbn [hellinger].
  assert (Ed : forall q d, counts_exactly n q d -> Forall (bits_of_length n) q -> c_dist (Bops l) d = map (fun i => [b64_div (b64_z (Z.of_nat (votes q 0 i))) (b64_z (Z.of_nat (length q))); b64_div (b64_z (Z.of_nat (length q) - Z.of_nat (votes q 0 i))) (b64_z (Z.of_nat (length q)))]) (seq 0 n)).
  { intros q d (R & _ & N & _) Bq. unfold c_dist. rewrite R, map_map. apply map_ext_in. intros i Hi. apply in_seq in Hi. cbn [map fdiv fz Bops]. rewrite N. do 2 f_equal. f_equal. f_equal.
    pose proof (votes_total n q i Bq ltac:(lia)). lia. }
  rewrite (Ed g c G B), (Ed g' c' G' B'), !map_length, Nat.eqb_refl, combine_map_seq.
  set (row := fun (q : list (list Z)) i => [b64_div (b64_z (Z.of_nat (votes q 0 i))) (b64_z (Z.of_nat (length q))); b64_div (b64_z (Z.of_nat (length q) - Z.of_nat (votes q 0 i))) (b64_z (Z.of_nat (length q)))]).
  assert (H : forall i, i < n -> exists x : b64, hellinger_row (Bops l) (row g i) (row g' i) = Ok x /\ fin x /\ (0 <= val x <= 1)%R /\
     (votes g 1 i * length g' = votes g' 1 i * length g -> val x = 0%R) /\ (votes g 1 i * length g' <> votes g' 1 i * length g -> (p2 (-50) <= val x)%R)).
  { intros i Hi. pose proof (votes_total n g i B Hi) as T. pose proof (votes_total n g' i B' Hi) as T'.
    destruct (hell_row l (Z.of_nat (votes g 0 i)) (Z.of_nat (length g)) (Z.of_nat (votes g' 0 i)) (Z.of_nat (length g')) ltac:(lia) ltac:(lia) ltac:(lia) ltac:(lia) Bg) as (x & E & Fx & Rx & Zx & Mx).
    exists x. split; [exact E|]. split; [exact Fx|]. split; [exact Rx|]. split; intro Q; [apply Zx; nia|apply Mx; nia]. }
  set (hv := fun i => match hellinger_row (Bops l) (row g i) (row g' i) with Ok x => (x : b64) | Err _ => b64_z 0 end).
  assert (Em : map_res (fun xy => hellinger_row (Bops l) (fst xy) (snd xy)) (map (fun x => (row g x, row g' x)) (seq 0 n)) = Ok (map hv (seq 0 n))).
  { assert (Q : forall is, (forall i, In i is -> i < n) -> map_res (fun xy => hellinger_row (Bops l) (fst xy) (snd xy)) (map (fun x => (row g x, row g' x)) is) = Ok (map hv is)).
    { induction is as [|i is IH]; intro Hi; [reflexivity|]. cbn [map map_res fst snd]. unfold hv at 1. destruct (H i) as (x & E & _); [apply Hi; left; reflexivity|]. rewrite E. cbn [bind].
      rewrite IH by (intros; apply Hi; right; assumption). reflexivity. }
    apply Q. intros i Hi. apply in_seq in Hi. lia. }
  unfold row in Em at 1 2. change (F (Bops l)) with b64 in *. rewrite Em. cbn [bind]. eexists. split; [reflexivity|].
  assert (V : forall i, i < n -> within 1 (hv i) /\ (votes g 1 i * length g' = votes g' 1 i * length g -> val (hv i) = 0%R) /\ (votes g 1 i * length g' <> votes g' 1 i * length g -> (p2 (-50) <= val (hv i))%R)).
  { intros i Hi. destruct (H i Hi) as (x & E & Fx & Rx & Zx & Mx). unfold hv. rewrite E. split; [split; [exact Fx|lra]|auto]. }
  change (fmean (Bops l) (map hv (seq 0 n))) with (b64_div (fsum (Bops l) (map hv (seq 0 n))) (b64_z (Z.of_nat (length (map hv (seq 0 n)))))). rewrite map_length, seq_length.
  destruct (fsum_spec l 1 (map hv (seq 0 n))) as ((FS & RS) & LS); [lia| |rewrite map_length, seq_length; lia|].
  { apply Forall_map, Forall_forall. intros i Hi. apply in_seq in Hi. apply V. lia. }
  rewrite map_length, seq_length in RS. set (S := fsum (Bops l) (map hv (seq 0 n))) in *. change (F (Bops l)) with b64 in *.
  set (N := IZR (Z.of_nat n)). assert (PN : (1 <= N)%R) by (apply IZR_le; lia). destruct (z_spec (Z.of_nat n) ltac:(lia)) as [Fn Vn]. fold N in Vn. rewrite mult_IZR in RS. fold N in RS.
  assert (Rq : (0 <= val S / N <= 1)%R).
  { split; [apply Rmult_le_pos; [lra|left; apply Rinv_0_lt_compat; lra]|]. apply (Rmult_le_reg_r N); [lra|]. unfold Rdiv. rewrite Rmult_assoc, Rinv_l by lra. lra. }
  destruct (div_spec S (b64_z (Z.of_nat n)) FS) as [Fq Vq]; [rewrite Vn; lra|rewrite Vn, Rabs_pos_eq by lra; pose proof big_1; lra|]. rewrite Vn in Vq.
  set (q := b64_div S (b64_z (Z.of_nat n))) in *.
  assert (Rq' : (0 <= val q <= 1)%R) by (rewrite Vq; split; [apply rnd_ge; [apply fmt_0|lra]|apply rnd_le'; [apply fmt_1|lra]]).
  assert (Zq : (same_shares n g g' -> val q = 0%R) /\ (~ same_shares n g g' -> (p2 (-90) <= val q)%R)).
  { split.
    - intro Sm. assert (val S = 0%R).
      { unfold S, fsum. change (fadd (Bops l)) with b64_add. change (fz (Bops l) 0) with (b64_z 0). destruct (z_spec 0 ltac:(lia)) as [F0 V0].
        destruct (fold_zeros (map hv (seq 0 n)) (b64_z 0) F0) as [_ Vz]; [rewrite V0, Rabs_R0; pose proof big_pos; lra| |exact (eq_trans Vz V0)].
        apply Forall_map, Forall_forall. intros i Hi. apply in_seq in Hi. destruct (V i ltac:(lia)) as ((A & _) & Z0 & _). split; [exact A|]. apply Z0, Sm. lia. }
      rewrite Vq, H0. unfold Rdiv. rewrite Rmult_0_l. apply rnd_0.
    - intro Ns. assert (Ex : exists i, i < n /\ votes g 1 i * length g' <> votes g' 1 i * length g).
      { destruct (Forall_Exists_dec (fun i => votes g 1 i * length g' = votes g' 1 i * length g) (fun i => Nat.eq_dec _ _) (seq 0 n)) as [A|A].
        - exfalso. apply Ns. intros i Hi. rewrite Forall_forall in A. apply A, in_seq. lia.
        - apply Exists_exists in A as (i & Hi & A). apply in_seq in Hi. exists i. split; [lia|exact A]. }
      destruct Ex as (i & Hi & Ne). destruct (V i Hi) as (_ & _ & Mi). specialize (Mi Ne). assert (Li : (val (hv i) <= val S)%R) by (apply LS, in_map, in_seq; lia).
      rewrite Vq. apply rnd_ge; [apply generic_format_bpow; cbn; lia|]. apply (Rmult_le_reg_r N); [lra|]. unfold Rdiv. rewrite Rmult_assoc, Rinv_l by lra.
      assert (N <= p2 40)%R by (change (p2 40) with (IZR (2 ^ 40)); apply IZR_le; lia). assert (Ep : p2 (-50) = (p2 (-90) * p2 40)%R) by (rewrite <- bpow_plus; reflexivity). assert (P90 := bpow_gt_0 radix2 (-90)). nra. }
  assert (W : exists w : b64, pair_weight (Bops l) ws c c' = w /\ fin w /\ (1 <= val w <= p2 30)%R).
  { eexists. split; [reflexivity|]. unfold pair_weight. destruct G as (_ & _ & Nc & _). destruct G' as (_ & _ & Nc' & _). rewrite Nc, Nc'. cbn [fdiv fz fsqrt Bops].
    assert (Ls : (2 <= Z.of_nat (length g) + Z.of_nat (length g') <= 2 ^ 25)%Z) by nia. set (t := (Z.of_nat (length g) + Z.of_nat (length g'))%Z) in *.
    destruct (z_spec t ltac:(lia)) as [Ft Vt]. destruct (z_spec 2 ltac:(lia)) as [F2 V2]. destruct (z_spec 1 ltac:(lia)) as [F1 V1].
    assert (Lt : (2 <= IZR t <= p2 25)%R) by (change (p2 25) with (IZR (2 ^ 25)); split; apply IZR_le; lia).
    assert (L30 : (p2 25 <= p2 30)%R) by (apply bpow_le; lia). assert (Lb : (p2 30 <= big)%R) by (apply bpow_le; lia).
    destruct (div_spec (b64_z t) (b64_z 2) Ft) as [Fd Vd]; [rewrite V2; lra|rewrite Vt, V2, Rabs_pos_eq by lra; lra|]. rewrite Vt, V2 in Vd.
    assert (Rd : (1 <= val (b64_div (b64_z t) (b64_z 2)) <= p2 30)%R) by (rewrite Vd; split; [apply rnd_ge; [apply fmt_1|lra]|apply rnd_le'; [apply generic_format_bpow; cbn; lia|lra]]).
    set (d := b64_div (b64_z t) (b64_z 2)) in *. destruct ws.
    - destruct (sqrt_spec d Fd ltac:(lra)) as [Fs Vs]. split; [exact Fs|]. rewrite Vs.
      assert (Q : (1 <= sqrt (val d) <= val d)%R) by (split; [rewrite <- sqrt_1; apply sqrt_le_1; lra|rewrite <- (sqrt_square (val d)) at 2 by lra; apply sqrt_le_1; nra]).
      split; [apply rnd_ge; [apply fmt_1|lra]|apply rnd_le'; [apply generic_format_bpow; cbn; lia|lra]].
    - split; [exact Fd|exact Rd].
    - split; [exact F1|]. rewrite V1. lra. }
  destruct W as (w & -> & Fw & Rw). cbn [fmul Bops].
  assert (Lb : (p2 30 <= big)%R) by (apply bpow_le; lia).
  destruct (mul_spec w q Fw Fq) as [Fx Vx]; [rewrite Rabs_pos_eq by nra; nra|]. split; [exact Fx|]. rewrite Vx. split; [apply rnd_ge; [apply fmt_0|nra]|]. split.
  - intro E. destruct (Forall_Exists_dec (fun i => votes g 1 i * length g' = votes g' 1 i * length g) (fun i => Nat.eq_dec _ _) (seq 0 n)) as [A|A].
    + intros i Hi. rewrite Forall_forall in A. apply A, in_seq. lia.
    + exfalso. assert (Ns : ~ same_shares n g g') by (intro Sm; apply Exists_exists in A as (i & Hi & A); apply in_seq in Hi; apply A, Sm; lia).
      apply Zq in Ns. assert (p2 (-90) <= rnd (val w * val q))%R by (apply rnd_ge; [apply generic_format_bpow; cbn; lia|]; pose proof (bpow_gt_0 radix2 (-90)); nra).
      pose proof (bpow_gt_0 radix2 (-90)). lra.
  - intro Sm. rewrite (proj1 Zq Sm), Rmult_0_r. apply rnd_0.
Qed.

(** ** The search for the closest pair *)
Section Best.
Variable kl : list (F (Bops l)) -> list (F (Bops l)) -> F (Bops l).
Variables (md : merge_dist) (ws : weight_scheme) (cs : list cluster) (D : nat * nat -> b64).
Hypothesis HD : forall i j, i < j < length cs -> exists c c', nth_error cs i = Some c /\ nth_error cs j = Some c' /\ pair_dist (Bops l) kl md ws c c' = Ok (D (i, j)).
Hypothesis FD : forall i j, i < j < length cs -> fin (D (i, j)).

Lemma best_step_64 i j t best : i < j < length cs -> best_pair (Bops l) kl md ws cs ((i, j) :: t) best =
  best_pair (Bops l) kl md ws cs t (match best with Some (m, _) => if Bltb (D (i, j)) m then Some (D (i, j), (i, j)) else best | None => Some (D (i, j), (i, j)) end).
Proof.
  intro H. destruct (HD i j H) as [c [c' [E1 [E2 E3]]]]. cbn [best_pair]. unfold index. rewrite E1, E2. cbn [bind]. rewrite E3. cbn [bind]. reflexivity.
Qed.

Lemma best_first_64 ps : (forall i j, In (i, j) ps -> i < j < length cs) -> StronglySorted before ps -> ps <> [] ->
  exists p, best_pair (Bops l) kl md ws cs ps None = Ok (Some (D p, p)) /\ In p ps /\ forall q, In q ps -> (val (D p) <= val (D q))%R /\ (before q p -> (val (D p) < val (D q))%R).
Proof.
  intros Hin Hs Hne.
  assert (G : forall t k p, StronglySorted before (k ++ t) -> (forall i j, In (i, j) (k ++ t) -> i < j < length cs) -> In p k ->
     (forall q, In q k -> (val (D p) <= val (D q))%R /\ (before q p -> (val (D p) < val (D q))%R)) ->
     exists p', best_pair (Bops l) kl md ws cs t (Some (D p, p)) = Ok (Some (D p', p')) /\ In p' (k ++ t) /\
       forall q, In q (k ++ t) -> (val (D p') <= val (D q))%R /\ (before q p' -> (val (D p') < val (D q))%R)).
  { induction t as [|[i j] t IH]; intros k p St Ht Hp Hl.
    - exists p. rewrite app_nil_r. auto.
    - rewrite best_step_64 by (apply Ht; apply in_or_app; right; left; auto).
      assert (B : forall q, In q k -> before q (i, j)).
      { clear - St. induction k as [|x k IH]; [intros q []|]. cbn in St. inversion St as [|? ? Sx Fx]; subst. intros q [<-|Hq]; [|auto].
        rewrite Forall_forall in Fx. apply Fx. apply in_or_app. right; left; auto. }
      assert (F1 : fin (D (i, j))) by (apply FD, Ht; apply in_or_app; right; left; auto).
      assert (F2 : fin (D p)) by (destruct p as [pi pj]; apply FD, Ht; apply in_or_app; left; auto).
      replace (k ++ (i, j) :: t) with ((k ++ [(i, j)]) ++ t) in * by (rewrite <- app_assoc; reflexivity).
      destruct (Bltb (D (i, j)) (D p)) eqn:E.
      + apply (ltb_spec _ _ F1 F2) in E. apply IH; auto; [apply in_or_app; right; left; auto|]. intros q Hq. apply in_app_or in Hq. destruct Hq as [Hq|[<-|[]]].
        * destruct (Hl q Hq) as [L _]. split; [lra|intros; lra].
        * split; [lra|]. intro X. destruct (before_irrefl _ X).
      + assert (E' : (val (D p) <= val (D (i, j)))%R) by (destruct (Rle_lt_dec (val (D p)) (val (D (i, j)))) as [L|L]; [exact L|]; apply (ltb_spec _ _ F1 F2) in L; rewrite L in E; discriminate).
        apply IH; auto; [apply in_or_app; auto|]. intros q Hq. apply in_app_or in Hq. destruct Hq as [Hq|[<-|[]]]; [auto|].
        split; [lra|]. intro X. destruct (before_irrefl p). eapply before_trans; [|exact X]. apply B; auto. }
  destruct ps as [|[i j] t]; [congruence|]. rewrite best_step_64 by (apply Hin; left; auto).
  destruct (G t [(i, j)] (i, j)) as [p [E1 [E2 E3]]]; auto; [left; auto| |exists p; auto].
  intros q [<-|[]]. split; [lra|]. intro X. destruct (before_irrefl _ X).
Qed.
End Best.

Lemma before_cases p q : before p q \/ p = q \/ before q p.
Proof. destruct p as [a b], q as [c d]. unfold before. cbn [fst snd]. assert (a < c \/ a = c \/ c < a) by lia. assert (b < d \/ b = d \/ d < b) by lia. destruct H as [|[<-|]]; [tauto| |tauto]. destruct H0 as [|[<-|]]; tauto. Qed.

Lemma two_sizes {A} (gs : list (list A)) i j : i < j < length gs -> length (nth i gs []) + length (nth j gs []) <= length (concat gs).
Proof.
  revert i j. induction gs as [|g gs IH]; intros i j H; [cbn in H; lia|]. cbn [length] in H. cbn [concat]. rewrite app_length.
  destruct j as [|j]; [lia|]. destruct i as [|i].
  - cbn [nth]. assert (X : length (nth j gs []) <= length (concat gs)); [|lia]. assert (Hj : j < length gs) by lia. clear - Hj. revert j Hj. induction gs as [|g gs IH]; intros [|j] H; cbn in *; try lia; rewrite app_length; [lia|]. specialize (IH j ltac:(lia)). lia.
  - cbn [nth]. specialize (IH i j ltac:(lia)). lia.
Qed.

Lemma pick_64 kl ws n gs cs : 0 < n -> (Z.of_nat n <= 2 ^ 40)%Z -> Forall2 (counts_exactly n) gs cs -> Forall (bits_of_length n) (concat gs) -> 2 <= length cs ->
  exists d i j, best_pair (Bops l) kl MHellinger ws cs (pairs (length cs)) None = Ok (Some (d, (i, j))) /\ i < j < length cs /\
    ((Z.of_nat (length (concat gs)) <= 2 ^ 12)%Z -> first_same n gs i j).
Proof.
  intros Pn Bn F2 B L. assert (Lg : length gs = length cs) by (eapply Forall2_length; eauto).
  destruct (Z_le_gt_dec (Z.of_nat (length (concat gs))) (2 ^ 12)) as [Bl|Bl].
  2: { destruct (pick_any (Bops l) kl n MHellinger ws gs cs F2 L) as (d & i & j & E & H). exists d, i, j. split; [exact E|]. split; [exact H|]. intro; exfalso; lia. }
  assert (PD : forall i j, i < j < length cs -> exists c c' (x : b64), nth_error cs i = Some c /\ nth_error cs j = Some c' /\ pair_dist (Bops l) kl MHellinger ws c c' = Ok x /\ fin x /\ (0 <= val x)%R /\
     (val x = 0%R <-> same_shares n (nth i gs []) (nth j gs []))).
  { intros i j Hij. destruct (nth_error cs i) as [c|] eqn:Ei; [|apply nth_error_None in Ei; lia]. destruct (nth_error cs j) as [c'|] eqn:Ej; [|apply nth_error_None in Ej; lia].
    pose proof (F2_nth _ gs cs i [] c F2 ltac:(lia)) as X. rewrite (nth_error_nth cs i c Ei) in X. pose proof (F2_nth _ gs cs j [] c' F2 ltac:(lia)) as Y. rewrite (nth_error_nth cs j c' Ej) in Y.
    pose proof (two_sizes gs i j ltac:(lia)) as Sz.
    destruct (pair_dist_64 kl ws n _ _ c c' X Y) as (x & X1 & X2 & X3 & X4); try (apply forall_concat_nth; exact B); auto; [nia|]. exists c, c', x. repeat split; auto; apply X4. }
  set (D := fun p : nat * nat => match nth_error cs (fst p), nth_error cs (snd p) with Some c, Some c' => match pair_dist (Bops l) kl MHellinger ws c c' with Ok x => (x : b64) | Err _ => b64_z 0 end | _, _ => b64_z 0 end).
  assert (HDv : forall i j, i < j < length cs -> fin (D (i, j)) /\ (0 <= val (D (i, j)))%R /\ (val (D (i, j)) = 0%R <-> same_shares n (nth i gs []) (nth j gs []))).
  { intros i j Hij. destruct (PD i j Hij) as (c & c' & x & E1 & E2 & E3 & Q). unfold D. cbn [fst snd]. rewrite E1, E2, E3. exact Q. }
  destruct (best_first_64 kl MHellinger ws cs D) with (ps := pairs (length cs)) as [[i j] [E [Hp Hq]]].
  - intros i j Hij. destruct (PD i j Hij) as (c & c' & x & E1 & E2 & E3 & Q). exists c, c'. split; [exact E1|]. split; [exact E2|]. unfold D. cbn [fst snd]. rewrite E1, E2, E3. reflexivity.
  - intros i j Hij. apply HDv, Hij.
  - intros i j H. apply in_pairs in H. exact H.
  - apply pairs_sorted.
  - intro X. assert (Y : In (0, 1) (pairs (length cs))) by (apply in_pairs; lia). rewrite X in Y. destruct Y.
  - apply in_pairs in Hp. exists (D (i, j)), i, j. split; [exact E|]. split; [exact Hp|]. intros _ i' j' Hij Sm. rewrite Lg in Hij.
    destruct (Hq (i', j')) as [X Y]; [apply in_pairs; lia|]. destruct (HDv i' j' Hij) as (_ & _ & Z'). destruct (HDv i j Hp) as (_ & P & Z).
    assert (val (D (i', j')) = 0%R) by (apply Z', Sm). assert (val (D (i, j)) = 0%R) by lra. split; [apply Z; assumption|].
    destruct (before_cases (i', j') (i, j)) as [Q|[Q|Q]]; [exfalso; specialize (Y Q); lra|left; exact Q|right; exact Q].
Qed.
End S.
