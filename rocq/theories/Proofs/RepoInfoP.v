(** Proofs about Model/RepoTests.v: information theory, in exact arithmetic. *)
From Coq Require Import List ZArith Reals Bool Lia Lra Psatz Arith.
From Verif.Model Require Import Py Float InfoTheory DecoderBase RepoTests.
From Verif.Spec Require Import RealOps Info.
From Verif.Proofs Require Import RealP InfoP EntropyP EntropyDecP.
Import ListNotations.
Local Open Scope R_scope.

Lemma close_R a b t : close Rops a b t = true <-> Rabs (a - b) <= t.
Proof. apply Rleb_spec. Qed.
Lemma close_iff a b t : close Rops a b t = true <-> a - t <= b <= a + t.
Proof. rewrite close_R. unfold Rabs. destruct (Rcase_abs (a - b)); lra. Qed.
Lemma approx_same a b : a = b -> approx Rops a b = true.
Proof. intros ->. unfold approx. apply close_R. cbn [fmul fdiv fz fabs Rops]. rewrite Rminus_diag_eq, Rabs_R0 by reflexivity. pose proof (Rabs_pos b). lra. Qed.

Lemma pymin_low l : forall x, let m := fold_left (fun m y => if Rltb y m then y else m) l x in m <= x /\ Forall (fun y => m <= y) l.
Proof.
  induction l as [|y t IH]; intro x; cbn [fold_left]; [split; [lra|constructor]|].
  specialize (IH (if Rltb y x then y else x)). cbn zeta in IH. destruct IH as [Lx Fa]. destruct (Rltb y x) eqn:E.
  - apply (proj1 (Rltb_spec _ _)) in E. split; [lra|constructor; auto].
  - apply (proj1 (Rltb_false _ _)) in E. split; [lra|constructor; auto; lra].
Qed.
Lemma pymin_R l : l <> [] -> exists m, pymin Rops l = Ok m /\ In m l /\ Forall (fun y => m <= y) l.
Proof.
  destruct l as [|x t]; [contradiction|]. intros _. cbn [pymin]. eexists. split; [reflexivity|]. destruct (pymin_low t x) as [Lx Fa].
  split; [destruct (pymin_fold t x) as [E|I]; [left; symmetry; exact E|right; exact I]|constructor; auto].
Qed.

Lemma ratio_iff (c n : nat) : (0 < n)%nat ->
  (/5 - /1000 <= INR c / INR n <= /5 + /1000 <-> (199 * Z.of_nat n <= 1000 * Z.of_nat c <= 201 * Z.of_nat n)%Z).
Proof.
  intro H. assert (P : 0 < INR n) by (apply lt_0_INR; lia). set (x := INR c / INR n). assert (E : INR c = x * INR n) by (unfold x; field; lra).
  assert (Q : (199 * Z.of_nat n <= 1000 * Z.of_nat c <= 201 * Z.of_nat n)%Z <-> 199 * INR n <= 1000 * INR c <= 201 * INR n).
  { rewrite !INR_IZR_INZ, <- !mult_IZR. split; intros [A B]; split; try (apply IZR_le; assumption); apply le_IZR; assumption. }
  rewrite Q, E. split; intros [A B]; split; nra.
Qed.

Lemma probability_occurring l : t_probability Rops l = true <->
  l <> [] /\ forall v, In v l -> (199 * Z.of_nat (length l) <= 1000 * Z.of_nat (occurrences l v) <= 201 * Z.of_nat (length l))%Z.
Proof.
  unfold t_probability, prob. rewrite prob_vec. cbn [bind check fst]. rewrite divide_freq. destruct l as [|x0 t0]; [split; [discriminate|intros [[] _]; reflexivity]|].
  set (l := x0 :: t0). assert (Hl : (0 < length l)%nat) by (cbn; lia).
  assert (N : frequencies l (unique l) <> []).
  { unfold frequencies. destruct (unique l) eqn:E; [|discriminate]. exfalso. assert (I : In x0 (unique l)) by (apply in_unique; left; reflexivity). rewrite E in I. exact I. }
  destruct (pymin_R _ N) as (mn & E1 & I1 & F1). destruct (pymax_R _ N) as (mx & E2 & (I2 & F2)). change (F Rops) with R in *. rewrite E1. cbn [check]. rewrite E2. cbn [check].
  rewrite andb_true_iff, !close_iff. cbn [fdiv fz Rops].
  assert (A : forall v, In v l -> In (INR (occurrences l v) / INR (length l)) (frequencies l (unique l))).
  { intros v Hv. unfold frequencies. apply (in_map (fun v => INR (occurrences l v) / INR (length l))). apply in_unique. exact Hv. }
  rewrite Forall_forall in F1, F2. split.
  - intros [H1 H2]. split; [discriminate|]. intros v Hv. apply ratio_iff; [exact Hl|]. specialize (A v Hv). pose proof (F1 _ A). pose proof (F2 _ A). cbv beta in *. lra.
  - intros [_ H]. assert (B : forall y, In y (frequencies l (unique l)) -> /5 - /1000 <= y <= /5 + /1000).
    { intros y Hy. unfold frequencies in Hy. apply in_map_iff in Hy. destruct Hy as (v & <- & Hv). apply ratio_iff; [exact Hl|]. apply H, in_unique, Hv. }
    pose proof (B _ I1). pose proof (B _ I2). lra.
Qed.

Lemma freq_bound l (a : list Z) : (forall v, In v a -> INR (occurrences l v) / INR (length l) <= 201 / 1000) ->
  Rsum (frequencies l a) <= INR (length a) * (201 / 1000).
Proof.
  induction a as [|v a IH]; intro H; [cbn; lra|]. unfold frequencies in *. cbn [map Rsum fold_right]. fold (Rsum (map (fun v => INR (occurrences l v) / INR (length l)) a)).
  change (length (v :: a)) with (S (length a)). rewrite S_INR. specialize (IH (fun w Hw => H w (or_intror Hw))). specialize (H v (or_introl eq_refl)). lra.
Qed.

Lemma probability_iff l : Forall (fun v => (0 <= v < 5)%Z) l -> (t_probability Rops l = true <->
  l <> [] /\ forall v, (0 <= v < 5)%Z -> (199 * Z.of_nat (length l) <= 1000 * Z.of_nat (occurrences l v) <= 201 * Z.of_nat (length l))%Z).
Proof.
  intro R. rewrite probability_occurring. rewrite Forall_forall in R. split; intros [N H]; (split; [exact N|]); intros v Hv; [|apply H, R, Hv].
  apply H. destruct (frequencies_distribution l (unique l) N (unique_nodup l)) as [_ S]; [intros w Hw; apply in_unique; exact Hw|].
  assert (Hl : (0 < length l)%nat) by (destruct l; [contradiction|cbn; lia]).
  assert (L : (5 <= length (unique l))%nat).
  { assert (B : Rsum (frequencies l (unique l)) <= INR (length (unique l)) * (201 / 1000)).
    { apply freq_bound. intros w Hw. pose proof (proj2 (ratio_iff (occurrences l w) (length l) Hl) (H w (proj1 (in_unique l w) Hw))). lra. }
    rewrite S in B. apply INR_le. destruct (le_lt_dec 5 (length (unique l))) as [G|G]; [apply le_INR; exact G|]. exfalso.
    assert (INR (length (unique l)) <= 4) by (replace 4 with (INR 4) by (cbn; lra); apply le_INR; lia). lra. }
  assert (I : incl (unique l) [0; 1; 2; 3; 4]%Z).
  { intros w Hw. apply in_unique, R in Hw. assert (w = 0 \/ w = 1 \/ w = 2 \/ w = 3 \/ w = 4)%Z by lia. cbn. intuition auto. }
  apply in_unique. apply (NoDup_length_incl (unique_nodup l) (l' := [0; 1; 2; 3; 4]%Z)); [exact L|exact I|].
  assert (v = 0 \/ v = 1 \/ v = 2 \/ v = 3 \/ v = 4)%Z by lia. cbn. intuition auto.
Qed.
Lemma probability_fails n : t_probability Rops (repeat 0%Z n) = false.
Proof.
  apply not_true_is_false. intro H. apply probability_occurring in H. destruct H as [N H]. destruct n as [|n]; [apply N; reflexivity|].
  specialize (H 0%Z (or_introl eq_refl)). assert (E : occurrences (repeat 0%Z (S n)) 0 = S n).
  { unfold occurrences. generalize (S n). clear. induction n as [|n IH]; [reflexivity|]. cbn [repeat count_occ]. destruct (Z.eq_dec 0 0); [f_equal; exact IH|congruence]. }
  rewrite E, repeat_length in H. lia.
Qed.

Lemma dims FO rows l : length rows = 10%nat -> t_multi_dimension FO rows = true /\ t_one_dimension FO l = true.
Proof.
  intro H. unfold t_multi_dimension, t_one_dimension, prob. rewrite prob_mat, prob_vec. cbn [bind check fst]. rewrite map_length, H. auto.
Qed.

Lemma ln_inv_R x : 0 < x -> ln (1 / x) = - ln x.
Proof. intro H. unfold Rdiv. rewrite Rmult_1_l. apply ln_Rinv. exact H. Qed.
Lemma ln2_pos : 0 < ln 2.
Proof. rewrite <- ln_1. apply ln_increasing; lra. Qed.
Lemma map_rep {A B} (f : A -> B) x n : map f (repeat x n) = repeat (f x) n.
Proof. induction n as [|n IH]; [reflexivity|]. cbn [repeat map]. rewrite IH. reflexivity. Qed.
Lemma uniform_entropy (k z : nat) : (0 < k)%nat -> let p := repeat (1 / INR k) k ++ repeat 0 z in
  row_entropy Rops 2 p = ln (INR k) / ln 2.
Proof.
  intros Hk p. assert (P : 0 < INR k) by (apply lt_0_INR; lia).
  assert (Q : 0 < 1 / INR k) by (apply Rdiv_lt_0_compat; lra).
  rewrite row_entropy_R, distribution_normalised.
  - unfold shannon, p. rewrite map_app, !map_rep, Rsum_app, !Rsum_repeat. destruct (Rlt_dec 0 (1 / INR k)); [|contradiction]. destruct (Rlt_dec 0 0); [lra|].
    unfold log_in. rewrite ln_inv_R by exact P. pose proof ln2_pos. change (F Rops) with R. field. lra.
  - split.
    + unfold p. apply Forall_app. split; apply Forall_forall; intros x Hx; apply repeat_spec in Hx; lra.
    + unfold p. rewrite Rsum_app, !Rsum_repeat. field. lra.
Qed.
Lemma entropy_tests : t_entropy Rops = true /\ t_zero_mass Rops = true.
Proof.
  split.
  - unfold t_entropy. set (p := repeat _ 10). assert (E : row_entropy Rops 2 p = ln 10 / ln 2).
    { pose proof (uniform_entropy 10 0 ltac:(lia)) as U. cbv zeta in U. rewrite app_nil_r in U. replace (INR 10) with 10 in U by (cbn; lra). exact U. }
    unfold entropy. cbn [map check]. rewrite !approx_same by exact E. reflexivity.
  - unfold t_zero_mass. set (p := repeat _ 9 ++ _). assert (E : row_entropy Rops 2 p = ln 9 / ln 2).
    { pose proof (uniform_entropy 9 1 ltac:(lia)) as U. cbv zeta in U. replace (INR 9) with 9 in U by (cbn; lra). exact U. }
    unfold entropy. cbn [map check]. rewrite !approx_same by exact E. reflexivity.
Qed.
Lemma illegal : t_illegal Rops = true.
Proof.
  unfold t_illegal. rewrite !typical_set_R. cbn [fdiv fz Rops]. destruct (Rle_dec (1 / 100000) 0); [lra|]. destruct (Rle_dec 0 0); [|lra]. reflexivity.
Qed.
Lemma exp_small x : 0 <= x <= / 2 -> 1 <= exp x <= 1 + 2 * x.
Proof.
  intro H. pose proof (exp_ineq1_le x). pose proof (exp_ineq1_le (- x)). pose proof (exp_plus x (- x)) as E. rewrite Rplus_opp_r, exp_0 in E. pose proof (exp_pos x). split; [lra|]. nra.
Qed.
Lemma exp_small_neg x : 0 <= x <= / 2 -> 1 - x <= exp (- x) <= 1.
Proof.
  intro H. pose proof (exp_ineq1_le (- x)). split; [lra|]. pose proof (exp_ineq1_le x). pose proof (exp_plus x (- x)) as E. rewrite Rplus_opp_r, exp_0 in E. pose proof (exp_pos (- x)). nra.
Qed.
Lemma ln2_le : ln 2 <= 1.
Proof. pose proof (exp_ineq1_le (ln 2)) as H. rewrite exp_ln in H by lra. lra. Qed.
Lemma near_four : let e := 1 / 1000000000000000 in
  4 - 1 / 100000 <= (1 - e) * Rpower 2 (2 * (1 - e)) <= 4 + 1 / 100000 /\ 4 - 1 / 100000 <= Rpower 2 (2 * (1 + e)) <= 4 + 1 / 100000.
Proof.
  intro e. pose proof ln2_pos. pose proof ln2_le. set (x := 2 * e * ln 2). assert (Hx : 0 <= x <= 2 * e) by (unfold x, e; nra).
  assert (He : 0 < e <= / 1000000000) by (unfold e; lra).
  assert (F : forall y, Rpower 2 (2 + y) = 4 * exp (y * ln 2)).
  { intro y. rewrite Rpower_plus. replace (Rpower 2 2) with 4; [reflexivity|]. replace 2 with (INR 2) at 2 by (cbn; lra). rewrite Rpower_pow by lra. cbn. lra. }
  replace (2 * (1 - e)) with (2 + - (2 * e)) by ring. replace (2 * (1 + e)) with (2 + 2 * e) by ring. rewrite !F.
  replace (- (2 * e) * ln 2) with (- x) by (unfold x; ring). fold x.
  pose proof (exp_small x ltac:(lra)). pose proof (exp_small_neg x ltac:(lra)). split; [|lra]. nra.
Qed.
Lemma cardinality : t_cardinality Rops = true.
Proof.
  unfold t_cardinality. cbv zeta. rewrite !typical_set_R. cbn [fdiv fz Rops option_map]. destruct (Rle_dec (1 / 1000000000000000) 0); [lra|]. cbn [Z.leb Z.compare].
  assert (E : shannon 2 (normalised [1 / 2; 1 / 2]) = 1).
  { rewrite <- row_entropy_R. pose proof (uniform_entropy 2 0 ltac:(lia)) as U. cbv zeta in U. rewrite app_nil_r in U. replace (INR 2) with 2 in U by (cbn; lra).
    cbn [repeat] in U. rewrite U. field. pose proof ln2_pos. lra. }
  change (F Rops) with R in *. rewrite E. cbn [check fst snd]. destruct near_four as [A B].
  assert (G : forall y, 4 - 1 / 100000 <= y <= 4 + 1 / 100000 -> close Rops y 4 (1 / 100000) = true) by (intros y Hy; apply close_iff; lra).
  cbn [fdiv fz Rops] in *. rewrite !G by assumption. reflexivity.
Qed.
