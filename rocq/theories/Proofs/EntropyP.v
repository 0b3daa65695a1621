(** Lemmas about entropy and typical sets. *)
From Coq Require Import List ZArith Reals Bool Lia Lra Arith Permutation.
From Verif.Model Require Import Py Float InfoTheory.
From Verif.Spec Require Import RealOps Info.
From Verif.Proofs Require Import RealP InfoP.
Import ListNotations.
Local Open Scope R_scope.

Lemma row_entropy_R b p : row_entropy Rops b p = shannon b (normalised p).
Proof.
  unfold row_entropy, shannon, normalised. rewrite fsum_R.
  replace (fsum Rops p) with (Rsum p) by (symmetry; apply fsum_R).
  cbn [fdiv Rops flog fz].
  etransitivity; [symmetry; apply Rsum_div|]. rewrite !map_map. f_equal. apply map_ext. intro x.
  unfold entr, log_in. cbn. unfold Rltb. destruct (Rlt_dec 0 (x / Rsum p)); unfold Rdiv; ring.
Qed.

Lemma normalised_distribution p : Forall (fun x => 0 <= x) p -> 0 < Rsum p -> distribution (normalised p).
Proof.
  intros H P. split; unfold normalised.
  - apply Forall_map. eapply Forall_impl; [|exact H]. cbn. intros x Hx. apply Rmult_le_pos; [auto|]. apply Rlt_le, Rinv_0_lt_compat. auto.
  - rewrite Rsum_div. field. lra.
Qed.

Lemma distribution_normalised p : distribution p -> normalised p = p.
Proof.
  intros [_ E]. unfold normalised. rewrite E. rewrite <- (map_id p) at 2. apply map_ext. intro. field.
Qed.

(** ** Pointwise bounds *)
Definition surprise (x : R) : R := if Rlt_dec 0 x then - x * ln x else 0.

Lemma shannon_surprise b p : shannon b p = Rsum (map surprise p) / ln (IZR b).
Proof.
  unfold shannon. rewrite <- Rsum_div, map_map. f_equal. apply map_ext. intro x. unfold surprise, log_in, Rdiv.
  destruct (Rlt_dec 0 x); ring.
Qed.

Lemma ln_le_pred y : 0 < y -> ln y <= y - 1.
Proof.
  intro H. destruct (Req_dec y 1) as [->|N]; [rewrite ln_1; lra|].
  pose proof (exp_ineq1 (ln y)) as E. rewrite exp_ln in E by auto.
  assert (ln y <> 0). { intro Z. apply N. rewrite <- (exp_ln y H), Z, exp_0. reflexivity. }
  specialize (E H0). lra.
Qed.
Lemma ln_eq_pred y : 0 < y -> ln y = y - 1 -> y = 1.
Proof.
  intros H E1. destruct (Req_dec y 1) as [->|N]; [auto|].
  pose proof (exp_ineq1 (ln y)) as E. rewrite exp_ln in E by auto.
  assert (ln y <> 0). { intro Z. apply N. rewrite <- (exp_ln y H), Z, exp_0. reflexivity. }
  specialize (E H0). lra.
Qed.

Lemma ln_base_pos b : (2 <= b)%Z -> 0 < ln (IZR b).
Proof. intro H. rewrite <- ln_1. apply ln_increasing; [lra|]. apply IZR_lt. lia. Qed.

Lemma surprise_nonneg x : 0 <= x <= 1 -> 0 <= surprise x.
Proof.
  intros [H0 H1]. unfold surprise. destruct (Rlt_dec 0 x); [|lra].
  pose proof (ln_le_pred x r). assert (ln x <= 0) by lra. nra.
Qed.
Lemma surprise_zero x : 0 <= x <= 1 -> (surprise x = 0 <-> x = 0 \/ x = 1).
Proof.
  intros [H0 H1]. unfold surprise. destruct (Rlt_dec 0 x); [|split; [left; lra|auto]].
  split.
  - intro E. right. assert (ln x = 0) by nra. rewrite <- (exp_ln x r), H, exp_0. reflexivity.
  - intros [->| ->]; [lra|]. rewrite ln_1. ring.
Qed.

(** [surprise x <= x ln n + 1/n - x], with equality only at 1/n. *)
Lemma gibbs n x : 0 < n -> 0 <= x -> surprise x <= x * ln n + (/ n - x) /\ (surprise x = x * ln n + (/ n - x) -> x = / n).
Proof.
  intros Hn Hx. assert (Hi : 0 < / n) by (apply Rinv_0_lt_compat; auto).
  unfold surprise. destruct (Rlt_dec 0 x) as [P|P]; [|assert (x = 0) by lra; subst; split; intros; lra].
  assert (Q : 0 < / (n * x)) by (apply Rinv_0_lt_compat, Rmult_lt_0_compat; auto).
  assert (L : ln (/ (n * x)) = - ln n - ln x). { rewrite ln_Rinv by (apply Rmult_lt_0_compat; auto). rewrite ln_mult by auto. ring. }
  assert (M : x * (/ (n * x) - 1) = / n - x) by (field; lra).
  pose proof (ln_le_pred _ Q) as B. rewrite L in B. split.
  - apply (Rmult_le_compat_l x) in B; [|lra]. rewrite M in B. lra.
  - intro E. assert (E2 : ln (/ (n * x)) = / (n * x) - 1).
    { rewrite L. apply (Rmult_eq_reg_l x); [|lra]. rewrite M. lra. }
    apply ln_eq_pred in E2; [|auto]. apply (Rmult_eq_reg_l n); [|lra]. rewrite Rinv_r by lra.
    apply (Rmult_eq_reg_l (/ (n * x))); [|lra]. rewrite E2 at 2. rewrite Rmult_1_r. rewrite Rinv_l; [auto|]. apply Rmult_integral_contrapositive. lra.
Qed.

Lemma distribution_bounds p : distribution p -> Forall (fun x => 0 <= x <= 1) p.
Proof.
  intros [H S]. apply Forall_forall. intros x Hx.
  assert (x <= Rsum p). { clear S. induction p as [|y t IH]; [destruct Hx|]. inversion H; subst. cbn.
    pose proof (Rsum_nonneg t H3) as N. unfold Rsum in N. destruct Hx as [->|Hx]; [lra|]. specialize (IH H3 Hx). unfold Rsum in IH. lra. }
  rewrite Forall_forall in H. specialize (H x Hx). lra.
Qed.

Lemma Rsum_map_le {A} (f g : A -> R) l : (forall x, In x l -> f x <= g x) -> Rsum (map f l) <= Rsum (map g l).
Proof.
  induction l as [|x t IH]; intro H; cbn; [lra|].
  assert (f x <= g x) by (apply H; left; auto). assert (Rsum (map f t) <= Rsum (map g t)) by (apply IH; intros; apply H; right; auto).
  unfold Rsum in *. lra.
Qed.
Lemma Rsum_map_eq {A} (f g : A -> R) l : (forall x, In x l -> f x <= g x) -> Rsum (map f l) = Rsum (map g l) ->
  forall x, In x l -> f x = g x.
Proof.
  induction l as [|y t IH]; intros H E x Hx; [destruct Hx|]. cbn in E.
  assert (f y <= g y) by (apply H; left; auto).
  assert (Rsum (map f t) <= Rsum (map g t)) by (apply Rsum_map_le; intros; apply H; right; auto).
  unfold Rsum in *. destruct Hx as [->|Hx]; [lra|]. apply IH; auto; [intros; apply H; right; auto|lra].
Qed.
Lemma Rsum_affine a c p : Rsum (map (fun x => x * a + (c - x)) p) = Rsum p * a + (INR (length p) * c - Rsum p).
Proof.
  induction p as [|x t IH]; [cbn; ring|]. cbn [map Rsum fold_right length]. rewrite S_INR. unfold Rsum in *. rewrite IH. ring.
Qed.

Lemma distribution_length p : distribution p -> 0 < INR (length p).
Proof. intros [_ E]. apply lt_0_INR. destruct p; [cbn in E; lra|cbn; lia]. Qed.

Lemma entropy_bounds b p : (2 <= b)%Z -> distribution p -> 0 <= shannon b p <= log_in b (INR (length p)).
Proof.
  intros Hb D. pose proof (ln_base_pos b Hb) as L. pose proof (distribution_bounds p D) as B. rewrite Forall_forall in B.
  pose proof (distribution_length p D) as Hn. rewrite shannon_surprise. unfold log_in, Rdiv.
  assert (I : 0 < / ln (IZR b)) by (apply Rinv_0_lt_compat; auto).
  split.
  - apply Rmult_le_pos; [|lra]. apply Rsum_nonneg, Forall_map, Forall_forall. intros x Hx. apply surprise_nonneg, B, Hx.
  - apply Rmult_le_compat_r; [lra|].
    eapply Rle_trans; [apply (Rsum_map_le surprise (fun x => x * ln (INR (length p)) + (/ INR (length p) - x)))|].
    + intros x Hx. apply gibbs; auto. apply B, Hx.
    + rewrite Rsum_affine. destruct D as [_ E]. rewrite E, Rinv_r by lra. lra.
Qed.

Lemma entropy_zero b p : (2 <= b)%Z -> distribution p -> (shannon b p = 0 <-> In 1 p).
Proof.
  intros Hb D. pose proof (ln_base_pos b Hb) as L. pose proof (distribution_bounds p D) as B.
  rewrite shannon_surprise. unfold Rdiv.
  assert (I : 0 < / ln (IZR b)) by (apply Rinv_0_lt_compat; auto). split.
  - intro E. apply Rmult_integral in E. destruct E as [E|E]; [|lra].
    assert (Z : Forall (fun x => x = 0) (map surprise p)).
    { apply Rsum_zero; [|exact E]. apply Forall_map. eapply Forall_impl; [|exact B]. intros; apply surprise_nonneg; auto. }
    apply Forall_map in Z. destruct (In_dec Req_EM_T 1 p) as [|N]; [auto|exfalso].
    assert (Forall (fun x => x = 0) p).
    { apply Forall_forall. intros x Hx. rewrite Forall_forall in Z, B. specialize (Z x Hx). cbn in Z.
      apply surprise_zero in Z; [|apply B; auto]. destruct Z; [auto|]. subst. contradiction. }
    destruct D as [_ S]. assert (Rsum p = 0); [|lra]. clear - H. induction H; cbn; [auto|]. unfold Rsum in IHForall. rewrite IHForall. lra.
  - intro H1. apply in_split in H1. destruct H1 as [a [c ->]]. destruct D as [P S].
    apply Forall_app in P. destruct P as [Pa Pc]. inversion Pc; subst.
    rewrite Rsum_app in S. cbn in S. fold (Rsum c) in S.
    pose proof (Rsum_nonneg a Pa). pose proof (Rsum_nonneg c H2).
    assert (Za : Forall (fun x => x = 0) a) by (apply Rsum_zero; auto; lra).
    assert (Zc : Forall (fun x => x = 0) c) by (apply Rsum_zero; auto; lra).
    assert (G : forall l, Forall (fun x => x = 0) l -> Rsum (map surprise l) = 0).
    { induction 1; cbn; [auto|]. unfold Rsum in IHForall. rewrite IHForall. subst. unfold surprise. destruct (Rlt_dec 0 0); lra. }
    rewrite map_app, Rsum_app. cbn [map]. change (Rsum (surprise 1 :: map surprise c)) with (surprise 1 + Rsum (map surprise c)).
    rewrite !G by auto. rewrite (proj2 (surprise_zero 1 ltac:(lra))) by auto. ring.
Qed.

Lemma entropy_max b p : (2 <= b)%Z -> distribution p ->
  (shannon b p = log_in b (INR (length p)) <-> Forall (fun x => x = / INR (length p)) p).
Proof.
  intros Hb D. pose proof (ln_base_pos b Hb) as L. pose proof (distribution_bounds p D) as B. rewrite Forall_forall in B.
  pose proof (distribution_length p D) as Hn.
  assert (I : 0 < / ln (IZR b)) by (apply Rinv_0_lt_compat; auto).
  set (n := INR (length p)) in *.
  assert (T : Rsum (map (fun x => x * ln n + (/ n - x)) p) = ln n).
  { rewrite Rsum_affine. fold n. destruct D as [_ E]. rewrite E, Rinv_r by lra. ring. }
  rewrite shannon_surprise. unfold log_in, Rdiv. split.
  - intro E. apply Rmult_eq_reg_r in E; [|lra].
    apply Forall_forall. intros x Hx. apply (gibbs n x Hn); [apply B, Hx|].
    revert x Hx. apply (Rsum_map_eq surprise (fun x => x * ln n + (/ n - x))); [|lra].
    intros x Hx. apply gibbs; auto. apply B, Hx.
  - intro E. f_equal. rewrite <- T. f_equal. apply map_ext_in. intros x Hx. rewrite Forall_forall in E. rewrite (E x Hx).
    assert (P : 0 < / n) by (apply Rinv_0_lt_compat; auto). unfold surprise. destruct (Rlt_dec 0 (/ n)); [|lra].
    rewrite ln_Rinv by auto. ring.
Qed.

(** ** Typical sets *)
Lemma Rsum_flat {A} (f : A -> list R) l : Rsum (flat_map f l) = Rsum (map (fun x => Rsum (f x)) l).
Proof. induction l; cbn; [auto|]. fold (Rsum (flat_map f l)). rewrite Rsum_app, IHl. reflexivity. Qed.
Lemma Rsum_scale c l : Rsum (map (fun x => x * c) l) = Rsum l * c.
Proof. induction l as [|x t IH]; cbn; [ring|]. unfold Rsum in IH. rewrite IH. ring. Qed.
Lemma map_nth_seq p : map (fun a => nth a p 0) (seq 0 (length p)) = p.
Proof.
  induction p as [|x t IH]; [reflexivity|]. cbn [length seq map nth]. f_equal. rewrite <- seq_shift, map_map. exact IH.
Qed.

Lemma words_total p n : Rsum (map (word_prob p) (words (length p) n)) = Rsum p ^ n.
Proof.
  induction n as [|n IH]; [cbn; ring|]. cbn [words]. rewrite flat_map_concat_map, concat_map, map_map, <- flat_map_concat_map, Rsum_flat.
  transitivity (Rsum (map (fun x => word_prob p x * Rsum p) (words (length p) n))).
  - f_equal. apply map_ext. intro w. rewrite map_map.
    transitivity (Rsum (map (fun x => x * word_prob p w) (map (fun a => nth a p 0) (seq 0 (length p))))).
    + rewrite map_map. f_equal.
    + rewrite Rsum_scale, map_nth_seq. ring.
  - rewrite <- (map_map (word_prob p) (fun x => x * Rsum p)), Rsum_scale, IH. cbn. ring.
Qed.

Lemma word_prob_nonneg p w : Forall (fun x => 0 <= x) p -> 0 <= word_prob p w.
Proof.
  intro H. unfold word_prob. induction w as [|a w IH]; cbn; [lra|]. apply Rmult_le_pos; [|exact IH].
  destruct (le_lt_dec (length p) a) as [G|G]; [rewrite nth_overflow by auto; lra|]. rewrite Forall_forall in H. apply H, nth_In. exact G.
Qed.

Lemma Rsum_incl {A} (f : A -> R) (a w : list A) : (forall x, 0 <= f x) -> NoDup a -> incl a w -> Rsum (map f a) <= Rsum (map f w).
Proof.
  intro P. revert w. induction a as [|x t IH]; intros w N I.
  - cbn. apply Rsum_nonneg, Forall_map, Forall_forall. intros; apply P.
  - inversion N; subst. destruct (in_split x w) as [u [v ->]]; [apply I; left; auto|].
    assert (Rsum (map f t) <= Rsum (map f (u ++ v))).
    { apply IH; auto. intros y Hy. assert (In y (u ++ x :: v)) by (apply I; right; auto).
      apply in_app_or in H. apply in_or_app. destruct H as [|[->|]]; auto. contradiction. }
    rewrite map_app, Rsum_app in H |- *. cbn. unfold Rsum in *. lra.
Qed.

Lemma Rpower2_log x : 0 < x -> Rpower 2 (log_in 2 x) = x.
Proof.
  intro H. unfold Rpower, log_in. pose proof (ln_base_pos 2 ltac:(lia)).
  replace (ln x / ln 2 * ln 2) with (ln x) by (field; lra). apply exp_ln. auto.
Qed.
Lemma Rpower2_le x y : x <= y -> Rpower 2 x <= Rpower 2 y.
Proof. intro H. apply Rle_Rpower; lra. Qed.

Lemma typical_prob p h eps n w : (0 < n)%nat -> typical p h eps n w ->
  Rpower 2 (- (INR n * (h + eps))) <= word_prob p w <= Rpower 2 (- (INR n * (h - eps))).
Proof.
  intros Hn [P T]. rewrite <- (Rpower2_log _ P). set (l := log_in 2 (word_prob p w)) in *.
  assert (N : 0 < INR n) by (apply lt_0_INR; auto).
  assert (T' : - eps <= - l / INR n - h <= eps).
  { revert T. unfold Rabs. destruct (Rcase_abs (- l / INR n - h)); lra. }
  assert (E : - l = INR n * (- l / INR n)) by (field; lra).
  split; apply Rpower2_le; nra.
Qed.

Lemma Rsum_const_bounds {A} (f : A -> R) l lo hi : (forall x, In x l -> lo <= f x <= hi) ->
  INR (length l) * lo <= Rsum (map f l) <= INR (length l) * hi.
Proof.
  induction l as [|x t IH]; intro H; [cbn; lra|]. cbn [length map Rsum fold_right]. rewrite S_INR.
  assert (lo <= f x <= hi) by (apply H; left; auto). assert (INR (length t) * lo <= Rsum (map f t) <= INR (length t) * hi) by (apply IH; intros; apply H; right; auto).
  unfold Rsum in *. lra.
Qed.

Lemma typical_upper p h eps n A : distribution p -> (0 < n)%nat -> NoDup A -> incl A (words (length p) n) -> Forall (typical p h eps n) A ->
  INR (length A) <= Rpower 2 (INR n * (h + eps)).
Proof.
  intros [P S] Hn N I T.
  assert (Q : Rsum (map (word_prob p) A) <= 1).
  { eapply Rle_trans; [apply (Rsum_incl (word_prob p) A (words (length p) n)); auto; intro; apply word_prob_nonneg; auto|].
    rewrite words_total, S, pow1. lra. }
  rewrite Forall_forall in T.
  destruct (Rsum_const_bounds (word_prob p) A (Rpower 2 (- (INR n * (h + eps)))) (Rpower 2 (- (INR n * (h - eps))))) as [L _].
  { intros w Hw. apply typical_prob; auto. }
  rewrite Rpower_Ropp in L. assert (0 < Rpower 2 (INR n * (h + eps))) by apply exp_pos.
  apply (Rmult_le_reg_r (/ Rpower 2 (INR n * (h + eps)))); [apply Rinv_0_lt_compat; auto|]. rewrite Rinv_r by lra. lra.
Qed.

Lemma typical_lower p h eps n A : (0 < n)%nat -> Forall (typical p h eps n) A -> 1 - eps <= Rsum (map (word_prob p) A) ->
  (1 - eps) * Rpower 2 (INR n * (h - eps)) <= INR (length A).
Proof.
  intros Hn T Q. rewrite Forall_forall in T.
  destruct (Rsum_const_bounds (word_prob p) A (Rpower 2 (- (INR n * (h + eps)))) (Rpower 2 (- (INR n * (h - eps))))) as [_ L].
  { intros w Hw. apply typical_prob; auto. }
  rewrite Rpower_Ropp in L. set (X := Rpower 2 (INR n * (h - eps))) in *. assert (0 < X) by apply exp_pos.
  replace (INR (length A)) with (INR (length A) * / X * X) by (field; lra). apply Rmult_le_compat_r; lra.
Qed.

(** ** typical_set_cardinality *)
Lemma typical_set_R n pk ent eps : typical_set_cardinality Rops n pk ent eps =
  if Rle_dec eps 0 then Err ValueError
  else if (n <=? 0)%Z then Err ValueError
  else match (match ent with Some e => Some e | None => option_map (fun p => shannon 2 (normalised p)) pk end) with
       | None => Err ValueError
       | Some h => Ok ((1 - eps) * Rpower 2 (IZR n * (h - eps)), Rpower 2 (IZR n * (h + eps)))
       end.
Proof.
  unfold typical_set_cardinality. cbn [fle Rops fz]. unfold Rleb.
  destruct (Rle_dec eps 0); [rewrite Bool.orb_true_r; reflexivity|]. rewrite Bool.orb_false_r.
  destruct (n <=? 0)%Z; [reflexivity|]. destruct ent as [e|]; [reflexivity|]. destruct pk as [p|]; [|reflexivity].
  cbn [option_map bind]. rewrite row_entropy_R. reflexivity.
Qed.

Lemma log2_3 : 1 < log_in 2 3.
Proof.
  pose proof (ln_base_pos 2 ltac:(lia)). unfold log_in. apply (Rmult_lt_reg_r (ln 2)); [auto|].
  replace (ln 3 / ln 2 * ln 2) with (ln 3) by (field; lra). rewrite Rmult_1_l. apply ln_increasing; lra.
Qed.
Lemma log2_frac a : 0 < a -> log_in 2 (a / 4) = log_in 2 a - 2.
Proof.
  intro H. pose proof (ln_base_pos 2 ltac:(lia)). unfold log_in, Rdiv at 2. rewrite ln_mult, ln_Rinv by lra.
  replace 4 with (2 * 2) by ring. rewrite ln_mult by lra. field. lra.
Qed.

Lemma quarter_not_typical w : In w (words 2 1) -> ~ typical [1 / 4; 3 / 4] (shannon 2 [1 / 4; 3 / 4]) (1 / 10) 1 w.
Proof.
  pose proof log2_3 as L3. assert (L1 : log_in 2 1 = 0) by (unfold log_in; rewrite ln_1; lra).
  assert (S : shannon 2 [1 / 4; 3 / 4] = 2 - 3 / 4 * log_in 2 3).
  { unfold shannon. cbn [map Rsum fold_right]. destruct (Rlt_dec 0 (1 / 4)); [|lra]. destruct (Rlt_dec 0 (3 / 4)); [|lra].
    rewrite !log2_frac by lra. rewrite L1. lra. }
  intros H [_ T]. rewrite S in T. cbn in H. destruct H as [<-|[<-|[]]]; unfold word_prob in T; cbn [map nth fold_right INR] in T.
  - rewrite Rmult_1_r, log2_frac, L1 in T by lra. unfold Rabs in T. destruct (Rcase_abs _) in T; lra.
  - rewrite Rmult_1_r, log2_frac in T by lra. unfold Rabs in T. destruct (Rcase_abs _) in T; lra.
Qed.
