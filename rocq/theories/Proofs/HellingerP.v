(** Lemmas about the Hellinger distance. *)
From Coq Require Import List ZArith Reals Bool Lia Lra Arith.
From Verif.Model Require Import Py Float InfoTheory.
From Verif.Spec Require Import RealOps Info.
From Verif.Proofs Require Import RealP InfoP EntropyP.
Import ListNotations.
Local Open Scope R_scope.

Lemma broadcast_same {A B C} (f : A -> B -> C) l l' : length l = length l' ->
  broadcast f l l' = Ok (map (fun xy => f (fst xy) (snd xy)) (combine l l')).
Proof.
  intro E. unfold broadcast. destruct l as [|x [|x2 l]]; destruct l' as [|y [|y2 l']]; try discriminate E; try reflexivity.
  rewrite E, Nat.eqb_refl. reflexivity.
Qed.
Lemma broadcast_error {A B C} (f : A -> B -> C) l l' : length l <> length l' -> length l <> 1%nat -> length l' <> 1%nat ->
  broadcast f l l' = Err ValueError.
Proof.
  intros E N1 N2. apply Nat.eqb_neq in E. unfold broadcast. destruct l as [|x [|x2 l]]; destruct l' as [|y [|y2 l']];
    cbn [length] in *; try congruence; try reflexivity; rewrite E; reflexivity.
Qed.

Definition coeff (p q : list R) : R := Rsum (map (fun xy => sqrt (fst xy * snd xy)) (combine p q)).

Lemma gap_coeff p q : length p = length q -> Forall (fun x => 0 <= x) p -> Forall (fun x => 0 <= x) q ->
  gap p q = Rsum p + Rsum q - 2 * coeff p q.
Proof.
  revert q. induction p as [|x p IH]; intros [|y q] E P Q; try discriminate E; [unfold gap, coeff; cbn; ring|].
  inversion P; inversion Q; subst. injection E as E. specialize (IH q E H2 H6).
  unfold gap, coeff in *. cbn [combine map fst snd Rsum fold_right]. unfold Rsum in *. rewrite IH.
  rewrite sqrt_mult by auto. rewrite <- (sqrt_sqrt x) at 3 by auto. rewrite <- (sqrt_sqrt y) at 3 by auto. ring.
Qed.

Lemma hellinger_row_R p q : length p = length q -> distribution p -> distribution q ->
  hellinger_row Rops p q = Ok (sqrt (gap p q / 2)).
Proof.
  intros E [P Sp] [Q Sq]. unfold hellinger_row. rewrite broadcast_same by auto. cbn [bind].
  rewrite fsum_R. cbn [fsqrt fsub fz fmul Rops]. f_equal. f_equal. rewrite gap_coeff by auto. rewrite Sp, Sq. unfold coeff.
  change (F Rops) with R. field.
Qed.

Lemma gap_nonneg p q : 0 <= gap p q.
Proof. apply Rsum_nonneg, Forall_map, Forall_forall. intros x _. apply Rle_0_sqr. Qed.
Lemma coeff_nonneg p q : 0 <= coeff p q.
Proof. apply Rsum_nonneg, Forall_map, Forall_forall. intros x _. apply sqrt_pos. Qed.

Lemma gap_sym p q : length p = length q -> gap p q = gap q p.
Proof.
  revert q. induction p as [|x p IH]; intros [|y q] E; try discriminate E; [reflexivity|]. injection E as E.
  unfold gap in *. cbn [combine map fst snd Rsum fold_right]. unfold Rsum in *. rewrite IH by auto. ring.
Qed.

Lemma gap_zero p q : length p = length q -> Forall (fun x => 0 <= x) p -> Forall (fun x => 0 <= x) q -> (gap p q = 0 <-> p = q).
Proof.
  intros E P Q. split.
  - revert q E Q. induction p as [|x p IH]; intros [|y q] E Q G; try discriminate E; [reflexivity|]. injection E as E.
    inversion P; inversion Q; subst. pose proof (gap_nonneg p q) as N.
    unfold gap in G. cbn [combine map fst snd Rsum fold_right] in G. fold (Rsum (map (fun xy => (sqrt (fst xy) - sqrt (snd xy)) * (sqrt (fst xy) - sqrt (snd xy))) (combine p q))) in G.
    fold (gap p q) in G. assert (sqrt x - sqrt y = 0) by nra. f_equal; [apply sqrt_inj; auto; lra|]. apply IH; auto. nra.
  - intros <-. unfold gap. clear. induction p as [|x p IH]; [reflexivity|]. cbn [combine map fst snd Rsum fold_right]. unfold Rsum in IH. rewrite IH. ring.
Qed.

Lemma coeff_zero p q : length p = length q -> Forall (fun x => 0 <= x) p -> Forall (fun x => 0 <= x) q ->
  (coeff p q = 0 <-> forall i, nth i p 0 = 0 \/ nth i q 0 = 0).
Proof.
  intros E P Q. split.
  - revert q E Q. induction p as [|x p IH]; intros [|y q] E Q G; try discriminate E; [intros [|i]; auto|]. injection E as E.
    inversion P; inversion Q; subst. pose proof (coeff_nonneg p q) as N. pose proof (sqrt_pos (x * y)) as Sp.
    unfold coeff in G. cbn [combine map fst snd Rsum fold_right] in G. fold (Rsum (map (fun xy => sqrt (fst xy * snd xy)) (combine p q))) in G.
    fold (coeff p q) in G. assert (sqrt (x * y) = 0) by lra. intros [|i]; cbn.
    + apply sqrt_eq_0 in H; [|nra]. apply Rmult_integral in H. exact H.
    + apply IH; auto. lra.
  - intro H. revert q E Q H. induction p as [|x p IH]; intros [|y q] E Q H; try discriminate E; [reflexivity|]. injection E as E.
    inversion P; inversion Q; subst. unfold coeff in *. cbn [combine map fst snd Rsum fold_right]. unfold Rsum in IH. rewrite (IH H3 q E H7).
    + pose proof (H 0%nat) as H0. cbn in H0. replace (x * y) with 0; [rewrite sqrt_0; ring|]. destruct H0; subst; ring.
    + intro i. exact (H (S i)).
Qed.

(** ** Triangle inequality *)
Definition sq (l : list R) : R := Rsum (map (fun x => x * x) l).
Lemma sq_nonneg l : 0 <= sq l.
Proof. apply Rsum_nonneg, Forall_map, Forall_forall. intros; apply Rle_0_sqr. Qed.

Lemma cauchy (l : list (R * R)) : let d := Rsum (map (fun xy => fst xy * snd xy) l) in
  d * d <= sq (map fst l) * sq (map snd l).
Proof.
  induction l as [|[a b] t IH]; [unfold sq; cbn; lra|]. cbn zeta in *. cbn [map fst snd]. unfold sq in *.
  cbn [map Rsum fold_right]. fold (Rsum (map (fun xy => fst xy * snd xy) t)).
  fold (Rsum (map (fun x => x * x) (map fst t))). fold (Rsum (map (fun x => x * x) (map snd t))).
  pose proof (sq_nonneg (map fst t)) as HA. pose proof (sq_nonneg (map snd t)) as HB. unfold sq in HA, HB.
  set (A := Rsum (map (fun x => x * x) (map fst t))) in *. set (B := Rsum (map (fun x => x * x) (map snd t))) in *.
  set (C := Rsum (map (fun xy => fst xy * snd xy) t)) in *.
  assert (K : 2 * C * (a * b) <= A * (b * b) + B * (a * a)).
  { assert (0 <= A * (b * b) + B * (a * a)) by (apply Rplus_le_le_0_compat; apply Rmult_le_pos; auto; apply Rle_0_sqr).
    assert (S : (2 * C * (a * b)) * (2 * C * (a * b)) <= (A * (b * b) + B * (a * a)) * (A * (b * b) + B * (a * a))).
    { assert (C * C * ((a * b) * (a * b)) <= A * B * ((a * b) * (a * b))) by (apply Rmult_le_compat_r; [apply Rle_0_sqr|auto]).
      assert (0 <= (A * (b * b) - B * (a * a)) * (A * (b * b) - B * (a * a))) by apply Rle_0_sqr. nra. }
    destruct (Rle_dec (2 * C * (a * b)) (A * (b * b) + B * (a * a))); [auto|]. nra. }
  nra.
Qed.

Lemma minkowski (l : list (R * R)) : sqrt (sq (map (fun xy => fst xy + snd xy) l)) <= sqrt (sq (map fst l)) + sqrt (sq (map snd l)).
Proof.
  pose proof (cauchy l) as C. cbn zeta in C. set (d := Rsum (map (fun xy => fst xy * snd xy) l)) in *.
  assert (E : sq (map (fun xy => fst xy + snd xy) l) = sq (map fst l) + sq (map snd l) + 2 * d).
  { subst d. clear. unfold sq. induction l as [|[a b] t IH]; [cbn; ring|]. cbn [map Rsum fold_right fst snd]. unfold Rsum in *. rewrite IH. ring. }
  pose proof (sq_nonneg (map fst l)). pose proof (sq_nonneg (map snd l)).
  set (A := sq (map fst l)) in *. set (B := sq (map snd l)) in *.
  pose proof (sqrt_pos A). pose proof (sqrt_pos B). pose proof (sqrt_sqrt A H). pose proof (sqrt_sqrt B H0).
  apply Rsqr_incr_0_var; [|lra]. rewrite Rsqr_sqrt by apply sq_nonneg. rewrite E. unfold Rsqr.
  assert (d <= sqrt A * sqrt B).
  { destruct (Rle_dec d (sqrt A * sqrt B)); [auto|]. assert (0 <= sqrt A * sqrt B) by nra.
    assert ((sqrt A * sqrt B) * (sqrt A * sqrt B) = A * B). { transitivity ((sqrt A * sqrt A) * (sqrt B * sqrt B)); [ring|]. rewrite H3, H4. reflexivity. } nra. }
  nra.
Qed.

Lemma gap_triangle p q r : length p = length q -> length q = length r -> sqrt (gap p r) <= sqrt (gap p q) + sqrt (gap q r).
Proof.
  intros E1 E2. set (l := map (fun xyz => (sqrt (fst (fst xyz)) - sqrt (snd (fst xyz)), sqrt (snd (fst xyz)) - sqrt (snd xyz))) (combine (combine p q) r)).
  assert (G1 : gap p q = sq (map fst l)).
  { unfold gap, sq, l. f_equal. rewrite !map_map. cbn. clear - E1 E2. revert q r E1 E2. induction p as [|x p IH]; intros [|y q] [|z r] E1 E2; try discriminate; [reflexivity|].
    cbn. f_equal. apply IH; auto. }
  assert (G2 : gap q r = sq (map snd l)).
  { unfold gap, sq, l. f_equal. rewrite !map_map. cbn. clear - E1 E2. revert q r E1 E2. induction p as [|x p IH]; intros [|y q] [|z r] E1 E2; try discriminate; [reflexivity|].
    cbn. f_equal. apply IH; auto. }
  assert (G3 : gap p r = sq (map (fun xy => fst xy + snd xy) l)).
  { unfold gap, sq, l. f_equal. rewrite !map_map. cbn. clear - E1 E2. revert q r E1 E2. induction p as [|x p IH]; intros [|y q] [|z r] E1 E2; try discriminate; [reflexivity|].
    cbn. f_equal; [ring|]. apply IH with (q := q); auto. }
  rewrite G1, G2, G3. apply minkowski.
Qed.

Lemma half_sqrt x : 0 <= x -> sqrt (x / 2) = sqrt x * sqrt (/ 2).
Proof. intro H. unfold Rdiv. apply sqrt_mult; lra. Qed.

Lemma hell_bounds p q : length p = length q -> distribution p -> distribution q -> 0 <= sqrt (gap p q / 2) <= 1.
Proof.
  intros E [P Sp] [Q Sq]. split; [apply sqrt_pos|]. rewrite <- sqrt_1. apply sqrt_le_1_alt. rewrite gap_coeff by auto.
  pose proof (coeff_nonneg p q). lra.
Qed.
Lemma hell_zero p q : length p = length q -> distribution p -> distribution q -> (sqrt (gap p q / 2) = 0 <-> p = q).
Proof.
  intros E [P Sp] [Q Sq]. rewrite <- (gap_zero p q) by auto. pose proof (gap_nonneg p q). split.
  - intro Z. apply sqrt_eq_0 in Z; lra.
  - intros ->. unfold Rdiv. rewrite Rmult_0_l. apply sqrt_0.
Qed.
Lemma hell_one p q : length p = length q -> distribution p -> distribution q ->
  (sqrt (gap p q / 2) = 1 <-> forall i, nth i p 0 = 0 \/ nth i q 0 = 0).
Proof.
  intros E [P Sp] [Q Sq]. rewrite <- (coeff_zero p q) by auto. pose proof (gap_nonneg p q). rewrite gap_coeff in * by auto. split.
  - intro Z. assert (sqrt ((Rsum p + Rsum q - 2 * coeff p q) / 2) * sqrt ((Rsum p + Rsum q - 2 * coeff p q) / 2) = 1) by (rewrite Z; ring).
    rewrite sqrt_sqrt in H0 by lra. lra.
  - intros ->. rewrite Sp, Sq. replace ((1 + 1 - 2 * 0) / 2) with 1 by field. apply sqrt_1.
Qed.
