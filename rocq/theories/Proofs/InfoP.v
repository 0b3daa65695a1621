(** Lemmas about unique and prob. *)
From Coq Require Import List ZArith Reals Bool Sorted Lia Lra Arith.
From Verif.Model Require Import Py Float InfoTheory.
From Verif.Spec Require Import RealOps Info.
From Verif.Proofs Require Import RealP.
Import ListNotations.
Local Close Scope R_scope.

Lemma in_insert x y l : In y (insert_unique x l) <-> y = x \/ In y l.
Proof.
  induction l as [|z t IH]; cbn; [intuition|].
  destruct (x <? z)%Z eqn:E; [cbn; intuition|]. destruct (x =? z)%Z eqn:E2.
  - apply Z.eqb_eq in E2. subst. cbn. intuition.
  - cbn. rewrite IH. intuition.
Qed.

Lemma insert_sorted x l : StronglySorted Z.lt l -> StronglySorted Z.lt (insert_unique x l).
Proof.
  induction l as [|z t IH]; cbn; intro H; [repeat constructor|].
  inversion H; subst.
  destruct (x <? z)%Z eqn:E.
  - apply Z.ltb_lt in E. constructor; [exact H|]. constructor; [exact E|].
    eapply Forall_impl; [|exact H3]. intros; lia.
  - destruct (x =? z)%Z eqn:E2; [exact H|].
    apply Z.ltb_ge in E. apply Z.eqb_neq in E2. constructor; [apply IH; auto|].
    apply Forall_forall. intros y Hy. apply in_insert in Hy. destruct Hy as [->|Hy]; [lia|].
    rewrite Forall_forall in H3. apply H3. exact Hy.
Qed.

Lemma unique_alphabet l : alphabet_of l (unique l).
Proof.
  unfold unique. split; induction l as [|x t IH]; cbn.
  - constructor.
  - apply insert_sorted. exact IH.
  - tauto.
  - intro v. rewrite in_insert, IH. intuition.
Qed.

Lemma sorted_ext a b : StronglySorted Z.lt a -> StronglySorted Z.lt b -> (forall v, In v a <-> In v b) -> a = b.
Proof.
  revert b. induction a as [|x t IH]; intros b Ha Hb E.
  - destruct b as [|y b]; [reflexivity|]. destruct (proj2 (E y)); cbn; auto.
  - destruct b as [|y b]; [destruct (proj1 (E x)); cbn; auto|].
    inversion Ha; inversion Hb; subst. rewrite Forall_forall in H2, H6.
    assert (x = y).
    { destruct (proj1 (E x) (or_introl eq_refl)) as [|Hx]; [auto|].
      destruct (proj2 (E y) (or_introl eq_refl)) as [|Hy]; [auto|].
      apply H6 in Hx. apply H2 in Hy. lia. }
    subst y. f_equal. apply IH; auto. intro v. specialize (E v). cbn in E.
    split; intro Hv.
    + destruct (proj1 E (or_intror Hv)); [|auto]. subst. apply H2 in Hv. lia.
    + destruct (proj2 E (or_intror Hv)); [|auto]. subst. apply H6 in Hv. lia.
Qed.

Lemma alphabet_fun l a : alphabet_of l a <-> a = unique l.
Proof.
  split; [|intros ->; apply unique_alphabet].
  intros [S E]. destruct (unique_alphabet l) as [S' E']. apply sorted_ext; auto. intro v. rewrite E, E'. tauto.
Qed.

Lemma sorted_nodup a : StronglySorted Z.lt a -> NoDup a.
Proof.
  induction 1; constructor; auto. intro Hi. rewrite Forall_forall in H0. apply H0 in Hi. lia.
Qed.
Lemma unique_nodup l : NoDup (unique l).
Proof. apply sorted_nodup, unique_alphabet. Qed.
Lemma in_unique l v : In v (unique l) <-> In v l.
Proof. apply unique_alphabet. Qed.

Lemma count_of_occ l v : count_of l v = occurrences l v.
Proof.
  unfold count_of, occurrences. induction l as [|x t IH]; cbn; [reflexivity|].
  destruct (Z.eqb_spec v x); destruct (Z.eq_dec x v); cbn; congruence.
Qed.

Lemma z_index_spec l v : In v l -> exists i, z_index l v = Ok i /\ nth_error l i = Some v.
Proof.
  induction l as [|x t IH]; [intros []|]. intro H. cbn.
  destruct (Z.eqb_spec v x) as [->|N]; [exists 0; auto|].
  destruct H as [->|H]; [congruence|]. destruct (IH H) as [i [E1 E2]]. rewrite E1. exists (S i). auto.
Qed.

Lemma nth_set_nth {A} (l : list A) i j v d : nth j (set_nth l i v) d = if (Nat.eqb i j && Nat.ltb j (length l))%bool then v else nth j l d.
Proof.
  revert i j. induction l as [|x t IH]; intros [|i] [|j]; cbn; try reflexivity.
  - rewrite Bool.andb_false_r. reflexivity.
  - rewrite IH. reflexivity.
Qed.
Lemma length_set_nth {A} (l : list A) i v : length (set_nth l i v) = length l.
Proof. revert i. induction l; intros [|i]; cbn; auto. Qed.

(** The loop over the distinct values writes the count of every alphabet member. *)
Lemma count_row_spec a row : NoDup a -> incl row a -> count_row a row = Ok (map (occurrences row) a).
Proof.
  intros Na Hi. unfold count_row, unique_counts.
  assert (G : forall us pr, NoDup us -> incl us a -> length pr = length a ->
     fold_res (fun pr (vc : Z * nat) => do! i <- z_index a (fst vc) in Ok (set_nth pr i (snd vc)))
        (map (fun v => (v, count_of row v)) us) pr =
     Ok (map (fun iv => if existsb (Z.eqb (snd iv)) us then occurrences row (snd iv) else nth (fst iv) pr 0) (combine (seq 0 (length a)) a))).
  { induction us as [|u us IH]; intros pr Nu Iu Lp; cbn.
    - f_equal. symmetry. apply nth_ext with (d := 0) (d' := 0); rewrite ?map_length, ?combine_length, ?seq_length; [lia|].
      intros n Hn.
      rewrite nth_indep with (d' := (fun iv : nat * Z => nth (fst iv) pr 0) (0, 0%Z)); [|rewrite map_length, combine_length, seq_length; lia].
      rewrite (map_nth (fun iv : nat * Z => nth (fst iv) pr 0)). rewrite combine_nth; [|rewrite seq_length; reflexivity]. cbn.
      rewrite seq_nth by lia. reflexivity.
    - inversion Nu; subst. destruct (z_index_spec a u) as [i [E1 E2]]; [apply Iu; left; auto|].
      rewrite E1. cbn. rewrite IH; auto; [|intros x Hx; apply Iu; right; auto|rewrite length_set_nth; auto].
      f_equal. apply map_ext_in. intros [j v] Hjv. cbn.
      assert (Hj : nth_error a j = Some v).
      { apply In_nth with (d := (0, 0%Z)) in Hjv. destruct Hjv as [m [Hm E]]. rewrite combine_length, seq_length in Hm.
        rewrite combine_nth in E by (rewrite seq_length; auto). rewrite seq_nth in E by lia. inversion E; subst.
        rewrite nth_error_nth' with (d := 0%Z) by lia. reflexivity. }
      rewrite nth_set_nth. rewrite Lp.
      assert (Hl : j < length a) by (apply nth_error_Some; congruence).
      rewrite (proj2 (Nat.ltb_lt _ _) Hl), Bool.andb_true_r.
      destruct (Z.eqb_spec v u) as [->|Nuv].
      + assert (i = j). { apply (proj1 (NoDup_nth_error a) Na); [apply nth_error_Some; congruence|congruence]. }
        subst. rewrite Nat.eqb_refl. rewrite count_of_occ.
        destruct (existsb (Z.eqb u) us); reflexivity.
      + destruct (Nat.eqb_spec i j) as [->|]; [congruence|].
        destruct (existsb (Z.eqb v) us); reflexivity. }
  rewrite G; [|apply unique_nodup|intros x Hx; apply Hi, in_unique; auto|apply repeat_length].
  f_equal. assert (Hc : map snd (combine (seq 0 (length a)) a) = a).
  { clear. generalize 0 as k. induction a as [|x t IH]; intro k; [reflexivity|]. cbn [seq length combine map snd]. rewrite IH. reflexivity. }
  transitivity (map (occurrences row) (map snd (combine (seq 0 (length a)) a))); [|rewrite Hc; reflexivity].
  rewrite map_map. apply map_ext_in. intros [j v] Hjv. cbn.
  destruct (existsb (Z.eqb v) (unique row)) eqn:E; [reflexivity|].
  rewrite nth_repeat. symmetry. apply count_occ_not_In. intro H. apply in_unique in H.
  assert (E' : existsb (Z.eqb v) (unique row) = true) by (apply existsb_exists; exists v; split; [exact H|apply Z.eqb_refl]). congruence.
Qed.

Lemma map_res_ok {A B} (f : A -> res B) (g : A -> B) l : (forall x, In x l -> f x = Ok (g x)) -> map_res f l = Ok (map g l).
Proof. induction l as [|x t IH]; intro H; [reflexivity|]. cbn. rewrite H by (left; auto). cbn. rewrite IH; [reflexivity|]. intros; apply H; right; auto. Qed.

Lemma prob_mat FO rows cols : prob_with_alphabet FO (DMat rows cols) =
  Ok (FMat (map (fun r => divide FO cols (map (occurrences r) (unique (concat rows)))) rows), unique (concat rows)).
Proof.
  unfold prob_with_alphabet.
  rewrite map_res_ok with (g := fun r => map (occurrences r) (unique (concat rows))).
  - cbn. rewrite map_map. reflexivity.
  - intros r Hr. apply count_row_spec; [apply unique_nodup|]. intros x Hx. apply in_unique. apply in_concat. eauto.
Qed.
Lemma prob_vec FO l : prob_with_alphabet FO (DVec l) = Ok (FVec (divide FO (length l) (map (occurrences l) (unique l))), unique l).
Proof.
  unfold prob_with_alphabet, unique_counts. rewrite !map_map. cbn. rewrite map_id. do 4 f_equal.
  apply map_ext. intro. apply count_of_occ.
Qed.

Lemma divide_freq l a : divide Rops (length l) (map (occurrences l) a) = frequencies l a.
Proof. unfold divide, frequencies. rewrite map_map. apply map_ext. intro v. cbn. rewrite <- !INR_IZR_INZ. reflexivity. Qed.

(** ** Frequencies are a distribution. *)
Lemma occ_sum l a : NoDup a -> incl l a -> list_sum (map (occurrences l) a) = length l.
Proof.
  unfold occurrences. intros Na. induction l as [|x t IH]; intro Hi.
  - cbn. clear. induction a; cbn; auto.
  - assert (Hx : In x a) by (apply Hi; left; auto).
    assert (G : forall b, NoDup b -> list_sum (map (count_occ Z.eq_dec (x :: t)) b) =
        (if in_dec Z.eq_dec x b then 1 else 0) + list_sum (map (count_occ Z.eq_dec t) b)).
    { induction b as [|y b IHb]; intro Nb; [reflexivity|]. inversion Nb; subst. cbn [map list_sum fold_right].
      fold (list_sum (map (count_occ Z.eq_dec (x :: t)) b)). fold (list_sum (map (count_occ Z.eq_dec t) b)).
      change (fold_right Nat.add 0 (map (count_occ Z.eq_dec (x :: t)) b)) with (list_sum (map (count_occ Z.eq_dec (x :: t)) b)).
      rewrite IHb by auto. cbn [count_occ].
      change (fold_right Nat.add 0 (map (count_occ Z.eq_dec t) b)) with (list_sum (map (count_occ Z.eq_dec t) b)).
      destruct (Z.eq_dec x y) as [->|N].
      - destruct (in_dec Z.eq_dec y b); [contradiction|]. destruct (in_dec Z.eq_dec y (y :: b)) as [|n']; [lia|]. exfalso. apply n'. left; auto.
      - destruct (in_dec Z.eq_dec x b) as [i|n]; destruct (in_dec Z.eq_dec x (y :: b)) as [i'|n']; try lia.
        + exfalso. apply n'. right; auto.
        + exfalso. destruct i'; [congruence|contradiction]. }
    etransitivity; [exact (G a Na)|]. destruct (in_dec Z.eq_dec x a); [|contradiction].
    apply (f_equal S). apply IH. intros y Hy. apply Hi. right; auto.
Qed.

Lemma Rsum_INR l : Rsum (map INR l) = INR (list_sum l).
Proof. induction l as [|x t IH]; [reflexivity|]. cbn [map Rsum fold_right list_sum]. change (fold_right Rplus 0%R (map INR t)) with (Rsum (map INR t)). rewrite IH, <- plus_INR. reflexivity. Qed.
Lemma Rsum_div l d : Rsum (map (fun x => x / d)%R l) = (Rsum l / d)%R.
Proof. induction l as [|x t IH]; cbn; [unfold Rdiv; ring|]. unfold Rsum in IH at 1. rewrite IH. unfold Rdiv. ring_simplify. reflexivity. Qed.

Lemma frequencies_distribution l a : l <> [] -> NoDup a -> incl l a -> distribution (frequencies l a).
Proof.
  intros Hl Na Hi. assert (P : (0 < INR (length l))%R) by (apply lt_0_INR; destruct l; [congruence|cbn; lia]).
  split.
  - unfold frequencies. apply Forall_map, Forall_forall. intros v _. apply Rmult_le_pos; [apply pos_INR|].
    apply Rlt_le, Rinv_0_lt_compat. exact P.
  - unfold frequencies. rewrite <- (map_map (fun v => INR (occurrences l v)) (fun x => x / INR (length l))%R).
    rewrite Rsum_div, <- map_map, Rsum_INR, occ_sum by auto. field. lra.
Qed.
