(** Lemmas about performance_analysis and confusion. *)
From Coq Require Import List ZArith Reals Bool Lia Lra Arith.
From Verif.Model Require Import Py Float InfoTheory Perf.
From Verif.Spec Require Import RealOps Info.
From Verif.Proofs Require Import RealP InfoP.
Import ListNotations.
Local Close Scope R_scope.

(** ** ber *)
Lemma abs_sum g p : Forall is_bit g -> Forall is_bit p ->
  fold_right Z.add 0%Z (map (fun xy => abs_diff Signed (fst xy) (snd xy)) (combine g p)) = Z.of_nat (differences g p).
Proof.
  unfold differences. intro Hg. revert p. induction Hg as [|x g Hx Hg IH]; intros [|y p] Hp; try reflexivity.
  inversion Hp; subst. cbn [combine map fold_right filter fst snd abs_diff]. rewrite IH by auto.
  destruct Hx as [->| ->]; destruct H1 as [->| ->]; cbn [Z.eqb Pos.eqb negb length]; lia.
Qed.

Lemma wrap_sum g p : Forall is_bit g -> Forall is_bit p ->
  fold_right Z.add 0%Z (map (fun xy => abs_diff UInt8 (fst xy) (snd xy)) (combine g p)) =
  (255 * Z.of_nat (changes 0 1 g p) + Z.of_nat (changes 1 0 g p))%Z.
Proof.
  unfold changes. intro Hg. revert p. induction Hg as [|x g Hx Hg IH]; intros [|y p] Hp; try reflexivity.
  inversion Hp; subst. cbn [combine map fold_right filter fst snd abs_diff]. rewrite IH by auto.
  destruct Hx as [->| ->]; destruct H1 as [->| ->]; cbn [Z.eqb Pos.eqb andb length]; change ((0 - 1) mod 256)%Z with 255%Z; change ((1 - 0) mod 256)%Z with 1%Z; change ((0 - 0) mod 256)%Z with 0%Z; change ((1 - 1) mod 256)%Z with 0%Z; lia.
Qed.

Lemma ber_ok FO t g p : length g = length p -> ber FO t g p =
  Ok (fdiv FO (fz FO (fold_right Z.add 0%Z (map (fun xy => abs_diff t (fst xy) (snd xy)) (combine g p)))) (fz FO (Z.of_nat (length g)))).
Proof. intro E. unfold ber. rewrite E, Nat.eqb_refl. reflexivity. Qed.

(** ** confusion *)
Lemma filter_split {A} (f : A -> bool) l : length (filter f l) + length (filter (fun x => negb (f x)) l) = length l.
Proof. induction l as [|x t IH]; [reflexivity|]. cbn. destruct (f x); cbn; lia. Qed.

Lemma unique_distinct l : length (unique l) = distinct l.
Proof.
  unfold distinct. apply Nat.le_antisymm; apply NoDup_incl_length; try apply unique_nodup; try apply NoDup_nodup;
    intros x Hx; [apply nodup_In, in_unique, Hx|apply in_unique, (proj1 (nodup_In Z.eq_dec _ _)), Hx].
Qed.

Lemma inter_sym a b : length (intersect1d a b) = length (intersect1d b a).
Proof.
  unfold intersect1d.
  apply Nat.le_antisymm; apply NoDup_incl_length; try (apply NoDup_filter, unique_nodup);
    intros x Hx; apply filter_In in Hx; destruct Hx as [H1 H2]; apply (proj1 (in_unique _ _)) in H1; apply existsb_exists in H2;
    destruct H2 as [y [H2 E]]; apply Z.eqb_eq in E; subst y; apply filter_In; split; try (apply in_unique; exact H2);
    apply existsb_exists; exists x; split; auto; apply Z.eqb_refl.
Qed.

Lemma confusion_spec pp ap neg : exists tp fp fn,
  confusion pp ap neg = [Z.of_nat tp; Z.of_nat fp; neg - Z.of_nat fp; Z.of_nat fn; Z.of_nat (length ap); neg]%Z /\
  tp = distinct (filter (fun v => existsb (Z.eqb v) ap) pp) /\ tp + fp = distinct pp /\ tp + fn = distinct ap.
Proof.
  exists (length (intersect1d pp ap)), (length (setdiff1d pp ap)), (length (setdiff1d ap pp)). split; [reflexivity|]. split; [|split].
  - rewrite <- unique_distinct. unfold intersect1d. apply Nat.le_antisymm; apply NoDup_incl_length; try (apply NoDup_filter, unique_nodup); try apply unique_nodup.
    + intros x Hx. apply filter_In in Hx. destruct Hx as [H1 H2]. apply (proj1 (in_unique _ _)) in H1. apply in_unique, filter_In. auto.
    + intros x Hx. apply (proj1 (in_unique _ _)), filter_In in Hx. destruct Hx as [H1 H2]. apply filter_In. split; [apply in_unique|]; auto.
  - rewrite <- unique_distinct. apply filter_split.
  - rewrite inter_sym, <- unique_distinct. apply filter_split.
Qed.

(** ** stats *)
Section S.
Variable cm : list (list nat).
Hypothesis Sq : square cm.

Lemma row_sum_total i : i < length cm -> row_sum cm i = row_total cm i.
Proof.
  intro H. unfold row_sum, row_total, cell. f_equal. set (r := nth i cm []).
  assert (L : length r = length cm). { exact (proj1 (Forall_forall _ _) Sq r (nth_In _ _ H)). }
  rewrite <- L. clear. induction r as [|x r IH]; [reflexivity|]. cbn [length seq map nth]. f_equal. rewrite <- seq_shift, map_map. exact IH.
Qed.
Lemma map_seq_nth {A B} (f : A -> B) (l : list A) d : map (fun i => f (nth i l d)) (seq 0 (length l)) = map f l.
Proof. induction l as [|x t IH]; [reflexivity|]. cbn [length seq map nth]. f_equal. rewrite <- seq_shift, map_map. exact IH. Qed.
Lemma col_sum_total j : col_sum cm j = col_total cm j.
Proof. unfold col_sum, col_total, cell. rewrite <- (map_seq_nth (fun r => nth j r 0) cm []). reflexivity. Qed.
Lemma total_grand : list_sum (map list_sum cm) = grand_total cm.
Proof.
  unfold grand_total. f_equal. rewrite <- (map_seq_nth list_sum cm []). apply map_ext_in. intros i Hi. apply in_seq in Hi.
  apply (row_sum_total i). lia.
Qed.

Lemma nth_map_seq {B} (f : nat -> B) n i d : i < n -> nth i (map f (seq 0 n)) d = f i.
Proof.
  intro H. rewrite nth_indep with (d' := f 0) by (rewrite map_length, seq_length; auto). rewrite (map_nth f), seq_nth by auto. reflexivity.
Qed.

Lemma recall_eq : fst (fst (fst (stats Rops cm))) = map (recall_at cm) (seq 0 (length cm)).
Proof.
  cbn. unfold classes. apply map_ext_in. intros i Hi. apply in_seq in Hi. unfold div0, recall_at. rewrite row_sum_total by lia.
  destruct (Nat.eqb (row_total cm i) 0); [reflexivity|]. cbn. rewrite <- !INR_IZR_INZ. reflexivity.
Qed.

Lemma precision_eq : snd (fst (fst (stats Rops cm))) = map (fun j => Some (precision_at cm j)) (seq 0 (length cm)).
Proof.
  cbn. unfold classes. destruct (forallb _ _) eqn:A.
  - rewrite forallb_forall in A. apply map_ext_in. intros j Hj. specialize (A j Hj). unfold div0, precision_at. rewrite col_sum_total in *.
    destruct (Nat.eqb (col_total cm j) 0); [discriminate|]. cbn. rewrite <- !INR_IZR_INZ. reflexivity.
  - apply map_ext_in. intros j Hj. unfold div0, precision_at. rewrite col_sum_total in *.
    destruct (Nat.eqb (col_total cm j) 0); [reflexivity|]. cbn. rewrite <- !INR_IZR_INZ. reflexivity.
Qed.

Lemma accuracy_eq : snd (stats Rops cm) =
  if Nat.eqb (grand_total cm) 0 then None else Some (INR (diagonal_total cm) / INR (grand_total cm))%R.
Proof.
  cbn. unfold div0. rewrite total_grand. destruct (Nat.eqb (grand_total cm) 0); [reflexivity|]. cbn. rewrite <- !INR_IZR_INZ. reflexivity.
Qed.

Lemma cell_row i j : i < length cm -> j < length cm -> cell cm i j <= row_total cm i.
Proof.
  intros Hi Hj. unfold row_total. assert (In (cell cm i j) (map (fun j => cell cm i j) (seq 0 (length cm)))) by (apply in_map_iff; exists j; split; auto; apply in_seq; lia).
  revert H. generalize (map (fun j0 => cell cm i j0) (seq 0 (length cm))). induction l as [|x l IH]; [intros []|]. cbn. intros [->|H]; [lia|]. specialize (IH H). unfold list_sum in IH. lia.
Qed.
Lemma cell_col i j : i < length cm -> j < length cm -> cell cm i j <= col_total cm j.
Proof.
  intros Hi Hj. unfold col_total. assert (In (cell cm i j) (map (fun i => cell cm i j) (seq 0 (length cm)))) by (apply in_map_iff; exists i; split; auto; apply in_seq; lia).
  revert H. generalize (map (fun i0 => cell cm i0 j) (seq 0 (length cm))). induction l as [|x l IH]; [intros []|]. cbn. intros [->|H]; [lia|]. specialize (IH H). unfold list_sum in IH. lia.
Qed.

(** precision + recall is 0 iff nothing of the class was recognised. *)
Lemma denominator_zero i r : i < length cm -> recall_at cm i = Some r ->
  (0 <= precision_at cm i + r)%R /\ ((precision_at cm i + r)%R = 0%R <-> cell cm i i = 0).
Proof.
  intros Hi E. unfold recall_at in E. destruct (Nat.eqb_spec (row_total cm i) 0) as [|N]; [discriminate|]. inversion E; subst. clear E.
  assert (P : (0 < INR (row_total cm i))%R) by (apply lt_0_INR; lia).
  assert (C : (0 <= INR (cell cm i i))%R) by apply pos_INR.
  assert (Q : (0 <= INR (cell cm i i) / INR (row_total cm i))%R) by (apply Rmult_le_pos; [auto|apply Rlt_le, Rinv_0_lt_compat; auto]).
  assert (Q2 : (0 <= precision_at cm i)%R).
  { unfold precision_at. destruct (Nat.eqb_spec (col_total cm i) 0); [lra|]. apply Rmult_le_pos; [auto|apply Rlt_le, Rinv_0_lt_compat, lt_0_INR; lia]. }
  split; [lra|]. split.
  - intro Z. assert (Z2 : (INR (cell cm i i) / INR (row_total cm i) = 0)%R) by lra.
    apply INR_eq. cbn. apply (Rmult_eq_reg_r (/ INR (row_total cm i))); [|apply Rinv_neq_0_compat; lra]. rewrite Rmult_0_l. exact Z2.
  - intro Z. unfold precision_at. rewrite Z. cbn. destruct (Nat.eqb (col_total cm i) 0); unfold Rdiv; lra.
Qed.

Definition no_zero_class : Prop := forall i, i < length cm -> 0 < row_total cm i -> 0 < cell cm i i.

Lemma combine_map_seq {A B C} (f : C -> A) (g : C -> B) l : combine (map f l) (map g l) = map (fun i => (f i, g i)) l.
Proof. induction l; cbn; congruence. Qed.

Lemma f1_eq i : i < length cm -> nth i (snd (fst (stats Rops cm))) None =
  if Nat.eqb (row_total cm i) 0
  then (if forallb (fun i => Nat.eqb (row_total cm i) 0 || negb (Nat.eqb (cell cm i i) 0)) (seq 0 (length cm)) then None else Some 0%R)
  else Some (2 * INR (cell cm i i) / INR (row_total cm i + col_total cm i))%R.
Proof.
  intro Hi. pose proof recall_eq as R. pose proof precision_eq as Pq. unfold stats in R, Pq |- *. cbn zeta in R, Pq |- *. cbn [fst snd] in R, Pq |- *. rewrite R, Pq. clear R Pq.
  rewrite combine_map_seq, map_map. cbn [fst snd].
  set (den := fun i => match recall_at cm i with Some y => Some (precision_at cm i + y)%R | None => None end).
  change (map (fun x : nat => match recall_at cm x with Some y => Some (fadd Rops (precision_at cm x) y) | None => None end) (seq 0 (length cm)))
    with (map den (seq 0 (length cm))).
  rewrite !combine_map_seq, !map_map. cbn [fst snd].
  assert (FB : forallb (fun d => negb (is_zero Rops d)) (map den (seq 0 (length cm))) =
     forallb (fun i => Nat.eqb (row_total cm i) 0 || negb (Nat.eqb (cell cm i i) 0)) (seq 0 (length cm))).
  { assert (G : forall l, (forall x, In x l -> x < length cm) -> forallb (fun d => negb (is_zero Rops d)) (map den l) =
       forallb (fun i => Nat.eqb (row_total cm i) 0 || negb (Nat.eqb (cell cm i i) 0)) l).
    { induction l as [|x l IH]; intro H; [reflexivity|]. cbn [map forallb]. rewrite IH by (intros; apply H; right; auto). f_equal.
      unfold den. destruct (recall_at cm x) as [r|] eqn:E.
      - destruct (denominator_zero x r) as [_ D]; [apply H; left; auto|auto|].
        unfold recall_at in E. destruct (Nat.eqb (row_total cm x) 0); [discriminate|]. cbn. unfold Reqb.
        destruct (Req_EM_T _ 0) as [Z|Z]; destruct (Nat.eqb_spec (cell cm x x) 0); cbn; tauto.
      - unfold recall_at in E. destruct (Nat.eqb (row_total cm x) 0); [reflexivity|discriminate]. }
    apply G. intros x Hx. apply in_seq in Hx. lia. }
  rewrite FB. clear FB.
  (* value for a class with samples *)
  assert (V : forall r, recall_at cm i = Some r -> cell cm i i <> 0 ->
    (2 * (precision_at cm i * r) / (precision_at cm i + r) = 2 * INR (cell cm i i) / INR (row_total cm i + col_total cm i))%R).
  { intros r E N. pose proof (cell_row i i Hi Hi). pose proof (cell_col i i Hi Hi). unfold recall_at in E. destruct (Nat.eqb_spec (row_total cm i) 0); [discriminate|].
    inversion E; subst. unfold precision_at. destruct (Nat.eqb_spec (col_total cm i) 0); [lia|]. rewrite plus_INR.
    assert (0 < INR (cell cm i i))%R by (apply lt_0_INR; lia). assert (0 < INR (row_total cm i))%R by (apply lt_0_INR; lia).
    assert (0 < INR (col_total cm i))%R by (apply lt_0_INR; lia). field. repeat split; nra. }
  destruct (forallb _ _) eqn:A; rewrite nth_map_seq by auto.
  - unfold den. destruct (recall_at cm i) as [r|] eqn:E.
    + assert (N : cell cm i i <> 0).
      { rewrite forallb_forall in A. specialize (A i). rewrite in_seq in A. specialize (A ltac:(lia)). unfold recall_at in E.
        destruct (Nat.eqb (row_total cm i) 0); [discriminate|]. cbn in A. destruct (Nat.eqb_spec (cell cm i i) 0); [discriminate|auto]. }
      rewrite <- (V r) by auto. unfold recall_at in E. destruct (Nat.eqb (row_total cm i) 0); [discriminate|]. reflexivity.
    + unfold recall_at in E. destruct (Nat.eqb (row_total cm i) 0); [reflexivity|discriminate].
  - unfold den. destruct (recall_at cm i) as [r|] eqn:E.
    + destruct (denominator_zero i r Hi E) as [D0 D].
      assert (B : Nat.eqb (row_total cm i) 0 = false) by (unfold recall_at in E; destruct (Nat.eqb (row_total cm i) 0); [discriminate|auto]).
      rewrite B. cbn [flt fz Rops]. unfold Rltb. destruct (Rlt_dec 0 (precision_at cm i + r)) as [L|L].
      * assert (Z : cell cm i i <> 0) by (intro Z; apply D in Z; lra). rewrite <- (V r eq_refl Z). reflexivity.
      * assert (Z : cell cm i i = 0) by (apply D; lra). rewrite Z. cbn. f_equal. unfold Rdiv. ring.
    + unfold recall_at in E. destruct (Nat.eqb (row_total cm i) 0); [reflexivity|discriminate].
Qed.
End S.
