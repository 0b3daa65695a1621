(** Expectation maximisation does not decrease the likelihood. *)
From Coq Require Import List ZArith Reals Lra Bool Lia Arith.
From Verif.Model Require Import Py Float Clustering Bmm.
From Verif.Spec Require Import RealOps Info BmmSpec.
From Verif.Proofs Require Import Base RealP InfoP EntropyP PerfP ClusterP EmleP ClusterR BmmP.
Import ListNotations.
Local Open Scope R_scope.

Lemma ln_below x : 0 < x -> ln x <= x - 1.
Proof. apply ln_le_pred. Qed.
Lemma ln_quot a b : 0 < a -> 0 < b -> ln (a / b) = ln a - ln b.
Proof. intros Ha Hb. unfold Rdiv. rewrite ln_mult; [|auto|apply Rinv_0_lt_compat; auto]. rewrite ln_Rinv by auto. lra. Qed.
(** a (ln a - ln b) >= a - b. *)
Lemma gain a b : 0 < a -> 0 < b -> a - b <= a * (ln a - ln b).
Proof.
  intros Ha Hb. pose proof (ln_below (b / a) ltac:(apply Rdiv_lt_0_compat; auto)) as H. rewrite ln_quot in H by auto.
  assert (E : a * (b / a - 1) = b - a) by (field; lra). nra.
Qed.
Lemma Rsum_mult {A} c (f : A -> R) l : Rsum (map (fun x => c * f x) l) = c * Rsum (map f l).
Proof. induction l as [|x l IH]; cbn [map]; [cbn; lra|]. change (Rsum (?y :: ?t)) with (y + Rsum t). rewrite IH. lra. Qed.
Lemma Rsum_minus {A} (f g : A -> R) l : Rsum (map (fun x => f x - g x) l) = Rsum (map f l) - Rsum (map g l).
Proof. induction l as [|x l IH]; cbn [map]; [cbn; lra|]. change (Rsum (?y :: ?t)) with (y + Rsum t). rewrite IH. lra. Qed.

Lemma jensen {A} (g r : A -> R) l : l <> [] -> (forall k, In k l -> 0 < g k /\ 0 < r k) -> Rsum (map g l) = 1 ->
  Rsum (map (fun k => g k * ln (r k)) l) <= ln (Rsum (map (fun k => g k * r k) l)).
Proof.
  intros Hne H Hs. set (T := Rsum (map (fun k => g k * r k) l)).
  assert (Tp : 0 < T).
  { apply Rsum_pos; [destruct l; [congruence|discriminate]|]. apply Forall_forall. intros v Hv. apply in_map_iff in Hv. destruct Hv as (k & <- & Hk). destruct (H k Hk). apply Rmult_lt_0_compat; auto. }
  assert (X : Rsum (map (fun k => g k * ln (r k) - g k * ln T) l) <= Rsum (map (fun k => g k * r k * / T - g k) l)).
  { apply Rsum_map_le. intros k Hk. destruct (H k Hk) as [G Rp]. pose proof (ln_below (r k / T) ltac:(apply Rdiv_lt_0_compat; auto)) as L. rewrite ln_quot in L by auto.
    unfold Rdiv in L. replace (g k * ln (r k) - g k * ln T) with (g k * (ln (r k) - ln T)) by ring. replace (g k * r k * / T - g k) with (g k * (r k * / T - 1)) by ring.
    apply Rmult_le_compat_l; lra. }
  rewrite !Rsum_minus in X. rewrite (Rsum_ext (fun k => g k * ln T) (fun k => ln T * g k)) in X by (intros; ring). rewrite Rsum_mult in X.
  rewrite (Rsum_ext (fun k => g k * r k * / T) (fun k => / T * (g k * r k))) in X by (intros; ring). rewrite Rsum_mult in X. fold T in X. rewrite Hs, Rinv_l in X by lra. lra.
Qed.

Lemma length_pos {A} (l : list A) : l <> [] -> 0 < INR (length l).
Proof. intro H. destruct l as [|a t]; [congruence|]. apply lt_0_INR. cbn. lia. Qed.

(** One bit of one component. *)
Lemma bit_gain A B a b a' b' T : 0 <= A -> 0 <= B -> T = A + B -> 0 < T -> 0 < a -> 0 < b -> a + b = 1 ->
  A / T <= a' -> 1 - A / T <= b' -> (A = 0 -> b' = 1) -> (B = 0 -> a' = 1) -> 0 <= A * (ln a' - ln a) + B * (ln b' - ln b).
Proof.
  intros HA HB ET HT Ha Hb Hab Ha' Hb' ZA ZB. assert (la : ln a < 0) by (rewrite <- ln_1; apply ln_increasing; lra). assert (lb : ln b < 0) by (rewrite <- ln_1; apply ln_increasing; lra).
  destruct HA as [HA|HA]; [|subst A; rewrite ZA, ln_1 by reflexivity; nra]. destruct HB as [HB|HB]; [|subst B; rewrite ZB, ln_1 by reflexivity; nra].
  assert (E2 : 1 - A / T = B / T) by (rewrite ET; field; lra). rewrite E2 in Hb'.
  assert (Pa : 0 < A / T) by (apply Rdiv_lt_0_compat; auto). assert (Pb : 0 < B / T) by (apply Rdiv_lt_0_compat; auto).
  assert (L1 : ln (A / T) <= ln a') by (destruct Ha' as [L|L]; [left; apply ln_increasing; auto|right; congruence]).
  assert (L2 : ln (B / T) <= ln b') by (destruct Hb' as [L|L]; [left; apply ln_increasing; auto|right; congruence]).
  pose proof (gain (A / T) a Pa Ha) as G1. pose proof (gain (B / T) b Pb Hb) as G2.
  assert (EA : A = T * (A / T)) by (field; lra). assert (EB : B = T * (B / T)) by (field; lra).
  assert (S1 : A / T + B / T = 1) by (rewrite ET; field; lra).
  set (u := A / T) in *. set (v := B / T) in *. rewrite EA, EB.
  assert (X1 : u * (ln u - ln a) <= u * (ln a' - ln a)) by (apply Rmult_le_compat_l; lra).
  assert (X2 : v * (ln v - ln b) <= v * (ln b' - ln b)) by (apply Rmult_le_compat_l; lra).
  replace (T * u * (ln a' - ln a) + T * v * (ln b' - ln b)) with (T * (u * (ln a' - ln a) + v * (ln b' - ln b))) by ring. apply Rmult_le_pos; lra.
Qed.

Section Monotone.
Variables (n d : nat) (pi : list R) (mu : list (list R)) (xs : list (list Z)).
Hypothesis Hn : (1 <= n)%nat.
Hypothesis Hx : xs <> [].
Hypothesis Hb : binary_data d xs.
Hypothesis Hc : current n d xs (pi, mu).
Hypothesis Hin : well_inside mu.
Let pi' := em_weights pi mu xs.
Let mu' := em_means d pi mu xs.
Hypothesis Hp : positive_weights n pi.
Hypothesis Lp : length pi = n.

Lemma inside_prob k j : (k < n)%nat -> (j < d)%nat -> prob_one mu k j = at2 mu k j /\ prob_zero mu k j = 1 - at2 mu k j /\ 0 < at2 mu k j < 1.
Proof.
  intros Hk Hj. pose proof Hc as (_ & [Lm Ld] & _). cbn [snd] in *.
  assert (Hr : In (nth k mu []) mu) by (apply nth_In; lia). assert (Hd : length (nth k mu []) = d) by (rewrite Forall_forall in Ld; auto).
  assert (Hv : / 10 ^ 15 < at2 mu k j < 1 - / 10 ^ 15).
  { pose proof Hin as Hi. unfold well_inside in Hi. rewrite Forall_forall in Hi. specialize (Hi _ Hr). rewrite Forall_forall in Hi. apply Hi. unfold at2. apply nth_In. lia. }
  assert (Hcol : In (at2 mu k j) (column_of mu j)) by (unfold column_of, at2; apply (in_map (fun row => nth j row 0)); auto).
  pose proof (small_pos 15) as Sp. unfold prob_one, prob_zero. split; [apply kept_same; auto; lra|]. split; [|lra].
  apply kept_same; [apply (in_map (fun v => 1 - v)); auto|lra].
Qed.

Lemma gain_kj k j : (k < n)%nat -> (j < d)%nat ->
  0 <= Rsum (map (fun x => posterior pi mu x k * ((if Z.eqb (nth j x 0%Z) 1 then ln (prob_one mu' k j) else ln (prob_zero mu' k j)) -
                                                  (if Z.eqb (nth j x 0%Z) 1 then ln (prob_one mu k j) else ln (prob_zero mu k j)))) xs).
Proof.
  intros Hk Hj. set (A := Rsum (map (fun x => posterior pi mu x k * IZR (nth j x 0%Z)) xs)). set (B := Rsum (map (fun x => posterior pi mu x k * (1 - IZR (nth j x 0%Z))) xs)).
  set (T := total_weight pi mu xs k). assert (ET : T = A + B). { unfold T, total_weight, A, B. rewrite <- Rsum_plus. apply Rsum_ext. intros x _. ring. }
  assert (Tp : 0 < T) by (apply (total_weight_pos n); auto).
  assert (Bit : forall x, In x xs -> nth j x 0%Z = 0%Z \/ nth j x 0%Z = 1%Z).
  { intros x Hxin. pose proof Hb as Hb1. unfold binary_data in Hb1. rewrite Forall_forall in Hb1. destruct (Hb1 x Hxin) as [Lx Bx]. rewrite Forall_forall in Bx. apply Bx, nth_In. lia. }
  assert (Pp : forall x, 0 < posterior pi mu x k) by (intro x; apply (posterior_pos n); auto).
  assert (HA : 0 <= A). { apply Rsum_nonneg. apply Forall_forall. intros v Hv. apply in_map_iff in Hv. destruct Hv as (x & <- & Hxin). specialize (Pp x). destruct (Bit x Hxin) as [->| ->]; lra. }
  assert (HB : 0 <= B). { apply Rsum_nonneg. apply Forall_forall. intros v Hv. apply in_map_iff in Hv. destruct Hv as (x & <- & Hxin). specialize (Pp x). destruct (Bit x Hxin) as [->| ->]; lra. }
  destruct (inside_prob k j Hk Hj) as (E1 & E2 & E3).
  assert (Em : at2 mu' k j = A / T). { unfold at2, mu', em_means. rewrite Lp, nth_map_seq by auto. rewrite nth_map_seq by auto. reflexivity. }
  assert (Hcol : In (A / T) (column_of mu' j)).
  { rewrite <- Em. unfold column_of, at2. apply (in_map (fun row => nth j row 0)). apply nth_In. unfold mu', em_means. rewrite map_length, seq_length, Lp. auto. }
  assert (X : 0 <= A * (ln (prob_one mu' k j) - ln (prob_one mu k j)) + B * (ln (prob_zero mu' k j) - ln (prob_zero mu k j))).
  { rewrite E1, E2. apply (bit_gain A B _ _ _ _ T); auto; try lra.
    - unfold prob_one. rewrite Em. apply kept_ge; auto.
    - unfold prob_zero. rewrite Em. apply kept_ge. apply (in_map (fun v => 1 - v)). auto.
    - intro ZA. unfold prob_zero. rewrite Em, ZA. replace (1 - 0 / T) with 1 by (field; lra). apply kept_one.
      apply in_map_iff. exists (A / T). split; [rewrite ZA; field; lra|auto].
    - intro ZB. assert (E : A / T = 1) by (rewrite ET, ZB; field; lra). unfold prob_one. rewrite Em, E. apply kept_one. rewrite <- E. auto. }
  eapply Rle_trans; [exact X|]. right. rewrite !(Rmult_comm A), !(Rmult_comm B). unfold A, B. rewrite <- !Rsum_mult, <- Rsum_plus. apply Rsum_ext. intros x Hxin.
  destruct (Bit x Hxin) as [->| ->]; cbn [Z.eqb Pos.eqb]; ring.
Qed.

Lemma ln_component m k x : length x = d -> ln (component m k x) = Rsum (map (fun j => if Z.eqb (nth j x 0%Z) 1 then ln (prob_one m k j) else ln (prob_zero m k j)) (seq 0 d)).
Proof.
  intro Lx. unfold component. rewrite ln_Rprod by (intros j _; destruct (Z.eqb _ 1); apply kept_pos). rewrite Lx. apply Rsum_ext. intros j _. destruct (Z.eqb _ 1); reflexivity.
Qed.

Lemma gain_k k : (k < n)%nat -> 0 <= Rsum (map (fun x => posterior pi mu x k * (ln (component mu' k x) - ln (component mu k x))) xs).
Proof.
  intro Hk.
  rewrite (Rsum_ext _ (fun x => Rsum (map (fun j => posterior pi mu x k * ((if Z.eqb (nth j x 0%Z) 1 then ln (prob_one mu' k j) else ln (prob_zero mu' k j)) -
                                                  (if Z.eqb (nth j x 0%Z) 1 then ln (prob_one mu k j) else ln (prob_zero mu k j)))) (seq 0 d)))).
  - rewrite (Rsum_swap (fun x j => _)). apply Rsum_nonneg. apply Forall_forall. intros v Hv. apply in_map_iff in Hv. destruct Hv as (j & <- & Hj). apply in_seq in Hj. apply gain_kj; auto. lia.
  - intros x Hxin. pose proof Hb as Hb1. unfold binary_data in Hb1. rewrite Forall_forall in Hb1. destruct (Hb1 x Hxin) as [Lx _]. rewrite !ln_component by auto. rewrite <- Rsum_minus, <- Rsum_mult. reflexivity.
Qed.

Lemma gain_pi : 0 <= Rsum (map (fun k => total_weight pi mu xs k * (ln (nth k pi' 0) - ln (nth k pi 0))) (seq 0 n)).
Proof.
  assert (Np : 0 < INR (length xs)) by (apply length_pos; exact Hx).
  pose proof (em_weights_ok n pi mu xs Hn Hx Hp) as Hp'. fold pi' in Hp'.
  assert (E : forall k, In k (seq 0 n) -> total_weight pi mu xs k * (ln (nth k pi' 0) - ln (nth k pi 0)) = INR (length xs) * (nth k pi' 0 * (ln (nth k pi' 0) - ln (nth k pi 0)))).
  { intros k Hk. apply in_seq in Hk. assert (Ek : nth k pi' 0 = total_weight pi mu xs k / INR (length xs)) by (unfold pi', em_weights; rewrite Lp, nth_map_seq by lia; reflexivity).
    assert (Et : total_weight pi mu xs k = INR (length xs) * nth k pi' 0) by (rewrite Ek; field; lra). rewrite Et at 1. ring. }
  rewrite (Rsum_ext _ _ _ E), Rsum_mult. apply Rmult_le_pos; [lra|].
  apply Rle_trans with (Rsum (map (fun k => nth k pi' 0 - nth k pi 0) (seq 0 n))).
  - rewrite Rsum_minus. pose proof Hp as (_ & _ & S1). destruct Hp' as (L' & _ & S2). right. rewrite <- Lp at 2. rewrite <- L' at 1. rewrite <- !(list_seq _ 0). lra.
  - apply Rsum_map_le. intros k Hk. apply in_seq in Hk. apply gain; apply (weights_nth n); auto; lia.
Qed.

Theorem em_monotone : mean_log_likelihood pi mu xs <= mean_log_likelihood pi' mu' xs.
Proof.
  assert (Np : 0 < INR (length xs)) by (apply length_pos; exact Hx).
  unfold mean_log_likelihood. apply Rmult_le_compat_r; [left; apply Rinv_0_lt_compat; auto|].
  pose proof (em_weights_ok n pi mu xs Hn Hx Hp) as Hp'. fold pi' in Hp'. assert (Lp' : length pi' = n) by apply Hp'.
  assert (X : Rsum (map (fun x => Rsum (map (fun k => posterior pi mu x k * ((ln (nth k pi' 0) - ln (nth k pi 0)) + (ln (component mu' k x) - ln (component mu k x)))) (seq 0 n))) xs) <=
              Rsum (map (fun x => ln (mixture pi' mu' x) - ln (mixture pi mu x)) xs)).
  { apply Rsum_map_le. intros x Hxin. pose proof (mixture_pos n pi mu x Hn Hp) as Mp.
    set (r := fun k => nth k pi' 0 * component mu' k x / (nth k pi 0 * component mu k x)).
    assert (Pk : forall k, (k < n)%nat -> 0 < nth k pi 0 * component mu k x /\ 0 < nth k pi' 0 * component mu' k x).
    { intros k Hk. split; apply Rmult_lt_0_compat; try apply component_pos; apply (weights_nth n); auto. }
    assert (J := jensen (posterior pi mu x) r (seq 0 n)).
    assert (Em : Rsum (map (fun k => posterior pi mu x k * r k) (seq 0 n)) = mixture pi' mu' x / mixture pi mu x).
    { unfold mixture at 1. rewrite Lp'. rewrite <- Rsum_div, map_map. apply Rsum_ext. intros k Hk. apply in_seq in Hk. destruct (Pk k ltac:(lia)). unfold posterior, r. field. split; [lra|]. split; intro Z0; rewrite Z0 in *; lra. }
    rewrite Em in J. rewrite ln_quot in J; [|apply (mixture_pos n); auto|auto].
    eapply Rle_trans; [|apply J].
    - right. apply Rsum_ext. intros k Hk. apply in_seq in Hk. destruct (Pk k ltac:(lia)). unfold r. rewrite ln_quot by auto. rewrite !ln_mult; try apply component_pos; try (apply (weights_nth n); auto; lia). ring.
    - destruct n; [lia|discriminate].
    - intros k Hk. apply in_seq in Hk. destruct (Pk k ltac:(lia)). split; [apply (posterior_pos n); auto; lia|]. unfold r. apply Rdiv_lt_0_compat; auto.
    - apply (posterior_sum n); auto. }
  rewrite Rsum_minus in X. assert (Y : 0 <= Rsum (map (fun x => Rsum (map (fun k => posterior pi mu x k * ((ln (nth k pi' 0) - ln (nth k pi 0)) + (ln (component mu' k x) - ln (component mu k x)))) (seq 0 n))) xs)); [|lra].
  rewrite (Rsum_swap (fun x k => _)).
  rewrite (Rsum_ext _ (fun k => total_weight pi mu xs k * (ln (nth k pi' 0) - ln (nth k pi 0)) + Rsum (map (fun x => posterior pi mu x k * (ln (component mu' k x) - ln (component mu k x))) xs))).
  - rewrite Rsum_plus. apply Rplus_le_le_0_compat; [apply gain_pi|]. apply Rsum_nonneg. apply Forall_forall. intros v Hv. apply in_map_iff in Hv. destruct Hv as (k & <- & Hk). apply in_seq in Hk. apply gain_k. lia.
  - intros k _. unfold total_weight. rewrite (Rmult_comm (Rsum _)). rewrite <- Rsum_mult, <- Rsum_plus. apply Rsum_ext. intros x _. ring.
Qed.
End Monotone.

(** ** Prediction *)
Lemma fargmax_from_spec (f : nat -> R) t : forall i best, (best < i)%nat -> (forall j, (j < i)%nat -> f j <= f best /\ ((j < best)%nat -> f j < f best)) ->
  first_greatest (i + t) f (fargmax_from Rops (map f (seq i t)) i best (f best)).
Proof.
  induction t as [|t IH]; intros i best Hb H; cbn [seq map fargmax_from].
  - rewrite Nat.add_0_r. split; auto.
  - replace (i + S t)%nat with (S i + t)%nat by lia. cbn [flt Rops]. destruct (Rltb (f best) (f i)) eqn:E.
    + apply (proj1 (Rltb_spec _ _)) in E. apply IH; [lia|]. intros j Hj. destruct (Nat.eq_dec j i) as [->|N]; [split; [lra|lia]|]. destruct (H j ltac:(lia)). split; intros; lra.
    + apply (proj1 (Rltb_false _ _)) in E. apply IH; [lia|]. intros j Hj. destruct (Nat.eq_dec j i) as [->|N]; [split; [lra|lia]|]. apply H. lia.
Qed.
Lemma fargmax_spec n (f : nat -> R) : (1 <= n)%nat -> first_greatest n f (fargmax Rops (map f (seq 0 n))).
Proof.
  intro H. destruct n as [|n]; [lia|]. cbn [seq map fargmax]. apply (fargmax_from_spec f n 1 0); [lia|]. intros j Hj. replace j with 0%nat by lia. split; [lra|lia].
Qed.
Lemma first_greatest_scale n (f g : nat -> R) c u : 0 < c -> (forall k, g k = f k * c) -> first_greatest n g u <-> first_greatest n f u.
Proof.
  intros Hc E. unfold first_greatest. split; intros [H1 H2]; split; auto; intros j Hj; destruct (H2 j Hj) as [A B]; rewrite ?E in *; (split; [nra|intro L; specialize (B L); nra]).
Qed.
