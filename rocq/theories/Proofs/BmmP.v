(** Lemmas about the Bernoulli mixture. *)
From Coq Require Import List ZArith Reals Lra Bool Lia Arith.
From Verif.Model Require Import Py Float Clustering Bmm.
From Verif.Spec Require Import RealOps Info BmmSpec.
From Verif.Proofs Require Import Base RealP InfoP EntropyP PerfP ClusterP EmleP ClusterR.
Import ListNotations.
Local Open Scope R_scope.

Lemma e15_R : e15 Rops = / 10 ^ 15.
Proof. unfold e15. cbn [fdiv fz Rops]. rewrite (pow_IZR 10 15). change (Z.of_nat 15) with 15%Z. unfold Rdiv. rewrite Rmult_1_l. reflexivity. Qed.
Lemma e200_R : e200 Rops = / 10 ^ 200.
Proof. unfold e200. cbn [fdiv fz Rops]. rewrite (pow_IZR 10 200). change (Z.of_nat 200) with 200%Z. unfold Rdiv. rewrite Rmult_1_l. reflexivity. Qed.
Lemma small_pos n : 0 < / 10 ^ n.
Proof. apply Rinv_0_lt_compat, pow_lt. lra. Qed.
Lemma small_le1 n : / 10 ^ n <= 1.
Proof. rewrite <- Rinv_1. apply Rinv_le_contravar; [lra|]. apply pow_R1_Rle. lra. Qed.
Lemma small_200_15 : / 10 ^ 200 <= / 10 ^ 15.
Proof. apply Rinv_le_contravar; [apply pow_lt; lra|]. apply Rle_pow; [lra|lia]. Qed.

Lemma kept_pos col m : 0 < kept_away col m.
Proof. unfold kept_away. destruct (forallb _ col); [apply small_pos|]. eapply Rlt_le_trans; [apply (small_pos 200)|apply Rmax_r]. Qed.
Lemma kept_ge col m : In m col -> m <= kept_away col m.
Proof.
  intro H. unfold kept_away. destruct (forallb _ col) eqn:E; [|apply Rmax_l]. rewrite forallb_forall in E. specialize (E m H). destruct (Rle_dec m (/ 10 ^ 15)); [auto|discriminate].
Qed.
Lemma kept_same col m : In m col -> / 10 ^ 15 < m -> kept_away col m = m.
Proof.
  intros H L. unfold kept_away. destruct (forallb _ col) eqn:E.
  - rewrite forallb_forall in E. specialize (E m H). destruct (Rle_dec m (/ 10 ^ 15)); [lra|discriminate].
  - apply Rmax_left. pose proof small_200_15. lra.
Qed.
Lemma kept_one col : In 1 col -> kept_away col 1 = 1.
Proof.
  intro H. apply kept_same; auto. assert (X : 1 < 10 ^ 15) by (apply Rlt_pow_R1; [lra|lia]). set (y := 10 ^ 15) in *. clearbody y. apply Rlt_le_trans with (/ 1); [|lra].
  apply Rinv_lt_contravar; lra.
Qed.

Lemma fmax_R a b : fmax Rops a b = Rmax a b.
Proof.
  unfold fmax. cbn [fle Rops]. destruct (Rleb b a) eqn:E; [apply (proj1 (Rleb_spec _ _)) in E; rewrite Rmax_left by auto|apply (proj1 (Rleb_false _ _)) in E; rewrite Rmax_right by lra]; reflexivity.
Qed.
Lemma isnan_R x : isnan Rops x = false.
Proof. unfold isnan. cbn [feq Rops]. destruct (Reqb x x) eqn:E; [reflexivity|]. apply (proj1 (Reqb_false _ _)) in E. congruence. Qed.
Lemma nmax_R a b : nmax Rops a b = Rmax a b.
Proof. unfold nmax. rewrite !isnan_R. apply fmax_R. Qed.
Lemma isfinite_R x : isfinite Rops x = true.
Proof. unfold isfinite. cbn [feq fsub fz Rops]. destruct (Reqb (x - x) 0) eqn:E; [reflexivity|]. apply (proj1 (Reqb_false _ _)) in E. exfalso. apply E. ring. Qed.
Lemma fmaximum_le l v : l <> [] -> (fmaximum Rops l <= v <-> Forall (fun x => x <= v) l).
Proof.
  destruct l as [|x t]; [congruence|]. intros _. cbn [fmaximum]. revert x. induction t as [|y t IH]; intro x; cbn [fold_left].
  - split; [intro H; constructor; auto|intro H; inversion H; auto].
  - rewrite IH, nmax_R. split; intro H; inversion H as [|? ? H1 H2]; subst.
    + constructor; [|constructor; auto]; eapply Rle_trans; [apply Rmax_l|exact H1|apply Rmax_r|exact H1].
    + inversion H2; subst. constructor; auto. apply Rmax_lub; auto.
Qed.

Lemma place_R mu row j : mu <> [] -> 0 <= nth j row 0 -> place Rops mu row j = kept_away (column_of mu j) (nth j row 0).
Proof.
  intros Hm Hr. unfold place. rewrite e15_R, e200_R. cbn [fle flt fabs fz Rops]. unfold kept_away.
  assert (E : Rleb (fmaximum Rops (fcol Rops mu j)) (/ 10 ^ 15) = forallb (fun v => if Rle_dec v (/ 10 ^ 15) then true else false) (column_of mu j)).
  { apply eq_true_iff_eq. rewrite Rleb_spec. change (fcol Rops mu j) with (column_of mu j). rewrite fmaximum_le by (destruct mu; [congruence|discriminate]).
    rewrite Forall_forall, forallb_forall. split; intros H x Hx; specialize (H x Hx); destruct (Rle_dec x (/ 10 ^ 15)); auto; discriminate. }
  rewrite E. destruct (forallb _ _).
  - rewrite Rabs_right by (left; apply small_pos). destruct (Rltb (/ 10 ^ 15) (/ 10 ^ 200)) eqn:E2; [apply (proj1 (Rltb_spec _ _)) in E2; pose proof small_200_15; lra|reflexivity].
  - change (F Rops) with R; rewrite (Rabs_right (nth j row 0)) by (apply Rle_ge; exact Hr). destruct (Rltb (nth j row 0) (/ 10 ^ 200)) eqn:E2; [apply (proj1 (Rltb_spec _ _)) in E2; rewrite Rmax_right by lra; reflexivity|].
    apply (proj1 (Rltb_false _ _)) in E2. rewrite Rmax_left by lra. reflexivity.
Qed.

Lemma Rprod_pos l : Forall (fun x => 0 < x) l -> 0 < Rprod l.
Proof. induction 1; cbn; [lra|]. apply Rmult_lt_0_compat; auto. Qed.
Lemma ln_Rprod {A} (f : A -> R) l : (forall x, In x l -> 0 < f x) -> ln (Rprod (map f l)) = Rsum (map (fun x => ln (f x)) l).
Proof.
  induction l as [|a l IH]; intro H; cbn [map Rprod fold_right Rsum]; [apply ln_1|].
  fold (Rprod (map f l)). rewrite ln_mult; [|apply H; left; auto|apply Rprod_pos; apply Forall_forall; intros x Hx; apply in_map_iff in Hx; destruct Hx as (y & <- & Hy); apply H; right; auto].
  rewrite IH by (intros; apply H; right; auto). reflexivity.
Qed.
Lemma component_pos mu k x : 0 < component mu k x.
Proof. unfold component. apply Rprod_pos. apply Forall_forall. intros v Hv. apply in_map_iff in Hv. destruct Hv as (j & <- & _). destruct (Z.eqb _ 1); apply kept_pos. Qed.
Lemma Rsum_pos l : l <> [] -> Forall (fun x => 0 < x) l -> 0 < Rsum l.
Proof.
  intros Hne H. destruct H as [|x l H1 H2]; [congruence|]. cbn. fold (Rsum l). assert (0 <= Rsum l); [|lra].
  clear H1 Hne. induction H2; cbn; [lra|]. fold (Rsum l). lra.
Qed.
Lemma mixture_pos n pi mu x : (1 <= n)%nat -> positive_weights n pi -> 0 < mixture pi mu x.
Proof.
  intros Hn (L & P & _). unfold mixture. apply Rsum_pos; [rewrite L; destruct n; [lia|discriminate]|].
  apply Forall_forall. intros v Hv. apply in_map_iff in Hv. destruct Hv as (k & <- & Hk). apply in_seq in Hk. apply Rmult_lt_0_compat; [|apply component_pos].
  rewrite Forall_forall in P. apply P, nth_In. lia.
Qed.

Lemma zip_with_map {A B C D} (f : B -> C -> D) (g : A -> B) (h : A -> C) l : zip_with f (map g l) (map h l) = map (fun x => f (g x) (h x)) l.
Proof. unfold zip_with. induction l as [|x l IH]; cbn; [reflexivity|]. f_equal. exact IH. Qed.

Lemma fsum_map_R {A} (f : A -> R) l : fsum Rops (map f l) = Rsum (map f l).
Proof. apply fsum_R. Qed.

Lemma unit_row mu k j d : matrix (length mu) d mu -> unit_entries mu -> (k < length mu)%nat -> (j < d)%nat -> 0 <= at2 mu k j <= 1.
Proof.
  intros [_ Hd] Hu Hk Hj. unfold at2. unfold unit_entries in Hu. rewrite Forall_forall in Hu, Hd. specialize (Hu (nth k mu []) (nth_In mu [] Hk)). specialize (Hd (nth k mu []) (nth_In mu [] Hk)).
  rewrite Forall_forall in Hu. apply Hu, nth_In. lia.
Qed.

Lemma Rsum_ext {A} (f g : A -> R) l : (forall x, In x l -> f x = g x) -> Rsum (map f l) = Rsum (map g l).
Proof. intro H. f_equal. apply map_ext_in. exact H. Qed.
Lemma Rsum_plus {A} (f g : A -> R) l : Rsum (map (fun x => f x + g x) l) = Rsum (map f l) + Rsum (map g l).
Proof. induction l as [|x l IH]; cbn; [lra|]. fold (Rsum (map (fun x => f x + g x) l)) (Rsum (map f l)) (Rsum (map g l)). rewrite IH. lra. Qed.

Definition complement (mu : list (list R)) : list (list R) := map (map (fun m => 1 - m)) mu.
Lemma complement_column mu d j : Forall (fun r => length r = d) mu -> (j < d)%nat -> column_of (complement mu) j = map (fun v => 1 - v) (column_of mu j).
Proof.
  intros H Hj. unfold column_of, complement. rewrite !map_map. apply map_ext_in. intros row Hr. rewrite Forall_forall in H. specialize (H row Hr).
  rewrite (nth_indep _ 0 ((fun m => 1 - m) 0)) by (rewrite map_length; lia). apply (map_nth (fun m => 1 - m)).
Qed.
Lemma complement_row mu d j row : Forall (fun r => length r = d) mu -> (j < d)%nat -> In row mu -> nth j (map (fun m => 1 - m) row) 0 = 1 - nth j row 0.
Proof.
  intros H Hj Hr. rewrite Forall_forall in H. specialize (H row Hr). rewrite (nth_indep _ 0 ((fun m => 1 - m) 0)) by (rewrite map_length; lia). apply (map_nth (fun m => 1 - m)).
Qed.

Lemma log_bernoullis_R n d mu xs : (1 <= n)%nat -> matrix n d mu -> unit_entries mu -> binary_data d xs ->
  get_log_bernoullis Rops xs mu = map (fun x => map (fun k => ln (component mu k x)) (seq 0 n)) xs.
Proof.
  intros Hn Hm Hu Hx. assert (Ln : length mu = n) by apply Hm. unfold get_log_bernoullis, get_save_single. rewrite map_map. change (F Rops) with R in *. rewrite zip_with_map.
  apply map_ext_in. intros x Hin. unfold binary_data in Hx. rewrite Forall_forall in Hx. destruct (Hx x Hin) as [Lx Bx].
  rewrite map_map. rewrite zip_with_map. rewrite <- Ln.
  match goal with |- map ?f mu = _ => etransitivity; [symmetry; exact (map_seq_nth f mu [])|] end; cbv beta. apply map_ext_in. intros k Hk. apply in_seq in Hk.
  rewrite map_length, Lx. change (F Rops) with R. rewrite !fsum_map_R. unfold component. rewrite ln_Rprod by (intros j _; destruct (Z.eqb _ 1); apply kept_pos). rewrite Lx.
  assert (Hm' : matrix (length mu) d mu) by (rewrite Ln; auto).
  assert (Hne : mu <> []) by (destruct mu; [cbn in Ln; lia|discriminate]).
  assert (Hkin : In (nth k mu []) mu) by (apply nth_In; lia).
  cbn [fadd Rops]. rewrite <- Rsum_plus. apply Rsum_ext. intros j Hj. apply in_seq in Hj.
  pose proof (unit_row mu k j d Hm' Hu ltac:(lia) ltac:(lia)) as Hv. unfold at2 in Hv.
  rewrite place_R by (auto; lra). destruct Hm as [_ Hd].
  change (map (map (fun m : R => fsub Rops (fz Rops 1) m)) mu) with (complement mu).
  change (map (fun m : R => fsub Rops (fz Rops 1) m) (nth k mu [])) with (map (fun m => 1 - m) (nth k mu [])).
  assert (Er := complement_row mu d j (nth k mu []) Hd ltac:(lia) Hkin).
  rewrite place_R; [|destruct mu; [congruence|discriminate]|rewrite Er; lra]. rewrite Er, (complement_column mu d j Hd) by lia.
  rewrite (nth_indep (map _ x) 0%Z ((fun b => 1 - b)%Z 0%Z)) by (rewrite map_length; lia). rewrite (map_nth (fun b => (1 - b)%Z)). cbn [fmul fz flog Rops].
  fold (at2 mu k j). fold (prob_one mu k j) (prob_zero mu k j).
  rewrite Forall_forall in Bx. destruct (Bx (nth j x 0%Z) ltac:(apply nth_In; lia)) as [->| ->]; cbn [Z.eqb Pos.eqb Z.sub Z.add Z.opp Z.pos_sub]; lra.
Qed.

Lemma exp_log a b : 0 < a -> 0 < b -> exp (ln a + ln b) = a * b.
Proof. intros Ha Hb. rewrite exp_plus, !exp_ln; auto. Qed.

Lemma weights_nth n pi k : positive_weights n pi -> (k < n)%nat -> 0 < nth k pi 0.
Proof. intros (L & P & _) Hk. rewrite Forall_forall in P. apply P, nth_In. lia. Qed.

Lemma zip_with_seq {B C D} (f : B -> C -> D) (l : list B) (g : nat -> C) d n : length l = n -> zip_with f l (map g (seq 0 n)) = map (fun k => f (nth k l d) (g k)) (seq 0 n).
Proof. intro L. rewrite (list_seq l d) at 1. rewrite L. apply zip_with_map. Qed.

Lemma logsumexp_R l : l <> [] -> logsumexp Rops l = ln (Rsum (map exp l)).
Proof.
  intro Ne. unfold logsumexp. rewrite isfinite_R. set (m := fmaximum Rops l). clearbody m. change (F Rops) with R in m. cbn [fadd flog fexp fsub Rops]. rewrite fsum_map_R.
  assert (E : Rsum (map (fun x => exp (x - m)) l) = Rsum (map exp l) * exp (- m)).
  { clear Ne. induction l as [|x t IH]; [cbn; ring|]. change (Rsum (map (fun x => exp (x - m)) (x :: t))) with (exp (x - m) + Rsum (map (fun x => exp (x - m)) t)).
    change (Rsum (map exp (x :: t))) with (exp x + Rsum (map exp t)). rewrite IH. unfold Rminus. rewrite exp_plus. ring. }
  assert (P : 0 < Rsum (map exp l)).
  { destruct l as [|x t]; [congruence|]. clear. change (Rsum (map exp (x :: t))) with (exp x + Rsum (map exp t)). assert (0 <= Rsum (map exp t)); [|pose proof (exp_pos x); lra].
    induction t as [|y t IH]; [cbn; lra|]. change (Rsum (map exp (y :: t))) with (exp y + Rsum (map exp t)). pose proof (exp_pos y). lra. }
  etransitivity; [apply (f_equal (fun r => ln r + m)); exact E|]. etransitivity; [apply (f_equal (fun r => r + m)); apply ln_mult; [exact P|apply exp_pos]|]. rewrite ln_exp. match goal with |- ?a = ?b => change (@eq R a b) end. ring.
Qed.
Lemma sample_log_likelihood_R n pi mu xs : (1 <= n)%nat -> positive_weights n pi ->
  sample_log_likelihood Rops pi (map (fun x => map (fun k => ln (component mu k x)) (seq 0 n)) xs) = map (fun x => ln (mixture pi mu x)) xs.
Proof.
  intros Hn Hp. assert (Lp : length pi = n) by apply Hp. unfold sample_log_likelihood. rewrite map_map. apply map_ext. intro x.
  change (F Rops) with R. rewrite (zip_with_seq _ pi _ 0 n Lp), logsumexp_R by (destruct n; [lia|discriminate]). rewrite map_map. f_equal. unfold mixture. rewrite Lp. apply Rsum_ext. intros k Hk. apply in_seq in Hk.
  cbn [fadd Rops]. apply exp_log; [apply (weights_nth n); auto; lia|apply component_pos].
Qed.
Lemma log_likelihood_mean n pi mu xs : (1 <= n)%nat -> positive_weights n pi ->
  log_likelihood Rops pi (map (fun x => map (fun k => ln (component mu k x)) (seq 0 n)) xs) = mean_log_likelihood pi mu xs.
Proof.
  intros Hn Hp. unfold log_likelihood. rewrite (sample_log_likelihood_R n) by auto. unfold fmean, mean_log_likelihood. change (F Rops) with R. rewrite map_length.
  cbn [fdiv fz Rops]. rewrite <- INR_IZR_INZ. f_equal. apply fsum_R.
Qed.
Lemma responsibilities_R n pi mu xs : (1 <= n)%nat -> positive_weights n pi ->
  get_responsibilities Rops pi (map (fun x => map (fun k => ln (component mu k x)) (seq 0 n)) xs) = map (fun x => map (posterior pi mu x) (seq 0 n)) xs.
Proof.
  intros Hn Hp. assert (Lp : length pi = n) by apply Hp. unfold get_responsibilities. rewrite (sample_log_likelihood_R n) by auto. change (F Rops) with R. rewrite zip_with_map.
  apply map_ext. intro x. rewrite (zip_with_seq _ pi _ 0 n Lp). apply map_ext_in. intros k Hk. apply in_seq in Hk. cbn [fexp fsub fadd flog Rops].
  pose proof (mixture_pos n pi mu x Hn Hp) as Mp. unfold Rminus. rewrite exp_plus, exp_Ropp, (exp_ln (mixture pi mu x)) by auto.
  rewrite exp_log; [reflexivity|apply (weights_nth n); auto; lia|apply component_pos].
Qed.

Lemma posterior_pos n pi mu x k : (1 <= n)%nat -> positive_weights n pi -> (k < n)%nat -> 0 < posterior pi mu x k.
Proof.
  intros Hn Hp Hk. unfold posterior. apply Rdiv_lt_0_compat; [|apply (mixture_pos n); auto]. apply Rmult_lt_0_compat; [apply (weights_nth n); auto|apply component_pos].
Qed.
Lemma posterior_sum n pi mu x : (1 <= n)%nat -> positive_weights n pi -> Rsum (map (posterior pi mu x) (seq 0 n)) = 1.
Proof.
  intros Hn Hp. pose proof (mixture_pos n pi mu x Hn Hp) as Mp. assert (Lp : length pi = n) by apply Hp. unfold posterior.
  rewrite <- (map_map (fun k => nth k pi 0 * component mu k x) (fun v => v / mixture pi mu x)). rewrite Rsum_div.
  replace (Rsum (map (fun k => nth k pi 0 * component mu k x) (seq 0 n))) with (mixture pi mu x) by (unfold mixture; rewrite Lp; reflexivity). field. lra.
Qed.

Lemma fcol_map {A} (f : A -> nat -> R) n (xs : list A) k : (k < n)%nat -> fcol Rops (map (fun x => map (f x) (seq 0 n)) xs) k = map (fun x => f x k) xs.
Proof. intro Hk. unfold fcol. rewrite map_map. apply map_ext. intro x. apply nth_map_seq. exact Hk. Qed.

Lemma neff_R n pi mu xs : length pi = n -> get_neff Rops n (map (fun x => map (posterior pi mu x) (seq 0 n)) xs) = map (total_weight pi mu xs) (seq 0 n).
Proof.
  intros Lp. unfold get_neff. apply map_ext_in. intros k Hk. apply in_seq in Hk. rewrite fcol_map by lia. apply fsum_R.
Qed.
Lemma get_pi_R n pi mu xs : length pi = n -> get_pi Rops xs (map (total_weight pi mu xs) (seq 0 n)) = em_weights pi mu xs.
Proof.
  intros Lp. unfold get_pi, em_weights. rewrite map_map, Lp. apply map_ext. intro k. cbn [fdiv fz Rops]. rewrite <- INR_IZR_INZ. reflexivity.
Qed.
Lemma get_mu_R n d pi mu xs : length pi = n ->
  get_mu Rops n d xs (map (fun x => map (posterior pi mu x) (seq 0 n)) xs) (map (total_weight pi mu xs) (seq 0 n)) = em_means d pi mu xs.
Proof.
  intros Lp. unfold get_mu, em_means. rewrite Lp. apply map_ext_in. intros k Hk. apply in_seq in Hk. apply map_ext. intro j.
  change (F Rops) with R. rewrite nth_map_seq by lia. cbn [fdiv Rops]. f_equal. rewrite <- (map_id xs) at 2. rewrite zip_with_map. rewrite fsum_map_R.
  apply Rsum_ext. intros x Hx. rewrite nth_map_seq by lia. reflexivity.
Qed.

Lemma total_weight_pos n pi mu xs k : (1 <= n)%nat -> xs <> [] -> positive_weights n pi -> (k < n)%nat -> 0 < total_weight pi mu xs k.
Proof.
  intros Hn Hx Hp Hk. unfold total_weight. apply Rsum_pos; [destruct xs; [congruence|discriminate]|]. apply Forall_forall. intros v Hv. apply in_map_iff in Hv.
  destruct Hv as (x & <- & _). apply (posterior_pos n); auto.
Qed.
Lemma Rsum_swap {A B} (f : A -> B -> R) l l' : Rsum (map (fun a => Rsum (map (f a) l')) l) = Rsum (map (fun b => Rsum (map (fun a => f a b) l)) l').
Proof.
  induction l as [|a l IH].
  - cbn [map Rsum fold_right]. induction l' as [|b l' IH']; [reflexivity|]. cbn [map Rsum fold_right]. fold (Rsum (map (fun _ : B => 0) l')). cbn in IH'. rewrite <- IH'. lra.
  - cbn [map]. change (Rsum (?x :: ?t)) with (x + Rsum t). rewrite IH. rewrite <- Rsum_plus. reflexivity.
Qed.
Lemma total_weight_total n pi mu xs : (1 <= n)%nat -> positive_weights n pi -> Rsum (map (total_weight pi mu xs) (seq 0 n)) = INR (length xs).
Proof.
  intros Hn Hp. unfold total_weight. rewrite (Rsum_swap (fun k x => posterior pi mu x k)).
  rewrite (Rsum_ext _ (fun _ => 1)) by (intros x _; apply (posterior_sum n); auto).
  induction xs as [|x xs IH]; [reflexivity|]. cbn [map length]. change (Rsum (?y :: ?t)) with (y + Rsum t). rewrite IH, S_INR. lra.
Qed.

Lemma em_weights_ok n pi mu xs : (1 <= n)%nat -> xs <> [] -> positive_weights n pi -> positive_weights n (em_weights pi mu xs).
Proof.
  intros Hn Hx Hp. assert (Lp : length pi = n) by apply Hp. assert (Np : 0 < INR (length xs)) by (destruct xs; [congruence|cbn [length]; rewrite S_INR; pose proof (pos_INR (length xs)); lra]).
  unfold em_weights. rewrite Lp. split; [rewrite map_length, seq_length; auto|]. split.
  - apply Forall_forall. intros v Hv. apply in_map_iff in Hv. destruct Hv as (k & <- & Hk). apply in_seq in Hk. apply Rdiv_lt_0_compat; auto. apply (total_weight_pos n); auto. lia.
  - rewrite <- (map_map (total_weight pi mu xs) (fun v => v / INR (length xs))). rewrite Rsum_div, (total_weight_total n) by auto. field. lra.
Qed.
Lemma em_means_ok n d pi mu xs : (1 <= n)%nat -> xs <> [] -> positive_weights n pi -> binary_data d xs -> matrix n d (em_means d pi mu xs) /\ unit_entries (em_means d pi mu xs).
Proof.
  intros Hn Hx Hp Hb. assert (Lp : length pi = n) by apply Hp. unfold em_means. rewrite Lp. split.
  - split; [rewrite map_length, seq_length; auto|]. apply Forall_forall. intros r Hr. apply in_map_iff in Hr. destruct Hr as (k & <- & _). rewrite map_length, seq_length. auto.
  - apply Forall_forall. intros r Hr. apply in_map_iff in Hr. destruct Hr as (k & <- & Hk). apply in_seq in Hk. apply Forall_forall. intros v Hv. apply in_map_iff in Hv. destruct Hv as (j & <- & Hj). apply in_seq in Hj.
    pose proof (total_weight_pos n pi mu xs k Hn Hx Hp ltac:(lia)) as Tp.
    assert (B : 0 <= Rsum (map (fun x => posterior pi mu x k * IZR (nth j x 0%Z)) xs) <= total_weight pi mu xs k).
    { assert (Hbit : forall x, In x xs -> 0 <= posterior pi mu x k * IZR (nth j x 0%Z) <= posterior pi mu x k).
      { intros x Hin. pose proof (posterior_pos n pi mu x k Hn Hp ltac:(lia)). unfold binary_data in Hb. rewrite Forall_forall in Hb. destruct (Hb x Hin) as [Lx Bx]. rewrite Forall_forall in Bx.
        destruct (Bx (nth j x 0%Z) ltac:(apply nth_In; lia)) as [->| ->]; lra. }
      split.
      - apply Rsum_nonneg. apply Forall_forall. intros v Hv. apply in_map_iff in Hv. destruct Hv as (x & <- & Hin). apply Hbit; auto.
      - unfold total_weight. apply Rsum_map_le. intros x Hin. apply Hbit; auto. }
    set (a := Rsum _) in *. set (t := total_weight pi mu xs k) in *. unfold Rdiv. assert (0 < / t) by (apply Rinv_0_lt_compat; auto). split.
    + apply Rmult_le_pos; lra.
    + apply Rmult_le_reg_r with t; auto. rewrite Rmult_assoc, Rinv_l by lra. lra.
Qed.

(** ** The loop *)
Definition current (n : nat) (d : nat) (xs : list (list Z)) (p : list R * list (list R)) : Prop := positive_weights n (fst p) /\ matrix n d (snd p) /\ unit_entries (snd p).
Lemma em_current n d xs p : (1 <= n)%nat -> xs <> [] -> binary_data d xs -> current n d xs p -> current n d xs (em d xs p).
Proof.
  intros Hn Hx Hb (H1 & H2 & H3). unfold em, current. cbn [fst snd]. split; [apply em_weights_ok; auto|]. apply (em_means_ok n); auto.
Qed.
Definition iterated {A} (f : A -> A) (n : nat) (a : A) : A := Nat.iter n f a.

Lemma iter_succ_r {A} (f : A -> A) m a : iterated f (S m) a = iterated f m (f a).
Proof. induction m as [|m IH]; [reflexivity|]. change (f (iterated f (S m) a) = f (iterated f m (f a))). rewrite IH. reflexivity. Qed.


Lemma em_step_R n d xs first s : (1 <= n)%nat -> xs <> [] -> binary_data d xs -> current n d xs (b_pi Rops s, b_mu Rops s) ->
  em_step Rops n d xs first (get_log_bernoullis Rops xs (b_mu Rops s)) s =
  (let pi := b_pi Rops s in let mu := b_mu Rops s in
   (false, get_log_bernoullis Rops xs (em_means d pi mu xs),
    Bmm Rops (em_weights pi mu xs) (em_means d pi mu xs) (map (fun x => map (posterior pi mu x) (seq 0 n)) xs) (map (total_weight pi mu xs) (seq 0 n))
        (if first then b_old Rops s else b_logL Rops s) (mean_log_likelihood (em_weights pi mu xs) (em_means d pi mu xs) xs))).
Proof.
  intros Hn Hx Hb (Hp & Hm & Hu). cbn [fst snd] in *. cbn zeta. unfold em_step. assert (Lp : length (b_pi Rops s) = n) by apply Hp.
  assert (E1 : get_responsibilities Rops (b_pi Rops s) (get_log_bernoullis Rops xs (b_mu Rops s)) = map (fun x => map (posterior (b_pi Rops s) (b_mu Rops s) x) (seq 0 n)) xs).
  { rewrite (log_bernoullis_R n d) by auto. apply responsibilities_R; auto. }
  cbn zeta. rewrite E1. rewrite (neff_R n) by auto. rewrite (get_mu_R n), (get_pi_R n) by auto. rewrite isnan_R. do 3 f_equal.
  destruct (em_means_ok n d (b_pi Rops s) (b_mu Rops s) xs Hn Hx Hp Hb) as [Hm' Hu'].
  rewrite (log_bernoullis_R n d) by auto. apply log_likelihood_mean; auto. apply em_weights_ok; auto.
Qed.

Lemma em_loop_R n d xs iters first s : (1 <= n)%nat -> xs <> [] -> binary_data d xs -> current n d xs (b_pi Rops s, b_mu Rops s) ->
  let r := em_loop Rops n d xs iters first (get_log_bernoullis Rops xs (b_mu Rops s)) s in
  let p := iterated (em d xs) iters (b_pi Rops s, b_mu Rops s) in
  (b_pi Rops r, b_mu Rops r) = p /\
  (iters = 0%nat -> r = s) /\
  (forall m, iters = S m -> let q := iterated (em d xs) m (b_pi Rops s, b_mu Rops s) in
    b_gamma Rops r = map (fun x => map (posterior (fst q) (snd q) x) (seq 0 n)) xs /\
    b_neff Rops r = map (total_weight (fst q) (snd q) xs) (seq 0 n) /\
    b_logL Rops r = mean_log_likelihood (fst p) (snd p) xs /\
    b_old Rops r = (if (Nat.eqb m 0) then (if first then b_old Rops s else b_logL Rops s) else mean_log_likelihood (fst q) (snd q) xs)).
Proof.
  intros Hn Hx Hb. revert first s. induction iters as [|t IH]; intros first s Hc; cbn zeta.
  - cbn [em_loop iterated Nat.iter]. split; [reflexivity|]. split; [reflexivity|]. intros m E. discriminate.
  - cbn [em_loop]. rewrite (em_step_R n d xs first s Hn Hx Hb Hc). cbn zeta. 
    set (pi := b_pi Rops s) in *. set (mu := b_mu Rops s) in *.
    set (s' := Bmm Rops (em_weights pi mu xs) _ _ _ _ _).
    assert (Hc' : current n d xs (b_pi Rops s', b_mu Rops s')) by (apply (em_current n d xs (pi, mu)); auto).
    destruct (IH false s' Hc') as (I1 & I2 & I3). change (em_means d pi mu xs) with (b_mu Rops s').
    assert (It : forall m, iterated (em d xs) m (b_pi Rops s', b_mu Rops s') = iterated (em d xs) (S m) (pi, mu)).
    { intro m. exact (eq_sym (iter_succ_r (em d xs) m (pi, mu))). }
    rewrite It in I1. split; [exact I1|]. split; [discriminate|]. intros m E. inversion E; subst m. destruct t as [|t].
    + rewrite (I2 eq_refl). cbn [s' b_gamma b_neff b_logL b_old iterated Nat.iter Nat.eqb]. repeat split.
    + destruct (I3 t eq_refl) as (J1 & J2 & J3 & J4). rewrite It in J1, J2, J3, J4. split; [exact J1|]. split; [exact J2|]. split; [exact J3|].
      rewrite J4. destruct t as [|t]; reflexivity.
Qed.
