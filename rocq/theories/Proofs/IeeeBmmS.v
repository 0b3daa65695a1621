(** Lemmas about fitting a mixture in double precision: the steps of the loop. *)
From Coq Require Import List ZArith Reals Bool Lia Lra.
From Flocq Require Import Core Relative IEEE754.BinarySingleNaN.
From Verif.Model Require Import Py Float Clustering Bmm.
From Verif.Spec Require Import RealOps Info IeeeOps IeeeCluster IeeeBmmSpec.
From Verif.Proofs Require Import Base EmleP IeeeP IeeeInfoP IeeeEmleP IeeeSweepP IeeeDudeP IeeeBmmP IeeeBmmQ.
Import ListNotations.
Open Scope R_scope.

Definition good_params (n d : nat) (pi : list b64) (mu : list (list b64)) : Prop := length pi = n /\ Forall unit64 pi /\ Exists (fun p => 0 < val p) pi /\ unit_matrix n d mu.

Section Loop.
Variables (l : libm) (n d : nat) (xs : list (list Z)).
Hypothesis G : good_lib l.
Hypothesis D : data_sizes n d xs.
Notation O := (Bops l).
Notation N := (length xs).
Notation LBS mu := (get_log_bernoullis O xs mu).

Definition zed (pi : list b64) (mu : list (list b64)) (x : list Z) : b64 := logsumexp O (zip_with (expo l) pi (lik_row l mu x)).
Definition gam (pi : list b64) (mu : list (list b64)) (x : list Z) : list b64 := zip_with (fun p v => l_exp l (b64_sub (expo l p v) (zed pi mu x))) pi (lik_row l mu x).
Lemma sll_map pi mu : sample_log_likelihood O pi (LBS mu) = map (zed pi mu) xs.
Proof. rewrite lb_rows. unfold sample_log_likelihood. rewrite map_map. reflexivity. Qed.
Lemma gamma_map pi mu : get_responsibilities O pi (LBS mu) = map (gam pi mu) xs.
Proof. unfold get_responsibilities. rewrite sll_map. rewrite lb_rows. rewrite zip_with_map'. reflexivity. Qed.

Lemma estep pi mu x : good_params n d pi mu -> In x xs -> around LA (zed pi mu x) /\ length (gam pi mu x) = n /\ Forall unit64 (gam pi mu x) /\
  (exists k, (k < n)%nat /\ bpow radix2 (-14) <= val (nth k (gam pi mu x) (b64_z 0))) /\ (forall k, (k < n)%nat -> val (nth k pi (b64_z 0)) = 0 -> val (nth k (gam pi mu x) (b64_z 0)) = 0).
Proof.
  intros (Lp & Up & Pp & Um) I. destruct D as (D1 & D2 & D3 & D4 & D5 & D6 & D7). rewrite Forall_forall in D7. destruct (D7 x I) as [Lx Bx].
  destruct (lik_row_ok l n d mu x G Um Lx Bx D4) as [Lr Br]. assert (Q1 : length (lik_row l mu x) = length pi) by lia. assert (Q2 : (Z.of_nat (length pi) <= 2 ^ 10)%Z) by lia.
  destruct (resp_row l pi (lik_row l mu x) G Up Pp Q1 Q2 Br) as (R1 & R2 & R3 & R4). rewrite Lp in R3, R4. fold (zed pi mu x) in R1, R2, R3, R4. fold (gam pi mu x) in R2, R3, R4.
  split; [exact R1|]. split; [unfold gam; rewrite zip_with_length; lia|]. split; [exact R2|]. split; [exact R3|exact R4].
Qed.
Lemma N_pos : (1 <= N)%nat.
Proof. destruct D as (_ & _ & _ & _ & H & _). destruct xs; [congruence|cbn; lia]. Qed.
Lemma N_spec : fin (b64_z (Z.of_nat N)) /\ val (b64_z (Z.of_nat N)) = IZR (Z.of_nat N) /\ 1 <= IZR (Z.of_nat N) <= 1048576.
Proof.
  pose proof N_pos. destruct D as (_ & _ & _ & _ & _ & H6 & _). destruct (z_spec (Z.of_nat N)) as [F V]; [lia|]. split; [exact F|]. split; [exact V|]. split; [apply IZR_le; lia|]. change 1048576 with (IZR (2 ^ 20)). apply IZR_le. exact H6.
Qed.
Lemma ll_fin pi mu : good_params n d pi mu -> fin (log_likelihood O pi (LBS mu)).
Proof.
  intro H. unfold log_likelihood, fmean. rewrite sll_map, map_length. change (fdiv O) with b64_div. change (fz O) with b64_z. destruct N_spec as (Fn & Vn & Rn).
  assert (A : Forall (around LA) (map (zed pi mu) xs)) by (apply Forall_map, Forall_forall; intros x Hx; apply (estep pi mu x H Hx)).
  destruct D as (_ & _ & _ & _ & _ & D6 & _). destruct (fsum_around l LA _ ltac:(unfold LA; lia) A) as [Fs Rs]; [rewrite map_length; unfold LA; lia|]. rewrite map_length in Rs.
  change (Float.F O) with b64 in *. set (s := fsum O _) in *. clearbody s. apply div_spec; [exact Fs|lra|]. rewrite Vn. unfold LA in Rs. rewrite mult_IZR in Rs.
  unfold Rdiv. rewrite Rabs_mult. rewrite (Rabs_pos_eq (/ _)) by (left; apply Rinv_0_lt_compat; lra).
  apply Rle_trans with 22002000; [|change 22002000 with (IZR 22002000); rewrite <- (Rabs_pos_eq (IZR 22002000)) by lra; apply big_Z; lia].
  apply (Rmult_le_reg_r (IZR (Z.of_nat N))); [lra|]. rewrite Rmult_assoc, Rinv_l by lra. lra.
Qed.

(** ** The M step *)
Notation gk pi mu k := (fun x => nth k (gam pi mu x) (b64_z 0)).
Lemma neff_eq pi mu k : (k < n)%nat -> nth k (get_neff O n (map (gam pi mu) xs)) (b64_z 0) = sum64 (map (gk pi mu k) xs).
Proof.
  intro H. unfold get_neff. rewrite (nth_indep _ _ ((fun k => fsum O (fcol O (map (gam pi mu) xs) k)) 0%nat)) by (rewrite map_length, seq_length; exact H).
  rewrite (map_nth (fun k => fsum O (fcol O (map (gam pi mu) xs) k))), seq_nth by exact H. unfold fcol. rewrite map_map. reflexivity.
Qed.
Lemma gk_unit pi mu k x : good_params n d pi mu -> (k < n)%nat -> In x xs -> unit64 (gk pi mu k x).
Proof. intros H Hk I. destruct (estep pi mu x H I) as (_ & L & U & _). rewrite Forall_forall in U. apply U, nth_In. lia. Qed.
Lemma neff_spec pi mu k : good_params n d pi mu -> (k < n)%nat -> fin (sum64 (map (gk pi mu k) xs)) /\ 0 <= val (sum64 (map (gk pi mu k) xs)) <= IZR (Z.of_nat N) /\
  (forall x, In x xs -> val (gk pi mu k x) <= val (sum64 (map (gk pi mu k) xs))).
Proof.
  intros H Hk. assert (W : Forall (within 1) (map (gk pi mu k) xs)) by (apply Forall_map, Forall_forall; intros x Hx; apply unit_within; apply gk_unit; assumption).
  destruct D as (_ & _ & _ & _ & _ & D6 & _). destruct (fsum_spec l 1 _ ltac:(lia) W) as [[Fs Rs] Ls]; [rewrite map_length; lia|]. rewrite map_length, Z.mul_1_l in Rs. split; [exact Fs|]. split; [exact Rs|].
  intros x Hx. apply Ls. apply in_map_iff. exists x. split; [reflexivity|exact Hx].
Qed.
Lemma neff_zero pi mu k : good_params n d pi mu -> (k < n)%nat -> (val (sum64 (map (gk pi mu k) xs)) = 0 <-> forall x, In x xs -> val (gk pi mu k x) = 0).
Proof.
  intros H Hk. split; intro Z.
  - intros x Hx. destruct (neff_spec pi mu k H Hk) as (_ & _ & L). specialize (L x Hx). destruct (gk_unit pi mu k x H Hk Hx) as [_ B]. lra.
  - destruct (z_spec 0) as [F V]; [lia|]. destruct (fold_zeros (map (gk pi mu k) xs) (b64_z 0) F) as [_ E]; [rewrite V, Rabs_R0; apply Rlt_le, big_pos| |unfold sum64; rewrite E; exact V].
    apply Forall_map, Forall_forall. intros x Hx. split; [apply (gk_unit pi mu k x H Hk Hx)|apply Z; exact Hx].
Qed.
(** The share of the samples whose bit is set. *)
Definition has (j : nat) (x : list Z) : bool := Z.eqb (nth j x 0%Z) 1.
Definition tk (pi : list b64) (mu : list (list b64)) (k j : nat) (x : list Z) : b64 := b64_mul (gk pi mu k x) (b64_z (nth j x 0%Z)).
Lemma x_bit j x : In x xs -> (j < d)%nat -> is_bit (nth j x 0%Z).
Proof. intros I Hj. destruct D as (_ & _ & _ & _ & _ & _ & D7). rewrite Forall_forall in D7. destruct (D7 x I) as [Lx Bx]. rewrite Forall_forall in Bx. apply Bx, nth_In. lia. Qed.
Lemma tk_spec pi mu k j x : good_params n d pi mu -> (k < n)%nat -> (j < d)%nat -> In x xs -> fin (tk pi mu k j x) /\ val (tk pi mu k j x) = if has j x then val (gk pi mu k x) else 0.
Proof.
  intros H Hk Hj I. destruct (gk_unit pi mu k x H Hk I) as [Fg Bg]. unfold tk, has. pose proof (x_bit j x I Hj) as B. destruct (z_spec (nth j x 0%Z)) as [Fb Vb]; [destruct B as [-> | ->]; lia|].
  destruct (mul_spec (gk pi mu k x) (b64_z (nth j x 0%Z)) Fg Fb) as [F V].
  - rewrite Vb. apply (big_abs _ 1); [lia|]. destruct B as [-> | ->]; apply Rabs_le; lra.
  - split; [exact F|]. rewrite V, Vb. destruct B as [-> | ->]; cbn [Z.eqb Pos.eqb]; [rewrite Rmult_0_r; apply rnd_0|rewrite Rmult_1_r; apply rnd_id, fmt_val].
Qed.
Lemma fold_parts (f g : list Z -> b64) (p : list Z -> bool) ys : (forall x, In x ys -> fin (f x) /\ unit64 (g x) /\ val (f x) = if p x then val (g x) else 0) ->
  forall a b c k, within k a -> within k b -> within k c -> val a = val b -> val a <= val c -> (0 <= k)%Z -> (k + Z.of_nat (length ys) <= 2 ^ 53)%Z ->
  fin (fold_left b64_add (map f ys) a) /\ 0 <= val (fold_left b64_add (map f ys) a) <= val (fold_left b64_add (map g ys) c) /\
  val (fold_left b64_add (map f ys) a) = val (fold_left b64_add (map g (filter p ys)) b).
Proof.
  induction ys as [|x ys IH]; intros H a b c k Ha Hb Hc Eab Lac Hk B.
  - cbn [map filter fold_left]. split; [apply Ha|]. split; [split; [apply Ha|exact Lac]|exact Eab].
  - destruct (H x (or_introl eq_refl)) as (Ff & [Fg Bg] & E). cbn [length] in B. assert (Bk : (k + 1 <= 2 ^ 53)%Z) by lia.
    assert (St : forall u v : b64, within k u -> fin v -> 0 <= val v <= 1 -> fin (b64_add u v) /\ val (b64_add u v) = rnd (val u + val v) /\ within (k + 1) (b64_add u v)).
    { intros u v [Fu Bu] Fv Bv. destruct (add_spec u v Fu Fv) as [Fs Vs]; [apply (big_abs _ (k + 1)); [lia|]; rewrite plus_IZR; apply Rabs_le; lra|]. split; [exact Fs|]. split; [exact Vs|]. split; [exact Fs|]. rewrite Vs.
      split; [apply rnd_ge; [apply fmt_0|lra]|]. apply rnd_le'; [apply fmt_IZR; lia|]. rewrite plus_IZR. lra. }
    assert (Bf : 0 <= val (f x) <= 1) by (rewrite E; destruct (p x); lra).
    destruct (St a (f x) Ha Ff Bf) as (_ & V1 & W1). destruct (St c (g x) Hc Fg Bg) as (_ & V3 & W3). destruct (St b (g x) Hb Fg Bg) as (_ & V2 & W2).
    assert (Wk : within (k + 1) b) by (destruct Hb as [Fb Rb]; split; [exact Fb|rewrite plus_IZR; lra]).
    cbn [map filter fold_left]. assert (Lc : val (b64_add a (f x)) <= val (b64_add c (g x))) by (rewrite V1, V3; apply rnd_le; rewrite E; destruct (p x); lra).
    destruct (p x) eqn:Ep.
    + cbn [map fold_left]. apply (IH (fun y Hy => H y (or_intror Hy)) _ _ _ (k + 1)%Z W1 W2 W3); [rewrite V1, V2, E, Eab; reflexivity|exact Lc|lia|lia].
    + apply (IH (fun y Hy => H y (or_intror Hy)) _ _ _ (k + 1)%Z W1 Wk W3); [rewrite V1, E, Rplus_0_r, <- Eab; apply rnd_id, fmt_val|exact Lc|lia|lia].
Qed.
Lemma num_spec pi mu k j : good_params n d pi mu -> (k < n)%nat -> (j < d)%nat -> let A := sum64 (map (tk pi mu k j) xs) in
  fin A /\ 0 <= val A <= val (sum64 (map (gk pi mu k) xs)) /\ val A = val (sum64 (map (gk pi mu k) (filter (has j) xs))).
Proof.
  intros H Hk Hj A. destruct D as (_ & _ & _ & _ & _ & D6 & _).
  apply (fold_parts (tk pi mu k j) (gk pi mu k) (has j) xs (fun x Hx => conj (proj1 (tk_spec pi mu k j x H Hk Hj Hx)) (conj (gk_unit pi mu k x H Hk Hx) (proj2 (tk_spec pi mu k j x H Hk Hj Hx))))
    (b64_z 0) (b64_z 0) (b64_z 0) 0%Z); try (apply zero_within); try lia; try reflexivity; lra.
Qed.
Lemma mu_nth neff pi mu k j : (k < n)%nat -> (j < d)%nat -> nth j (nth k (get_mu O n d xs (map (gam pi mu) xs) neff) []) (b64_z 0) = b64_div (sum64 (map (tk pi mu k j) xs)) (nth k neff (b64_z 0)).
Proof.
  intros Hk Hj. unfold get_mu. change (Float.F O) with b64.
  match goal with |- nth j (nth k (map ?f _) []) _ = _ => rewrite (nth_indep _ [] (f 0%nat)) by (rewrite map_length, seq_length; exact Hk); rewrite (map_nth f), seq_nth by exact Hk end.
  match goal with |- nth j (map ?f _) _ = _ => rewrite (nth_indep _ _ (f 0%nat)) by (rewrite map_length, seq_length; exact Hj); rewrite (map_nth f), seq_nth by exact Hj end.
  cbn [Nat.add]. change (fdiv O) with b64_div. f_equal. change (fsum O ?v) with (sum64 v). f_equal.
  rewrite <- (map_id xs) at 2. rewrite zip_with_map'. reflexivity.
Qed.
Lemma mu_shape neff pi mu : length (get_mu O n d xs (map (gam pi mu) xs) neff) = n /\ Forall (fun r => length r = d) (get_mu O n d xs (map (gam pi mu) xs) neff).
Proof.
  unfold get_mu. split; [rewrite map_length, seq_length; reflexivity|]. apply Forall_map, Forall_forall. intros k _. rewrite map_length, seq_length. reflexivity.
Qed.

(** ** A component without samples *)
Lemma isnan_inv x : isnan O x = true -> x = nan.
Proof.
  intro H. destruct x as [s|[|]| |s m e B]; try reflexivity; exfalso; try (destruct s; discriminate H); try discriminate H.
  rewrite (isnan_fin l (B754_finite s m e B) eq_refl) in H. discriminate H.
Qed.
Lemma fold_nmax_nan ys : fold_left (nmax O) ys nan = nan.
Proof. induction ys as [|y ys IH]; [reflexivity|]. cbn [fold_left]. exact IH. Qed.
Lemma fold_nmax_in ys a : In nan ys -> fold_left (nmax O) ys a = nan.
Proof.
  revert a. induction ys as [|y ys IH]; intros a H; [contradiction|]. cbn [fold_left]. destruct H as [-> |H]; [|apply IH; exact H].
  replace (nmax O a nan) with nan; [apply fold_nmax_nan|]. unfold nmax. change (Float.F O) with b64 in *. destruct (isnan O a) eqn:E; [symmetry; apply isnan_inv; exact E|reflexivity].
Qed.
Lemma fmaximum_nan ys : In nan ys -> fmaximum O ys = nan.
Proof. destruct ys as [|y ys]; [contradiction|]. intros [-> |H]; [apply fold_nmax_nan|apply fold_nmax_in; exact H]. Qed.
Lemma lik_nan mu k x : (k < length mu)%nat -> (1 <= d)%nat -> length x = d -> (forall j, (j < d)%nat -> nth j (nth k mu []) (b64_z 0) = nan) -> nth k (lik_row l mu x) (b64_z 0) = nan.
Proof.
  intros Hk Hd Lx Hn. unfold lik_row. cbv zeta. rewrite map_map, zip_with_map'. change (Float.F O) with b64.
  match goal with |- nth k (map ?f _) _ = _ => rewrite (nth_indep _ _ (f [])) by (rewrite map_length; exact Hk); rewrite (map_nth f) end.
  match goal with |- b64_add (fsum O ?v) _ = _ => assert (I : In nan v) end.
  { apply in_map_iff. exists 0%nat. split; [|apply in_seq; lia]. change (fmul O) with b64_mul. change (flog O) with (l_log l). rewrite <- (mul_nan_r (b64_z (nth 0 x 0%Z))). f_equal.
    destruct G as (_ & _ & _ & _ & _ & G6 & _). rewrite <- G6. f_equal. unfold place.
    assert (M : fmaximum O (fcol O mu 0) = nan) by (apply fmaximum_nan; unfold fcol; apply in_map_iff; exists (nth k mu []); split; [apply Hn; lia|apply nth_In; exact Hk]).
    rewrite M. change (fle O nan (e15 O)) with false. cbv beta iota zeta. change (fz O 0) with (b64_z 0). change (Float.F O) with b64. rewrite (Hn 0%nat ltac:(lia)). reflexivity. }
  change (Float.F O) with b64 in *. rewrite (fsum_nan l _ I). reflexivity.
Qed.
Lemma zed_nan pi mu k x : length pi = n -> length mu = n -> (k < n)%nat -> nth k (lik_row l mu x) (b64_z 0) = nan -> length (lik_row l mu x) = n -> zed pi mu x = nan.
Proof.
  intros Lp Lm Hk Hn Lr. unfold zed. assert (I : In nan (zip_with (expo l) pi (lik_row l mu x))).
  { assert (E : nth k (zip_with (expo l) pi (lik_row l mu x)) (b64_z 0) = nan) by (rewrite (zip_with_nth (expo l) pi (lik_row l mu x) k (b64_z 0) (b64_z 0)) by lia; rewrite Hn; apply add_nan_r).
    rewrite <- E. apply nth_In. rewrite zip_with_length. lia. }
  unfold logsumexp. change (Float.F O) with b64. rewrite (fmaximum_nan _ I). cbv zeta. rewrite isfinite_nan. change (fadd O) with b64_add. change (flog O) with (l_log l). change (fexp O) with (l_exp l). change (fsub O) with b64_sub. change (fz O 0) with (b64_z 0).
  rewrite fsum_nan; [|apply in_map_iff; exists nan; split; [|exact I]; rewrite sub_nan_l; destruct G as (_ & _ & _ & _ & G5 & _); exact G5]. destruct G as (_ & _ & _ & _ & _ & G6 & _). rewrite G6. reflexivity.
Qed.
Lemma lik_row_length mu x : length (lik_row l mu x) = length mu.
Proof. unfold lik_row. cbv zeta. rewrite map_map, zip_with_map', map_length. reflexivity. Qed.
Lemma ll_nan pi mu k : length pi = n -> length mu = n -> (k < n)%nat -> (forall j, (j < d)%nat -> nth j (nth k mu []) (b64_z 0) = nan) -> log_likelihood O pi (LBS mu) = nan.
Proof.
  intros Lp Lm Hk Hn. unfold log_likelihood, fmean. rewrite sll_map. destruct D as (D1 & D2 & D3 & D4 & D5 & D6 & D7). change (fdiv O) with b64_div. rewrite fsum_nan; [reflexivity|].
  destruct xs as [|x ys] eqn:E; [congruence|]. cbn [map]. left. apply Forall_cons_iff in D7. destruct D7 as [[Lx _] _]. apply (zed_nan pi mu k x Lp Lm Hk); [apply lik_nan; [lia|exact D3|exact Lx|exact Hn]|]. rewrite lik_row_length. exact Lm.
Qed.

(** ** One iteration *)
Notation Neff pi mu := (get_neff O n (map (gam pi mu) xs)).
Notation Mu pi mu := (get_mu O n d xs (map (gam pi mu) xs) (Neff pi mu)).
Notation Pi pi mu := (get_pi O xs (Neff pi mu)).
Definition emptied (pi : list b64) (mu : list (list b64)) (k : nat) : Prop := forall x, In x xs -> val (gk pi mu k x) = 0.
Lemma pi_nth pi mu k : (k < n)%nat -> nth k (Pi pi mu) (b64_z 0) = b64_div (sum64 (map (gk pi mu k) xs)) (b64_z (Z.of_nat N)).
Proof.
  intro Hk. unfold get_pi. change (fdiv O) with b64_div. change (fz O) with b64_z. change (Float.F O) with b64.
  rewrite (nth_indep _ _ (b64_div (b64_z 0) (b64_z (Z.of_nat N)))) by (rewrite map_length; unfold get_neff; rewrite map_length, seq_length; exact Hk).
  rewrite (map_nth (fun v => b64_div v (b64_z (Z.of_nat N)))). f_equal. apply neff_eq. exact Hk.
Qed.
Lemma pi_length pi mu : length (Pi pi mu) = n.
Proof. unfold get_pi, get_neff. rewrite !map_length, seq_length. reflexivity. Qed.
Lemma pi_spec pi mu k : good_params n d pi mu -> (k < n)%nat -> unit64 (nth k (Pi pi mu) (b64_z 0)) /\ val (nth k (Pi pi mu) (b64_z 0)) = rnd (val (sum64 (map (gk pi mu k) xs)) / IZR (Z.of_nat N)).
Proof.
  intros H Hk. rewrite (pi_nth pi mu k Hk). destruct (neff_spec pi mu k H Hk) as (F & B & _). destruct N_spec as (Fn & Vn & Rn). rewrite <- Vn in *.
  destruct (quot_le (sum64 (map (gk pi mu k) xs)) (b64_z (Z.of_nat N)) F B ltac:(lra)) as (Q1 & Q2 & Q3). split; [split; assumption|exact Q2].
Qed.
Lemma mu_spec pi mu k j : good_params n d pi mu -> (k < n)%nat -> (j < d)%nat -> 0 < val (sum64 (map (gk pi mu k) xs)) ->
  unit64 (nth j (nth k (Mu pi mu) []) (b64_z 0)) /\ val (nth j (nth k (Mu pi mu) []) (b64_z 0)) = rnd (val (sum64 (map (gk pi mu k) (filter (has j) xs))) / val (sum64 (map (gk pi mu k) xs))).
Proof.
  intros H Hk Hj P. rewrite (mu_nth _ pi mu k j Hk Hj), (neff_eq pi mu k Hk). destruct (num_spec pi mu k j H Hk Hj) as (F & B & E).
  destruct (quot_le _ _ F B P) as (Q1 & Q2 & Q3). split; [split; assumption|]. rewrite Q2, E. reflexivity.
Qed.
Lemma some_or_all (P Q : nat -> Prop) m : (forall k, (k < m)%nat -> P k \/ Q k) -> (exists k, (k < m)%nat /\ P k) \/ forall k, (k < m)%nat -> Q k.
Proof.
  induction m as [|m IH]; intro H; [right; intros k Hk; lia|]. destruct IH as [(k & Hk & Pk)|A]; [intros k Hk; apply H; lia|left; exists k; split; [lia|exact Pk]|].
  destruct (H m ltac:(lia)) as [Pm|Qm]; [left; exists m; split; [lia|exact Pm]|right]. intros k Hk. destruct (Nat.eq_dec k m) as [-> |Ne]; [exact Qm|apply A; lia].
Qed.
Lemma empty_or_all pi mu : good_params n d pi mu -> (exists k, (k < n)%nat /\ emptied pi mu k) \/ forall k, (k < n)%nat -> 0 < val (sum64 (map (gk pi mu k) xs)).
Proof.
  intro H. apply some_or_all. intros k Hk. destruct (neff_spec pi mu k H Hk) as (_ & [[B|B] _] & _); [right; exact B|left]. unfold emptied. apply (neff_zero pi mu k H Hk). symmetry. exact B.
Qed.
Lemma step_good pi mu : good_params n d pi mu -> (forall k, (k < n)%nat -> 0 < val (sum64 (map (gk pi mu k) xs))) -> good_params n d (Pi pi mu) (Mu pi mu).
Proof.
  intros H P. split; [apply pi_length|]. split; [|split].
  - apply Forall_forall. intros y Iy. destruct (In_nth _ _ (b64_z 0) Iy) as (k & Hk & <-). rewrite pi_length in Hk. apply (pi_spec pi mu k H Hk).
  - assert (Hx : exists x, In x xs) by (pose proof N_pos; destruct xs as [|x ys]; [cbn in *; lia|exists x; left; reflexivity]). destruct Hx as [x Ix].
    destruct (estep pi mu x H Ix) as (_ & _ & _ & (k & Hk & Bk) & _). apply Exists_exists. exists (nth k (Pi pi mu) (b64_z 0)). split; [apply nth_In; rewrite pi_length; exact Hk|].
    destruct (pi_spec pi mu k H Hk) as [_ ->]. destruct (neff_spec pi mu k H Hk) as (_ & _ & L). specialize (L x Ix). destruct N_spec as (_ & _ & Rn).
    apply Rlt_le_trans with (bpow radix2 (-34)); [apply bpow_gt_0|]. apply rnd_ge; [apply generic_format_bpow; unfold FLT_exp; lia|].
    apply (Rmult_le_reg_r (IZR (Z.of_nat N))); [lra|]. unfold Rdiv. rewrite Rmult_assoc, Rinv_l by lra. rewrite Rmult_1_r. apply Rle_trans with (bpow radix2 (-14)); [|lra].
    change (bpow radix2 (-34)) with (/ 17179869184). change (bpow radix2 (-14)) with (/ 16384). lra.
  - destruct (mu_shape (Neff pi mu) pi mu) as [S1 S2]. split; [exact S1|]. apply Forall_forall. intros r Ir. rewrite Forall_forall in S2. pose proof (S2 r Ir) as Lr. split; [exact Lr|].
    destruct (In_nth _ _ [] Ir) as (k & Hk & E). change (Float.F O) with b64 in *. rewrite S1 in Hk. rewrite <- E in *. apply Forall_forall. intros y Iy. destruct (In_nth _ _ (b64_z 0) Iy) as (j & Hj & <-). rewrite Lr in Hj.
    apply (mu_spec pi mu k j H Hk Hj (P k Hk)).
Qed.
Lemma mu_empty pi mu k j : good_params n d pi mu -> (k < n)%nat -> (j < d)%nat -> emptied pi mu k -> nth j (nth k (Mu pi mu) []) (b64_z 0) = nan.
Proof.
  intros H Hk Hj E. rewrite (mu_nth _ pi mu k j Hk Hj), (neff_eq pi mu k Hk). apply (neff_zero pi mu k H Hk) in E. destruct (num_spec pi mu k j H Hk Hj) as (F & B & _). destruct (neff_spec pi mu k H Hk) as (F' & _).
  apply zero_div_zero; [exact F|exact F'| |exact E]. rewrite E in B. lra.
Qed.
Lemma step_stop first (s : bmm O) k : good_params n d (b_pi O s) (b_mu O s) -> (k < n)%nat -> emptied (b_pi O s) (b_mu O s) k ->
  exists lb' old ll, em_step O n d xs first (LBS (b_mu O s)) s = (true, lb', Bmm O (b_pi O s) (b_mu O s) (map (gam (b_pi O s) (b_mu O s)) xs) (Neff (b_pi O s) (b_mu O s)) old ll) /\ fin ll.
Proof.
  intros H Hk E. unfold em_step. rewrite gamma_map.
  assert (X : log_likelihood O (Pi (b_pi O s) (b_mu O s)) (LBS (Mu (b_pi O s) (b_mu O s))) = nan).
  { apply (ll_nan _ _ k); [apply pi_length|apply mu_shape|exact Hk|]. intros j Hj. apply mu_empty; assumption. }
  rewrite X. cbv beta iota zeta. rewrite isnan_nan. eexists _, _, _. split; [reflexivity|]. apply ll_fin. exact H.
Qed.
Lemma step_on first (s : bmm O) : good_params n d (b_pi O s) (b_mu O s) -> (forall k, (k < n)%nat -> 0 < val (sum64 (map (gk (b_pi O s) (b_mu O s) k) xs))) ->
  exists old ll, em_step O n d xs first (LBS (b_mu O s)) s = (false, LBS (Mu (b_pi O s) (b_mu O s)), Bmm O (Pi (b_pi O s) (b_mu O s)) (Mu (b_pi O s) (b_mu O s)) (map (gam (b_pi O s) (b_mu O s)) xs) (Neff (b_pi O s) (b_mu O s)) old ll) /\ fin ll.
Proof.
  intros H P. pose proof (ll_fin _ _ (step_good _ _ H P)) as Fl. unfold em_step. rewrite gamma_map. cbv zeta. change (Float.F O) with b64 in *. rewrite (isnan_fin l _ Fl). eexists _, _. split; [reflexivity|exact Fl].
Qed.

(** ** The loop *)
Definition conf : Type := bool * bool * list (list b64) * bmm O.
Definition adv (c : conf) : conf := let '(stop, first, lb, s) := c in if stop then c else let '(st, lb', s') := em_step O n d xs first lb s in (st, false, lb', s').
Lemma iter_shift {A} (f : A -> A) m x : Nat.iter m f (f x) = f (Nat.iter m f x).
Proof. induction m as [|m IH]; [reflexivity|]. cbn [Nat.iter nat_rect]. unfold Nat.iter in *. cbn. rewrite IH. reflexivity. Qed.
Lemma iter_stop m first lb s : Nat.iter m adv (true, first, lb, s) = (true, first, lb, s).
Proof. induction m as [|m IH]; [reflexivity|]. change (Nat.iter (S m) adv ?x) with (adv (Nat.iter m adv x)). rewrite IH. reflexivity. Qed.
Lemma loop_iter m : forall first lb s, em_loop O n d xs m first lb s = snd (Nat.iter m adv (false, first, lb, s)).
Proof.
  induction m as [|m IH]; intros first lb s; [reflexivity|]. change (Nat.iter (S m) adv ?x) with (adv (Nat.iter m adv x)). rewrite <- iter_shift. cbn [em_loop adv].
  destruct (em_step O n d xs first lb s) as [[st lb'] s'] eqn:E. destruct st; [rewrite iter_stop; reflexivity|apply IH].
Qed.

(** What holds of the state in every iteration. *)
Definition made (s : bmm O) (pi : list b64) (mu : list (list b64)) : Prop := b_gamma O s = map (gam pi mu) xs.
Definition invariant (c : conf) : Prop := let '(stop, first, lb, s) := c in
  good_params n d (b_pi O s) (b_mu O s) /\ (stop = false -> lb = LBS (b_mu O s)) /\ (first = true -> stop = false) /\
  (first = false -> fin (b_logL O s) /\ exists pi mu, good_params n d pi mu /\ made s pi mu /\ (if stop then pi = b_pi O s /\ mu = b_mu O s /\ exists k, (k < n)%nat /\ emptied pi mu k else forall k, (k < n)%nat -> 0 < val (sum64 (map (gk pi mu k) xs)))).
Lemma adv_invariant c : invariant c -> invariant (adv c) /\
  (let '(stop, _, _, s) := c in let '(stop', first', _, s') := adv c in
   first' = false /\ b_gamma O s' = map (gam (b_pi O s) (b_mu O s)) xs /\ if stop' then b_pi O s' = b_pi O s /\ b_mu O s' = b_mu O s
            else stop = false /\ b_pi O s' = Pi (b_pi O s) (b_mu O s) /\ b_mu O s' = Mu (b_pi O s) (b_mu O s)).
Proof.
  destruct c as [[[stop first] lb] s]. intros (I1 & I2 & I3 & I4). unfold adv. destruct stop.
  - assert (first = false) by (destruct first; [discriminate (I3 eq_refl)|reflexivity]). subst first. split; [split; [exact I1|split; [exact I2|split; [exact I3|exact I4]]]|]. split; [reflexivity|]. destruct (I4 eq_refl) as (_ & pi & mu & _ & E & -> & -> & _). split; [exact E|]. split; reflexivity.
  - rewrite (I2 eq_refl). destruct (empty_or_all _ _ I1) as [(k & Hk & E)|P].
    + destruct (step_stop first s k I1 Hk E) as (lb' & old & ll & -> & Fl). split; [|split; [reflexivity|split; [reflexivity|split; reflexivity]]]. split; [exact I1|]. split; [discriminate|]. split; [discriminate|]. intros _. split; [exact Fl|].
      exists (b_pi O s), (b_mu O s). split; [exact I1|]. split; [reflexivity|]. split; [reflexivity|]. split; [reflexivity|]. exists k. split; assumption.
    + destruct (step_on first s I1 P) as (old & ll & -> & Fl). split; [|split; [reflexivity|split; [reflexivity|split; [reflexivity|split; reflexivity]]]].
      split; [apply step_good; assumption|]. split; [reflexivity|]. split; [discriminate|]. intros _. split; [exact Fl|]. exists (b_pi O s), (b_mu O s). split; [exact I1|]. split; [reflexivity|exact P].
Qed.
End Loop.
