(** Lemmas about fitting a mixture in double precision: how accurate the likelihoods of the samples are. *)
From Coq Require Import List ZArith Reals Bool Lia Lra.
From Flocq Require Import Core Relative IEEE754.BinarySingleNaN.
From Verif.Model Require Import Py Float Clustering Bmm.
From Verif.Spec Require Import RealOps Info BmmSpec IeeeOps IeeeCluster IeeeBmmSpec.
From Verif.Proofs Require BmmP.
From Verif.Proofs Require Import Base EmleP ClusterP IeeeP IeeeInfoP IeeeEmleP IeeeSweepP IeeeDudeP IeeeBmmP IeeeBmmQ IeeeBmmS IeeeBmmT IeeeBmmU IeeeBmmV.
Import ListNotations.
Open Scope R_scope.

(** The two thresholds. *)
Definition T15 : b64 := b64_div (b64_z 1) (b64_z (10 ^ 15)).
Definition T200 : b64 := b64_div (b64_z 1) (b64_z (10 ^ 200)).
Lemma rnd_rel x : bpow radix2 (-1022) <= x -> Rabs (rnd x - x) <= u * x.
Proof.
  intro H. pose proof (bpow_gt_0 radix2 (-1022)) as P. pose proof (relative_error_N_FLT radix2 (-1074) 53 eq_refl (fun z => negb (Z.even z)) x) as E. rewrite (Rabs_pos_eq x) in E by lra. specialize (E H).
  eapply Rle_trans; [exact E|]. apply Rmult_le_compat_r; [lra|]. rewrite u_val. change (bpow radix2 (- (53) + 1)) with (/ 4503599627370496). lra.
Qed.
Lemma literal_spec e : (Z.of_nat e <= 250)%Z -> literal (val (b64_div (b64_z 1) (b64_z (10 ^ Z.of_nat e)))) e.
Proof.
  intro He. destruct one as [F1 V1]. set (T := (10 ^ Z.of_nat e)%Z). assert (ET : IZR T = 10 ^ e) by (unfold T; rewrite <- pow_IZR; reflexivity).
  assert (Ge : 1 <= IZR T) by (rewrite ET; apply pow_R1_Rle; lra).
  assert (Up : IZR T <= bpow radix2 1000).
  { apply Rle_trans with (IZR (10 ^ 250)); [apply IZR_le; unfold T; apply Z.pow_le_mono_r; lia|]. rewrite <- (IZR_Zpower radix2) by lia. apply IZR_le. change (radix2 : Z) with 2%Z. vm_compute. discriminate. }
  destruct (make_spec T 0) as [F V]; [change (bpow radix2 0) with 1; rewrite Rmult_1_r, Rabs_pos_eq by lra; eapply Rle_trans; [exact Up|apply bpow_le; lia]|]. fold (b64_z T) in F, V. change (bpow radix2 0) with 1 in V. rewrite Rmult_1_r in V.
  assert (R1 : Rabs (rnd (IZR T) - IZR T) <= u * IZR T) by (apply rnd_rel; apply Rle_trans with 1; [change 1 with (bpow radix2 0); apply bpow_le; lia|exact Ge]).
  assert (Rg : 1 <= val (b64_z T)) by (rewrite V; apply rnd_ge; [apply fmt_1|exact Ge]). rewrite <- V in R1.
  assert (Up2 : val (b64_z T) <= bpow radix2 1001) by (apply abs_in in R1; rewrite u_val in R1; replace (bpow radix2 1001) with (bpow radix2 1000 * 2) by (change 1001%Z with (1000 + 1)%Z; rewrite bpow_plus; reflexivity); lra).
  set (w := b64_z T) in *. clearbody w. clear V Up. destruct (quot_le (b64_z 1) w F1) as (_ & Q & _); [lra|lra|]. unfold literal. rewrite Q, V1, <- ET. set (t := IZR T) in *. clearbody t. clear Q ET T He F1 F V1. unfold Rdiv. rewrite Rmult_1_l.
  assert (Lo : bpow radix2 (-1001) <= / val w) by (change (-1001)%Z with (- (1001))%Z; rewrite bpow_opp; apply Rinv_le; lra).
  assert (R2 : Rabs (rnd (/ val w) - / val w) <= u * / val w) by (apply rnd_rel; apply Rle_trans with (bpow radix2 (-1001)); [apply bpow_le; lia|exact Lo]). set (y := rnd (/ val w)) in *. clearbody y. clear Lo Up2.
  set (W := val w) in *. clearbody W. change (bpow radix2 (-50)) with (/ 1125899906842624). rewrite u_val in *. apply abs_in in R1. apply abs_in in R2.
  assert (It : 0 < / t) by (apply Rinv_0_lt_compat; lra). assert (Et : t * / t = 1) by (apply Rinv_r; lra). assert (EW : W * / W = 1) by (apply Rinv_r; lra). assert (IW : 0 < / W) by (apply Rinv_0_lt_compat; lra).
  set (a := / t) in *. set (b := / W) in *. clearbody a b. assert (X : (1 - / 4503599627370496) * a <= b <= (1 + / 4503599627370496) * a).
  { assert (AB : 0 < a * b) by (apply Rmult_lt_0_compat; assumption). assert (B1 : (1 - / 9007199254740992) * t * (a * b) <= W * (a * b)) by (apply Rmult_le_compat_r; lra). assert (B2 : W * (a * b) <= (1 + / 9007199254740992) * t * (a * b)) by (apply Rmult_le_compat_r; lra).
    replace (W * (a * b)) with (a * (W * b)) in B1, B2 by ring. replace ((1 - / 9007199254740992) * t * (a * b)) with ((1 - / 9007199254740992) * b * (t * a)) in B1 by ring. replace ((1 + / 9007199254740992) * t * (a * b)) with ((1 + / 9007199254740992) * b * (t * a)) in B2 by ring.
    rewrite EW, Et in B1, B2. lra. }
  apply Rabs_le. lra.
Qed.

(** The largest of a column. *)
Lemma fmaximum_fin l ys : Forall fin ys -> ys <> [] -> let m := fmaximum (Bops l) ys in fin m /\ In m ys /\ forall y, In y ys -> val y <= val m.
Proof.
  assert (X : forall xs, Forall fin xs -> forall a : b64, fin a -> let m := fold_left (nmax (Bops l)) xs a in fin m /\ In m (a :: xs) /\ forall y, In y (a :: xs) -> val y <= val m).
  { intros xs F. induction F as [|b xs Fb F IH]; intros a Fa; [cbn [fold_left]; cbv zeta; split; [exact Fa|split; [left; reflexivity|intros y [<-|[]]; apply Rle_refl]]|].
    assert (E : nmax (Bops l) a b = if Bleb b a then a else b) by (unfold nmax; change (Float.F (Bops l)) with b64; rewrite (isnan_fin l a Fa), (isnan_fin l b Fb); reflexivity). cbn [fold_left].
    assert (Y : fin (nmax (Bops l) a b) /\ (nmax (Bops l) a b = a \/ nmax (Bops l) a b = b) /\ val a <= val (nmax (Bops l) a b) /\ val b <= val (nmax (Bops l) a b)).
    { rewrite E. destruct (Bleb b a) eqn:C; [apply (leb_spec b a Fb Fa) in C; split; [exact Fa|split; [left; reflexivity|lra]]|]. split; [exact Fb|split; [right; reflexivity|]]. destruct (Rle_lt_dec (val b) (val a)) as [Q|Q]; [apply (leb_spec b a Fb Fa) in Q; congruence|lra]. }
    clear E. change (Float.F (Bops l)) with b64 in *. set (c := nmax (Bops l) a b) in *. clearbody c. destruct Y as (Fc & Ec & La & Lb). destruct (IH c Fc) as (I1 & I2 & I3). split; [exact I1|]. split.
    - destruct I2 as [I2|I2]; [|right; right; exact I2]. rewrite <- I2. destruct Ec as [-> | ->]; [left; reflexivity|right; left; reflexivity].
    - specialize (I3 c (or_introl eq_refl)) as I4. intros y [<-|[<-|Hy]]; [lra|lra|]. apply I3. right. exact Hy. }
  intros F H. destruct ys as [|a ys]; [congruence|]. apply Forall_cons_iff in F. destruct F as [Fa F]. exact (X ys F a Fa).
Qed.
Lemma thresholds_order : Bltb (Babs T15) T200 = false.
Proof.
  destruct (e200_bounds rounded) as [F2 B2]. destruct (e15_bounds rounded) as [F15 B15]. change (e200 (Bops rounded)) with T200 in F2, B2. change (e15 (Bops rounded)) with T15 in F15, B15.
  pose proof (literal_spec 15 ltac:(lia)) as L1. pose proof (literal_spec 200 ltac:(lia)) as L2. unfold literal in L1, L2. change (Z.of_nat 15) with 15%Z in L1. change (Z.of_nat 200) with 200%Z in L2. fold T15 in L1. fold T200 in L2.
  set (a := T15) in *. set (b := T200) in *. clearbody a b. assert (Fa : fin (Babs a)) by (unfold fin; rewrite is_finite_Babs; exact F15).
  assert (Va : val (Babs a) = val a) by (unfold val; rewrite B2R_Babs; apply Rabs_pos_eq; pose proof (bpow_ge_0 radix2 (-50)); unfold val in B15; lra).
  destruct (Bltb (Babs a) b) eqn:C2; [|reflexivity]. exfalso. apply (ltb_spec (Babs a) b Fa F2) in C2. rewrite Va in C2.
  assert (P : / 10 ^ 200 <= / 10 ^ 15 * / 1000).
  { rewrite <- Rinv_mult. apply Rinv_le; [apply Rmult_lt_0_compat; [apply pow_lt; lra|lra]|]. apply Rle_trans with (10 ^ 18); [lra|]. apply Rle_pow; [lra|lia]. }
  assert (P0 : 0 < / 10 ^ 200) by (apply Rinv_0_lt_compat, pow_lt; lra). set (p := / 10 ^ 200) in *. clearbody p. set (q := / 10 ^ 15) in *. clearbody q. change (bpow radix2 (-50)) with (/ 1125899906842624) in *. apply abs_in in L1. apply abs_in in L2. lra.
Qed.
Lemma nth_val j (r : list b64) : nth j (map val r) 0 = val (nth j r (b64_z 0)).
Proof. rewrite <- val_0 at 1. apply map_nth. Qed.
Lemma at2_values M k j : at2 (values M) k j = val (nth j (nth k M []) (b64_z 0)).
Proof. unfold at2, values. change (@nil R) with (map val []). rewrite (map_nth (map val)). apply nth_val. Qed.
Lemma column_values M j : column_of (values M) j = map (fun r => val (nth j r (b64_z 0))) M.
Proof. unfold column_of, values. rewrite map_map. apply map_ext. intro r. apply nth_val. Qed.
Lemma place_val l n d M k j : unit_matrix n d M -> (k < n)%nat -> (j < d)%nat ->
  val (place (Bops l) M (nth k M []) j) = kept64 (val T15) (val T200) (column_of (values M) j) (at2 (values M) k j).
Proof.
  intros [Ln H] Hk Hj. rewrite Forall_forall in H. destruct (e200_bounds l) as [F2 B2]. destruct (e15_bounds l) as [F15 B15]. change (e200 (Bops l)) with T200 in F2, B2. change (e15 (Bops l)) with T15 in F15, B15.
  rewrite column_values, at2_values. assert (Ik : In (nth k M []) M) by (apply nth_In; lia). destruct (H _ Ik) as [Lk Uk]. rewrite Forall_forall in Uk. assert (Uj : unit64 (nth j (nth k M []) (b64_z 0))) by (apply Uk, nth_In; lia).
  assert (Fc : Forall fin (fcol (Bops l) M j)).
  { unfold fcol. apply Forall_map, Forall_forall. intros r Ir. destruct (H r Ir) as [Lr Ur]. rewrite Forall_forall in Ur. apply (Ur (nth j r (b64_z 0))), nth_In. exact (eq_ind_r (fun q => (j < q)%nat) Hj Lr). }
  assert (Nc : fcol (Bops l) M j <> []) by (unfold fcol; destruct M; [cbn in Ln; lia|discriminate]).
  destruct (fmaximum_fin l _ Fc Nc) as (Fm & Im & Mx). unfold place. change (e15 (Bops l)) with T15. change (e200 (Bops l)) with T200. change (fz (Bops l) 0) with (b64_z 0).
  change (fle (Bops l) (fmaximum (Bops l) (fcol (Bops l) M j)) T15) with (Bleb (fmaximum (Bops l) (fcol (Bops l) M j)) T15). set (m := fmaximum (Bops l) (fcol (Bops l) M j)) in *.
  change (Float.F (Bops l)) with b64 in *. clearbody m. set (y := nth j (nth k M []) (b64_z 0)) in *. clearbody y. destruct Uj as [Fy By]. cbv zeta. change (flt (Bops l) (fabs (Bops l) ?q) T200) with (Bltb (Babs q) T200).
  unfold kept64. destruct (forallb _ _) eqn:E.
  - assert (C : Bleb m T15 = true).
    { apply (leb_spec m T15 Fm F15). unfold fcol in Im. apply in_map_iff in Im. destruct Im as (r & <- & Ir). rewrite forallb_forall in E. specialize (E (val (nth j r (b64_z 0)))). destruct (Rle_dec (val (nth j r (b64_z 0))) (val T15)) as [Q|Q]; [exact Q|]. discriminate E. apply in_map_iff. exists r. split; [reflexivity|exact Ir]. }
    rewrite C. rewrite thresholds_order. reflexivity.
  - assert (C : Bleb m T15 = false).
    { destruct (Bleb m T15) eqn:C; [|reflexivity]. apply (leb_spec m T15 Fm F15) in C. rewrite <- E. symmetry. apply forallb_forall. intros v Iv. apply in_map_iff in Iv. destruct Iv as (r & <- & Ir). destruct (Rle_dec (val (nth j r (b64_z 0))) (val T15)) as [Q|Q]; [reflexivity|]. exfalso. apply Q.
      eapply Rle_trans; [|exact C]. apply Mx. unfold fcol. apply in_map_iff. exists r. split; [reflexivity|exact Ir]. }
    rewrite C. assert (Fa : fin (Babs y)) by (unfold fin; rewrite is_finite_Babs; exact Fy). assert (Va : val (Babs y) = val y) by (unfold val; rewrite B2R_Babs; apply Rabs_pos_eq; apply By).
    destruct (Bltb (Babs y) T200) eqn:C2.
    + apply (ltb_spec _ _ Fa F2) in C2. rewrite Va in C2. symmetry. apply Rmax_right. lra.
    + symmetry. apply Rmax_left. destruct (Rle_lt_dec (val T200) (val y)) as [Q|Q]; [exact Q|]. rewrite <- Va in Q. apply (ltb_spec _ _ Fa F2) in Q. congruence.
Qed.

(** A sum of logarithms. *)
Lemma Forall2_maps {A B C} (R : B -> C -> Prop) (f : A -> B) (g : A -> C) l : (forall x, In x l -> R (f x) (g x)) -> Forall2 R (map f l) (map g l).
Proof. induction l as [|x l IH]; intro H; cbn; constructor; [apply H; left; reflexivity|apply IH; intros y Hy; apply H; right; exact Hy]. Qed.
Lemma single_err l n d M k b : good_lib l -> unit_matrix n d M -> (k < n)%nat -> (Z.of_nat d <= 2 ^ 14)%Z -> length b = d -> Forall is_bit b ->
  Rabs (val (single l M (nth k M []) b) - Rsum (map (fun j => IZR (nth j b 0%Z) * ln (kept64 (val T15) (val T200) (column_of (values M) j) (at2 (values M) k j))) (seq 0 d))) <= / 45000.
Proof.
  intros G Um Hk Hd Lb Bb. assert (Um' := Um). destruct Um' as [Ln H]. rewrite Forall_forall in H. destruct (H (nth k M []) ltac:(apply nth_In; lia)) as [Lk Uk].
  unfold single. rewrite Lb. change (fmul (Bops l)) with b64_mul. change (fz (Bops l)) with b64_z. change (flog (Bops l)) with (l_log l). unfold fsum. change (fadd (Bops l)) with b64_add. change (fz (Bops l)) with b64_z.
  match goal with |- Rabs (val (fold_left _ ?ys _) - Rsum ?ts) <= _ => pose proof (fold_neg_err 666 (666 * 2 ^ 14) (/ 1000000000000) (/ 800000000) ts ltac:(lia) ltac:(lia) ltac:(lia) ltac:(change (IZR (666 * 2 ^ 14)) with 10911744; rewrite u_val; lra) ys) as X end.
  change (Float.F (Bops l)) with b64 in *.
  match type of X with ?h -> _ => assert (Y : h) end.
  { apply Forall2_maps. intros j Hj. apply in_seq in Hj. rewrite <- (place_val l n d M k j Um Hk ltac:(lia)). destruct (place_bounds l M (nth k M []) j Uk ltac:(lia)) as [Fp Bp]. destruct (log_bounds l 665 _ G ltac:(lia) Fp Bp) as [Fl Bl]. change (665 + 1)%Z with 666%Z in Bl.
    change (Float.F (Bops l)) with b64 in *. set (p := place (Bops l) M (nth k M []) j) in *. clearbody p.
    assert (Hb : is_bit (nth j b 0%Z)) by (rewrite Forall_forall in Bb; apply Bb, nth_In; lia). assert (Pp : 0 < val p) by (pose proof (bpow_gt_0 radix2 (-665)); lra).
    destruct (z_spec (nth j b 0%Z)) as [Fb Vb]; [destruct Hb as [-> | ->]; lia|]. assert (Bg : Rabs (val (l_log l p)) <= 666) by (apply Rabs_le; lra).
    destruct (mul_spec (b64_z (nth j b 0%Z)) (l_log l p) Fb Fl) as [F V]; [rewrite Vb; apply (big_abs _ 666); [lia|]; destruct Hb as [-> | ->]; [rewrite Rmult_0_l, Rabs_R0; lra|rewrite Rmult_1_l; exact Bg]|].
    destruct G as (_ & A & _). destruct (A p Fp Pp) as [_ El]. change (bpow radix2 (-50)) with (/ 1125899906842624) in El.
    assert (Al : Rabs (ln (val p)) <= 665).
    { apply Rabs_le. split; [|apply Rle_trans with (ln 1); [apply ln_le; lra|rewrite ln_1; lra]]. apply Rle_trans with (ln (bpow radix2 (-665))); [|apply ln_le; [apply bpow_gt_0|lra]]. rewrite ln_bpow. pose proof ln2_hi. assert (Q : - (665) <= -665 * ln 2) by lra. exact Q. }
    split; [split; [exact F|]|]; rewrite V, Vb; destruct Hb as [-> | ->]; rewrite ?Rmult_0_l, ?Rmult_1_l, ?rnd_0; try lra.
    - rewrite (rnd_id _ (fmt_val _)). exact Bl.
    - rewrite Rminus_0_r, Rabs_R0. lra.
    - rewrite (rnd_id _ (fmt_val _)). lra. }
  specialize (X Y (b64_z 0) 0 0%Z (zero_bounded 0 ltac:(lia)) ltac:(lia)). rewrite map_length, seq_length in X. specialize (X ltac:(lia)). rewrite val_0, Rminus_0_r, Rabs_R0, !Rplus_0_l in X.
  eapply Rle_trans; [exact X|]. apply IZR_le in Hd. rewrite <- INR_IZR_INZ in Hd. change (IZR (2 ^ 14)) with 16384 in Hd. pose proof (pos_INR d). assert (Z : INR d * (/ 1000000000000 + / 800000000) <= 16384 * (/ 1000000000000 + / 800000000)) by (apply Rmult_le_compat_r; lra). lra.
Qed.

(** The likelihood of a sample under a component. *)
Lemma complements_values l n d mu : unit_matrix n d mu -> values (map (map (fun m => fsub (Bops l) (fz (Bops l) 1) m)) mu) = complements mu.
Proof.
  intros [_ H]. unfold values, complements. rewrite map_map. apply map_ext_in. intros r Ir. rewrite map_map. apply map_ext_in. intros m Im. rewrite Forall_forall in H. destruct (H r Ir) as [_ U]. rewrite Forall_forall in U. destruct (U m Im) as [F B].
  change (fsub (Bops l) (fz (Bops l) 1) m) with (b64_sub (b64_z 1) m). destruct one as [F1 V1]. destruct (sub_spec (b64_z 1) m F1 F) as [_ V]; [rewrite V1; apply (big_abs _ 1); [lia|]; apply Rabs_le; lra|]. rewrite V, V1. reflexivity.
Qed.
Lemma comp_matrix l n d mu : unit_matrix n d mu -> unit_matrix n d (map (map (fun m => fsub (Bops l) (fz (Bops l) 1) m)) mu).
Proof.
  intros [Ln H]. split; [rewrite map_length; exact Ln|]. apply Forall_map. eapply Forall_impl; [|exact H]. intros r [Lr U]. split; [rewrite map_length; exact Lr|apply comp_unit; exact U].
Qed.
Definition LAM (mu : list (list b64)) (x : list Z) (k : nat) : R := Rsum (map (fun j => ln (bit64 (val T15) (val T200) mu k j (nth j x 0%Z))) (seq 0 (length x))).
Lemma lik_err l n d mu x k : good_lib l -> unit_matrix n d mu -> (k < n)%nat -> (Z.of_nat d <= 2 ^ 14)%Z -> length x = d -> Forall is_bit x ->
  Rabs (val (nth k (lik_row l mu x) (b64_z 0)) - LAM mu x k) <= / 16000.
Proof.
  intros G Um Hk Hd Lx Bx. pose proof (comp_matrix l n d mu Um) as Un. set (nmu := map (map (fun m => fsub (Bops l) (fz (Bops l) 1) m)) mu) in *. set (nx := map (fun b => (1 - b)%Z) x).
  assert (Lnx : length nx = d) by (unfold nx; rewrite map_length; exact Lx). pose proof (comp_bits x Bx) as Bn. fold nx in Bn.
  assert (E : nth k (lik_row l mu x) (b64_z 0) = b64_add (single l mu (nth k mu []) x) (single l nmu (nth k nmu []) nx)).
  { unfold lik_row. cbv zeta. rewrite (zip_with_nth b64_add _ _ k (b64_z 0) (b64_z 0)); [|rewrite !map_length; reflexivity|rewrite map_length; destruct Um as [Ln _]; exact (eq_ind_r (fun q => (k < q)%nat) Hk Ln)]. fold nmu. fold nx.
    f_equal; match goal with |- nth k (map ?f ?m) _ = _ => rewrite (nth_indep _ _ (f [])) by (rewrite map_length; first [exact (eq_ind_r (fun q => (k < q)%nat) Hk (proj1 Um))|exact (eq_ind_r (fun q => (k < q)%nat) Hk (proj1 Un))]); rewrite (map_nth f) end; reflexivity. }
  rewrite E. pose proof (single_err l n d mu k x G Um Hk Hd Lx Bx) as E1. pose proof (single_err l n d nmu k nx G Un Hk Hd Lnx Bn) as E2. unfold nmu in E2 at 3 4. rewrite (complements_values l n d mu Um) in E2.
  assert (Um' := Um). destruct Um' as [Ln H]. rewrite Forall_forall in H. destruct (H (nth k mu []) ltac:(apply nth_In; lia)) as [Lk Uk].
  assert (Un' := Un). destruct Un' as [Ln' H']. rewrite Forall_forall in H'. destruct (H' (nth k nmu []) (nth_In nmu [] (eq_ind_r (fun q => (k < q)%nat) Hk Ln'))) as [Lk' Uk'].
  change (Float.F (Bops l)) with b64 in *. assert (SB1 : bounded (666 * Z.of_nat (length (nth k mu []))) (single l mu (nth k mu []) x)) by exact (single_bounds l mu (nth k mu []) x G Uk Bx (eq_trans Lx (eq_sym Lk)) (eq_ind_r (fun q => (Z.of_nat q <= 2 ^ 14)%Z) Hd Lk)).
  assert (SB2 : bounded (666 * Z.of_nat (length (nth k nmu []))) (single l nmu (nth k nmu []) nx)) by exact (single_bounds l nmu (nth k nmu []) nx G Uk' Bn (eq_trans Lnx (eq_sym Lk')) (eq_ind_r (fun q => (Z.of_nat q <= 2 ^ 14)%Z) Hd Lk')).
  rewrite Lk in SB1. rewrite Lk' in SB2. destruct SB1 as [F1 B1]. destruct SB2 as [F2 B2]. set (s1 := single l mu (nth k mu []) x) in *. set (s2 := single l nmu (nth k nmu []) nx) in *. clearbody s1 s2.
  assert (Hd' : 666 * IZR (Z.of_nat d) <= 10911744) by (apply IZR_le in Hd; change (IZR (2 ^ 14)) with 16384 in Hd; lra). rewrite mult_IZR in B1, B2.
  destruct (add_spec s1 s2 F1 F2) as [Fs Vs]; [apply (big_abs _ 22000000); [lia|]; apply Rabs_le; lra|]. rewrite Vs.
  assert (N : Rabs (rnd (val s1 + val s2) - (val s1 + val s2)) <= / 268435456) by (apply (rnd_err _ 22000000); [apply Rabs_le; lra|rewrite u_val; lra]).
  assert (Sp : LAM mu x k = Rsum (map (fun j => IZR (nth j x 0%Z) * ln (kept64 (val T15) (val T200) (column_of (values mu) j) (at2 (values mu) k j))) (seq 0 d)) +
    Rsum (map (fun j => IZR (nth j nx 0%Z) * ln (kept64 (val T15) (val T200) (column_of (complements mu) j) (at2 (complements mu) k j))) (seq 0 d))).
  { unfold LAM. rewrite Lx, <- BmmP.Rsum_plus. f_equal. apply map_ext_in. intros j Hj. apply in_seq in Hj. unfold nx. rewrite (nth_indep (map (fun b => (1 - b)%Z) x) 0%Z (1 - 0)%Z) by (rewrite map_length; lia). rewrite (map_nth (fun b => (1 - b)%Z)).
    unfold bit64. cbv zeta. rewrite Forall_forall in Bx. destruct (Bx (nth j x 0%Z) ltac:(apply nth_In; lia)) as [-> | ->]; cbn [Z.eqb Pos.eqb Z.sub Z.opp Z.add Z.pos_sub]; lra. }
  rewrite Sp. apply abs_in in E1. apply abs_in in E2. apply abs_in in N. apply Rabs_le. lra.
Qed.
Lemma bit64_pos (l : libm) n d mu k j b : unit_matrix n d mu -> (k < n)%nat -> (j < d)%nat -> 0 < bit64 (val T15) (val T200) mu k j b.
Proof.
  intros Um Hk Hj. unfold bit64. cbv zeta. assert (X : forall M, unit_matrix n d M -> 0 < kept64 (val T15) (val T200) (column_of (values M) j) (at2 (values M) k j)).
  { intros M UM. rewrite <- (place_val l n d M k j UM Hk Hj). destruct UM as [Ln H]. rewrite Forall_forall in H. destruct (H (nth k M []) ltac:(apply nth_In; lia)) as [Lk Uk]. destruct (place_bounds l M (nth k M []) j Uk ltac:(lia)) as [_ B]. pose proof (bpow_gt_0 radix2 (-665)). lra. }
  destruct (Z.eqb b 1); [apply X; exact Um|]. rewrite <- (complements_values l n d mu Um). apply X. apply comp_matrix. exact Um.
Qed.
Lemma joint_W (l : libm) n d pi mu x k : unit_matrix n d mu -> (k < n)%nat -> length x = d -> Wk pi (LAM mu x) k = joint64 (val T15) (val T200) pi mu x k.
Proof.
  intros Um Hk Lx. unfold Wk, pk, joint64. f_equal. unfold LAM. rewrite <- BmmP.ln_Rprod; [|intros j Hj; apply in_seq in Hj; apply (bit64_pos l n d); [exact Um|exact Hk|lia]].
  apply exp_ln. assert (X : forall is, (forall j, In j is -> (j < d)%nat) -> 0 < Rprod (map (fun j => bit64 (val T15) (val T200) mu k j (nth j x 0%Z)) is)).
  { induction is as [|j is IH]; intro H; [cbn; lra|]. unfold Rprod in *. cbn [map fold_right]. apply Rmult_lt_0_compat; [apply (bit64_pos l n d); [exact Um|exact Hk|apply H; left; reflexivity]|apply IH; intros i Hi; apply H; right; exact Hi]. }
  apply X. intros j Hj. apply in_seq in Hj. lia.
Qed.
(** The responsibilities and the log-likelihood of one sample. *)
Lemma sample_accurate l n d xs pi mu x : good_lib l -> accurate_exp l -> data_sizes n d xs -> good_params n d pi mu -> In x xs ->
  Rabs (val (zed l pi mu x) - ln (mixture64 (val T15) (val T200) pi mu x)) <= / 4096 /\
  (forall k, (k < n)%nat -> Rabs (val (nth k (gam l pi mu x) (b64_z 0)) - posterior64 (val T15) (val T200) pi mu x k) <= / 2048) /\
  Rabs (Rsum (map (fun k => val (nth k (gam l pi mu x) (b64_z 0))) (seq 0 n)) - 1) <= / 1048576.
Proof.
  intros G A D (Lp & Up & Pp & Um) I. destruct D as (D1 & D2 & D3 & D4 & D5 & D6 & D7). rewrite Forall_forall in D7. destruct (D7 x I) as [Lx Bx].
  destruct (lik_row_ok l n d mu x G Um Lx Bx D4) as [Lr Br].
  destruct (row_accurate l n pi (lik_row l mu x) (LAM mu x) G A Lp Lr D2 Up Pp Br (fun k Hk => lik_err l n d mu x k G Um Hk D4 Lx Bx)) as (_ & R1 & R2 & R3).
  assert (E : Rsum (map (Wk pi (LAM mu x)) (seq 0 n)) = mixture64 (val T15) (val T200) pi mu x).
  { unfold mixture64. rewrite Lp. f_equal. apply map_ext_in. intros k Hk. apply in_seq in Hk. apply (joint_W l n d); [exact Um|lia|exact Lx]. }
  rewrite E in R1, R2. split; [exact R1|]. split; [|exact R3]. intros k Hk. specialize (R2 k Hk). rewrite (joint_W l n d pi mu x k Um Hk Lx) in R2. exact R2.
Qed.
