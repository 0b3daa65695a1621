(** Lemmas about fitting a mixture in double precision: the responsibilities of one sample. *)
From Coq Require Import List ZArith Reals Bool Lia Lra.
From Flocq Require Import Core Relative IEEE754.BinarySingleNaN.
From Verif.Model Require Import Py Float Clustering Bmm.
From Verif.Spec Require Import RealOps Info IeeeOps IeeeCluster IeeeBmmSpec.
From Verif.Proofs Require Import Base EmleP IeeeP IeeeInfoP IeeeEmleP IeeeSweepP IeeeDudeP IeeeBmmP.
Import ListNotations.
Open Scope R_scope.

Definition LB : Z := 22000000.
Definition LA : Z := 22002000.
(** The likelihoods of a sample. *)
Lemma comp_bits x : Forall is_bit x -> Forall is_bit (map (fun b => 1 - b)%Z x).
Proof. intro H. apply Forall_map. eapply Forall_impl; [|exact H]. intros b [-> | ->]; [right|left]; reflexivity. Qed.
Lemma comp_unit l row : Forall unit64 row -> Forall unit64 (map (fun m => fsub (Bops l) (fz (Bops l) 1) m) row).
Proof.
  intro H. apply Forall_map. eapply Forall_impl; [|exact H]. intros m [F B]. change (fsub (Bops l) (fz (Bops l) 1) m) with (b64_sub (b64_z 1) m). destruct one as [F1 V1].
  destruct (sub_spec (b64_z 1) m F1 F) as [G V]; [rewrite V1; apply (big_abs _ 1); [lia|]; apply Rabs_le; lra|]. split; [exact G|]. rewrite V, V1. split; [apply rnd_ge; [apply fmt_0|lra]|apply rnd_le'; [apply fmt_1|lra]].
Qed.
Definition lik_row (l : libm) (mu : list (list b64)) (x : list Z) : list b64 :=
  zip_with b64_add (map (fun row => fsum (Bops l) (map (fun j => fmul (Bops l) (fz (Bops l) (nth j x 0%Z)) (flog (Bops l) (place (Bops l) mu row j))) (seq 0 (length x)))) mu)
    (let nmu := map (map (fun m => fsub (Bops l) (fz (Bops l) 1) m)) mu in let nx := map (fun b => 1 - b)%Z x in
     map (fun row => fsum (Bops l) (map (fun j => fmul (Bops l) (fz (Bops l) (nth j nx 0%Z)) (flog (Bops l) (place (Bops l) nmu row j))) (seq 0 (length nx)))) nmu).
Lemma zip_with_map' {A B C D} (f : B -> C -> D) (g : A -> B) (h : A -> C) l : zip_with f (map g l) (map h l) = map (fun x => f (g x) (h x)) l.
Proof. unfold zip_with. induction l as [|x l IH]; cbn; [reflexivity|]. f_equal. exact IH. Qed.
Lemma lb_rows l xs mu : get_log_bernoullis (Bops l) xs mu = map (lik_row l mu) xs.
Proof. unfold get_log_bernoullis, get_save_single. rewrite map_map. rewrite zip_with_map'. reflexivity. Qed.
Lemma lik_row_ok l n d mu x : good_lib l -> unit_matrix n d mu -> length x = d -> Forall is_bit x -> (Z.of_nat d <= 2 ^ 14)%Z ->
  length (lik_row l mu x) = n /\ Forall (bounded LB) (lik_row l mu x).
Proof.
  intros G [Ln Hmu] Lx Bx Hd. unfold lik_row. cbv zeta. rewrite map_map, zip_with_map'. split; [rewrite map_length; exact Ln|]. apply Forall_map. eapply Forall_impl; [|exact Hmu].
  intros row [Lr Ur]. assert (E1 : length (map (fun b => 1 - b)%Z x) = length (map (fun m : b64 => fsub (Bops l) (fz (Bops l) 1) m) row)) by (rewrite !map_length; lia).
  assert (E2 : (Z.of_nat (length (map (fun m : b64 => fsub (Bops l) (fz (Bops l) 1%Z) m) row)) <= 2 ^ 14)%Z) by (rewrite map_length, Lr; exact Hd). pose proof (single_bounds l mu row x G Ur Bx ltac:(lia) ltac:(lia)) as [F1 B1].
  pose proof (single_bounds l (map (map (fun m => fsub (Bops l) (fz (Bops l) 1) m)) mu) (map (fun m => fsub (Bops l) (fz (Bops l) 1) m) row) (map (fun b => 1 - b)%Z x) G (comp_unit l row Ur) (comp_bits x Bx) E1 E2) as [F2 B2].
  rewrite (map_length _ row) in B2. change (Float.F (Bops l)) with b64 in B1, B2. rewrite Lr in B1, B2. change (Float.F (Bops l)) with b64 in F1, F2. cbv beta. revert F1 B1 F2 B2.
  change (Float.F (Bops l)) with b64. match goal with |- fin ?a -> _ -> fin ?b -> _ -> _ => generalize a b end. intros s1 s2 F1 B1 F2 B2.
  assert (Hd' : 666 * IZR (Z.of_nat d) <= 10911744) by (apply IZR_le in Hd; change (IZR (2 ^ 14)) with 16384 in Hd; lra). rewrite mult_IZR in B1, B2.
  destruct (add_spec s1 s2 F1 F2) as [Fs Vs]; [apply (big_abs _ 22000000); [lia|]; apply Rabs_le; lra|]. split; [exact Fs|]. rewrite Vs. unfold LB.
  split; [|apply rnd_le'; [apply fmt_0|lra]]. apply rnd_ge; [rewrite <- opp_IZR; apply fmt_IZR; lia|lra].
Qed.

(** The exponents: finite, or -inf for a component of weight 0. *)
Definition low (x : b64) : Prop := bounded LA x \/ x = minus_inf.
Lemma pos_min x : fin x -> 0 < val x -> bpow radix2 (-1074) <= val x.
Proof.
  intros F P. destruct x as [s|s| |s m e B]; try discriminate F; [unfold val in P; cbn in P; lra|]. pose proof (abs_B2R_ge_emin 53 1024 (B754_finite s m e B) eq_refl) as H. unfold val in *. rewrite Rabs_pos_eq in H by lra. exact H.
Qed.
Definition expo (l : libm) (p v : b64) : b64 := b64_add (l_log l p) v.
Lemma expo_low l p v : good_lib l -> unit64 p -> bounded LB v -> (0 < val p -> bounded LA (expo l p v)) /\ (val p = 0 -> expo l p v = minus_inf).
Proof.
  intros G [Fp Bp] [Fv Bv]. unfold expo. split; intro H.
  - destruct (log_bounds l 1074 p G ltac:(lia) Fp ltac:(split; [apply (pos_min p Fp H)|lra])) as [Fl Bl]. change (1074 + 1)%Z with 1075%Z in Bl. unfold LB, LA in *.
    destruct (add_spec (l_log l p) v Fl Fv) as [Fs Vs]; [apply (big_abs _ 22002000); [lia|]; apply Rabs_le; lra|]. split; [exact Fs|]. rewrite Vs.
    split; [apply rnd_ge; [rewrite <- opp_IZR; apply fmt_IZR; lia|lra]|apply rnd_le'; [apply fmt_0|lra]].
  - destruct G as (_ & _ & _ & _ & _ & _ & G). rewrite (G p Fp H). apply minf_add. exact Fv.
Qed.

(** The largest exponent. *)
Lemma leb_minf x : fin x -> Bleb minus_inf x = true.
Proof. intro F. destruct x as [s|s| |[|] m e B]; try discriminate F; reflexivity. Qed.
Lemma leb_minf' x : fin x -> Bleb x minus_inf = false.
Proof. intro F. destruct x as [s|s| |[|] m e B]; try discriminate F; reflexivity. Qed.
Lemma minf_not_fin : ~ fin minus_inf.
Proof. discriminate. Qed.
Lemma nmax_low l a b : low a -> low b -> nmax (Bops l) a b = (if Bleb b a then a else b).
Proof.
  intros Ha Hb. unfold nmax. assert (N : forall x, low x -> isnan (Bops l) x = false) by (intros x [[F _]| ->]; [apply isnan_fin; exact F|reflexivity]). rewrite (N a Ha), (N b Hb). reflexivity.
Qed.
Lemma fold_nmax l xs : Forall low xs -> forall a, low a -> let m := fold_left (nmax (Bops l)) xs a in
  low m /\ In m (a :: xs) /\ (forall x, In x (a :: xs) -> fin x -> fin m /\ val x <= val m).
Proof.
  intro F. induction F as [|b xs Hb F IH]; intros a Ha m.
  - subst m. cbn [fold_left]. split; [exact Ha|]. split; [left; reflexivity|]. intros x [<-|[]] Fx. split; [exact Fx|lra].
  - assert (E : low (nmax (Bops l) a b) /\ (nmax (Bops l) a b = a \/ nmax (Bops l) a b = b) /\ (forall x, x = a \/ x = b -> fin x -> fin (nmax (Bops l) a b) /\ val x <= val (nmax (Bops l) a b))).
    { rewrite (nmax_low l a b Ha Hb). change (Float.F (Bops l)) with b64 in *. destruct Ha as [[Fa Ra]| ->], Hb as [[Fb Rb]| ->].
      - destruct (Bleb b a) eqn:E.
        + apply (leb_spec b a Fb Fa) in E. split; [left; split; assumption|]. split; [left; reflexivity|]. intros x [-> | ->] _; (split; [exact Fa|lra]).
        + assert (val a <= val b). { destruct (Rle_lt_dec (val b) (val a)) as [L|L]; [|lra]. apply (leb_spec b a Fb Fa) in L. congruence. }
          split; [left; split; assumption|]. split; [right; reflexivity|]. intros x [-> | ->] _; (split; [exact Fb|lra]).
      - rewrite (leb_minf a Fa). split; [left; split; assumption|]. split; [left; reflexivity|]. intros x [-> | ->] Fx; [split; [exact Fa|lra]|destruct (minf_not_fin Fx)].
      - rewrite (leb_minf' b Fb). split; [left; split; assumption|]. split; [right; reflexivity|]. intros x [-> | ->] Fx; [destruct (minf_not_fin Fx)|split; [exact Fb|lra]].
      - change (Bleb minus_inf minus_inf) with true. split; [right; reflexivity|]. split; [left; reflexivity|]. intros x [-> | ->] Fx; destruct (minf_not_fin Fx). }
    destruct E as (E1 & E2 & E3). destruct (IH (nmax (Bops l) a b) E1) as (I1 & I2 & I3).
    change (fold_left (nmax (Bops l)) xs (nmax (Bops l) a b)) with m in I1, I2, I3. change (Float.F (Bops l)) with b64 in *. clearbody m. set (c := nmax (Bops l) a b) in *. clearbody c.
    split; [exact I1|]. split.
    + destruct I2 as [<-|I2]; [|right; right; exact I2]. destruct E2 as [-> | ->]; [left; reflexivity|right; left; reflexivity].
    + intros x Hx Fx. assert (C : (x = a \/ x = b) \/ In x xs) by (destruct Hx as [<-|[<-|Hx]]; tauto). destruct C as [C|C]; [|apply I3; [right; exact C|exact Fx]].
      destruct (E3 x C Fx) as [Fc Lc]. destruct (I3 c (or_introl eq_refl) Fc) as [Fm Lm]. split; [exact Fm|lra].
Qed.
Lemma fmaximum_low l xs x : Forall low xs -> In x xs -> fin x -> let m := fmaximum (Bops l) xs in bounded LA m /\ In m xs /\ forall y, In y xs -> fin y -> val y <= val m.
Proof.
  intros F I Fx m. destruct xs as [|a xs]; [contradiction|]. apply Forall_cons_iff in F. destruct F as [Fa F]. destruct (fold_nmax l xs F a Fa) as (H1 & H2 & H3). change (fold_left (nmax (Bops l)) xs a) with m in *.
  destruct (H3 x I Fx) as [Fm _]. split; [destruct H1 as [H1|H1]; [exact H1|rewrite H1 in Fm; destruct (minf_not_fin Fm)]|]. split; [exact H2|]. intros y Iy Fy. apply H3; assumption.
Qed.

(** exp *)
Lemma exp_unit l x : good_lib l -> fin x -> val x <= 0 -> unit64 (l_exp l x).
Proof.
  intros (G & _) F H. destruct (G x (fin_not_nan x F)) as (A & B & _). destruct (B F H) as [Fe Le]. split; [exact Fe|]. split; [|exact Le]. destruct A as [A|A]; [rewrite A in Fe; discriminate Fe|apply A].
Qed.
Lemma exp_one l x : good_lib l -> fin x -> val x = 0 -> fin (l_exp l x) /\ val (l_exp l x) = 1.
Proof.
  intros (G & _) F H. destruct (G x (fin_not_nan x F)) as (_ & B & C). destruct (B F ltac:(lra)) as [Fe Le]. split; [exact Fe|]. destruct (C F ltac:(lra)) as [C'|C']; [rewrite C' in Fe; discriminate Fe|lra].
Qed.
Lemma low_sub_exp l a z : good_lib l -> low a -> fin z -> Rabs (val z) <= 2 ^ 30 -> (fin a -> val a <= val z) -> unit64 (l_exp l (b64_sub a z)) /\ (a = minus_inf -> l_exp l (b64_sub a z) = b64_z 0).
Proof.
  intros G [[Fa Ra]| ->] Fz Bz Le.
  - split; [|intro E; rewrite E in Fa; destruct (minf_not_fin Fa)]. specialize (Le Fa). unfold LA in *. apply abs_in in Bz.
    destruct (sub_spec a z Fa Fz) as [F V]; [apply (big_abs _ (2 ^ 31)); [lia|]; apply Rabs_le; change (IZR (2 ^ 31)) with 2147483648; lra|]. apply exp_unit; [exact G|exact F|]. rewrite V. apply rnd_le'; [apply fmt_0|lra].
  - rewrite (minf_sub z Fz). destruct G as (_ & _ & _ & G & _). rewrite G. destruct (z_spec 0) as [F V]; [lia|]. split; [split; [exact F|rewrite V; lra]|reflexivity].
Qed.
Lemma unit_within x : unit64 x <-> within 1 x.
Proof. split; intros [F B]; split; try exact F; lra. Qed.
Lemma ln_1024 : ln 1024 <= 7.2.
Proof.
  replace 1024 with (bpow radix2 10) by reflexivity. rewrite ln_bpow. assert (L : ln 2 <= 18 / 25); [|lra].
  rewrite <- (ln_exp (18 / 25)). apply ln_le; [lra|]. replace (18 / 25) with (9 / 25 + 9 / 25) by lra. rewrite exp_plus. replace (9 / 25) with (9 / 50 + 9 / 50) by lra. rewrite exp_plus.
  replace (9 / 50) with (9 / 100 + 9 / 100) by lra. rewrite exp_plus. replace (9 / 100) with (9 / 200 + 9 / 200) by lra. rewrite exp_plus. pose proof (exp_ineq1_le (9 / 200)) as H. set (e := exp (9 / 200)) in *. clearbody e.
  assert (H2 : 1.092 <= e * e) by nra. set (e2 := e * e) in *. clearbody e2. assert (H4 : 1.192 <= e2 * e2) by nra. set (e4 := e2 * e2) in *. clearbody e4. assert (H8 : 1.42 <= e4 * e4) by nra. nra.
Qed.

(** logsumexp of exponents one of which is finite: at least the largest, and at most 8 above it. *)
Lemma logsumexp_low l xs x : good_lib l -> Forall low xs -> (Z.of_nat (length xs) <= 2 ^ 10)%Z -> In x xs -> fin x ->
  exists m z, logsumexp (Bops l) xs = z /\ In m xs /\ bounded LA m /\ (forall y, In y xs -> fin y -> val y <= val m) /\ fin z /\ val m <= val z <= val m + 8.
Proof.
  intros G F Hn I Fx. destruct (fmaximum_low l xs x F I Fx) as (Bm & Im & Mx). set (m := fmaximum (Bops l) xs) in *. exists m, (logsumexp (Bops l) xs). split; [reflexivity|]. split; [exact Im|]. split; [exact Bm|]. split; [exact Mx|].
  unfold logsumexp. change (fmaximum (Bops l) xs) with m. cbv zeta. change (Float.F (Bops l)) with b64 in *. rewrite (isfinite_fin l m (proj1 Bm)). clearbody m. destruct Bm as [Fm Rm]. unfold LA in Rm.
  change (fadd (Bops l)) with b64_add. change (flog (Bops l)) with (l_log l). change (fexp (Bops l)) with (l_exp l). change (fsub (Bops l)) with b64_sub.
  assert (W : Forall (within 1) (map (fun y => l_exp l (b64_sub y m)) xs)).
  { apply Forall_map. apply Forall_forall. intros y Iy. apply unit_within. apply low_sub_exp; [exact G|rewrite Forall_forall in F; apply F; exact Iy|exact Fm|apply Rabs_le; lra|apply Mx; exact Iy]. }
  destruct (fsum_spec l 1 _ ltac:(lia) W) as [[Fs Rs] Ls]; [rewrite map_length; lia|]. rewrite map_length in Rs. change (Float.F (Bops l)) with b64 in *. set (s := fsum (Bops l) _) in *. clearbody s.
  assert (S1 : 1 <= val s).
  { destruct (sub_spec m m Fm Fm) as [F0 V0]; [rewrite Rminus_diag_eq, Rabs_R0 by reflexivity; apply Rlt_le, big_pos|]. rewrite Rminus_diag_eq, rnd_0 in V0 by reflexivity.
    destruct (exp_one l _ G F0 V0) as [_ V1]. rewrite <- V1. apply Ls. apply in_map_iff. exists m. split; [reflexivity|exact Im]. }
  assert (S2 : val s <= 1024) by (apply IZR_le in Hn; change (IZR (2 ^ 10)) with 1024 in Hn; rewrite Z.mul_1_l in Rs; lra).
  destruct G as (_ & A & _). destruct (A s Fs ltac:(lra)) as [Fl El].
  assert (L0 : 0 <= ln (val s)) by (rewrite <- ln_1; apply ln_le; lra). assert (L7 : ln (val s) <= 7.2) by (apply Rle_trans with (ln 1024); [apply ln_le; lra|apply ln_1024]).
  rewrite (Rabs_pos_eq _ L0) in El. apply abs_in in El. change (bpow radix2 (-50)) with (/ 1125899906842624) in El.
  assert (R : 0 <= val (l_log l s) <= 7.5) by lra. set (g := l_log l s) in *. clearbody g.
  destruct (add_spec g m Fl Fm) as [Fz Vz]; [apply (big_abs _ 30000000); [lia|]; apply Rabs_le; lra|]. split; [exact Fz|]. rewrite Vz. split; [apply rnd_ge; [apply fmt_val|lra]|].
  pose proof (rnd_near (val g + val m)) as N. apply abs_in in N. assert (Q : Rabs (val g + val m) <= 30000000) by (apply Rabs_le; lra). rewrite u_val in N. pose proof (Rabs_pos (val g + val m)). lra.
Qed.
Lemma exp_m8 : bpow radix2 (-13) <= exp (-8).
Proof.
  replace (-8) with (- (8)) by lra. rewrite exp_Ropp. change (bpow radix2 (-13)) with (/ 8192). apply Rinv_le; [apply exp_pos|]. assert (E : exp 8 = exp 1 ^ 8) by (replace 8 with (1 + 1 + 1 + 1 + 1 + 1 + 1 + 1) by lra; rewrite !exp_plus; ring). rewrite E. pose proof exp_le_3. pose proof (exp_pos 1). apply Rle_trans with (3 ^ 8); [apply pow_incr; lra|lra].
Qed.

(** The responsibilities for one sample: in [0,1], 0 for components of weight 0, and one of them at least 2^-14. *)
Lemma resp_row l ps row : good_lib l -> Forall unit64 ps -> Exists (fun p => 0 < val p) ps -> length row = length ps -> (Z.of_nat (length ps) <= 2 ^ 10)%Z -> Forall (bounded LB) row ->
  let z := logsumexp (Bops l) (zip_with (expo l) ps row) in let g := zip_with (fun p v => l_exp l (b64_sub (expo l p v) z)) ps row in
  around LA z /\ Forall unit64 g /\ (exists k, (k < length ps)%nat /\ bpow radix2 (-14) <= val (nth k g (b64_z 0))) /\ (forall k, (k < length ps)%nat -> val (nth k ps (b64_z 0)) = 0 -> val (nth k g (b64_z 0)) = 0).
Proof.
  intros G U P L Hn B z g. pose (d0 := b64_z 0).
  assert (Nu : forall k, (k < length ps)%nat -> unit64 (nth k ps d0)) by (intros k Hk; rewrite Forall_forall in U; apply U, nth_In; exact Hk).
  assert (Nb : forall k, (k < length ps)%nat -> bounded LB (nth k row d0)) by (intros k Hk; rewrite Forall_forall in B; apply B, nth_In; lia).
  assert (Ne : forall k, (k < length ps)%nat -> nth k (zip_with (expo l) ps row) d0 = expo l (nth k ps d0) (nth k row d0)) by (intros k Hk; apply zip_with_nth; [lia|exact Hk]).
  assert (Le : length (zip_with (expo l) ps row) = length ps) by (rewrite zip_with_length; lia).
  assert (Lo : forall k, (k < length ps)%nat -> low (expo l (nth k ps d0) (nth k row d0))).
  { intros k Hk. destruct (expo_low l _ _ G (Nu k Hk) (Nb k Hk)) as [X Y]. destruct (Nu k Hk) as [_ [R _]]. destruct R as [R|R]; [left; apply X; exact R|right; apply Y; symmetry; exact R]. }
  assert (FL : Forall low (zip_with (expo l) ps row)).
  { apply Forall_forall. intros y Iy. destruct (In_nth _ _ d0 Iy) as (k & Hk & <-). rewrite Le in Hk. rewrite (Ne k Hk). apply Lo. exact Hk. }
  apply Exists_exists in P. destruct P as (p & Ip & Pp). destruct (In_nth _ _ d0 Ip) as (k0 & Hk0 & E0). rewrite <- E0 in Pp.
  destruct (expo_low l _ _ G (Nu k0 Hk0) (Nb k0 Hk0)) as [X0 _]. specialize (X0 Pp).
  destruct (logsumexp_low l (zip_with (expo l) ps row) (expo l (nth k0 ps d0) (nth k0 row d0)) G FL) as (m & z' & Ez & Im & [Fm Rm] & Mx & Fz & Rz).
  { rewrite Le. exact Hn. } { rewrite <- (Ne k0 Hk0). apply nth_In. rewrite Le. exact Hk0. } { apply X0. }
  change (z = z') in Ez. assert (Ez' : z' = z) by (symmetry; exact Ez). rewrite Ez' in Fz, Rz. clear z' Ez Ez'. unfold LA in Rm.
  assert (Ng : forall k, (k < length ps)%nat -> nth k g d0 = l_exp l (b64_sub (expo l (nth k ps d0) (nth k row d0)) z)).
  { intros k Hk. unfold g. apply (zip_with_nth (fun p v => l_exp l (b64_sub (expo l p v) z)) ps row k d0 d0); [lia|exact Hk]. }
  assert (Lg : length g = length ps) by (unfold g; rewrite zip_with_length; lia).
  clearbody z. clearbody g. 
  assert (Az : Rabs (val z) <= 22002000) by (apply Rabs_le; lra).
  assert (Sub : forall k, (k < length ps)%nat -> unit64 (nth k g d0) /\ (expo l (nth k ps d0) (nth k row d0) = minus_inf -> nth k g d0 = b64_z 0)).
  { intros k Hk. rewrite (Ng k Hk). apply low_sub_exp; [exact G|apply Lo; exact Hk|exact Fz|lra|]. intro Fk. apply Rle_trans with (val m); [|apply Rz]. apply Mx; [|exact Fk]. rewrite <- (Ne k Hk). apply nth_In. lia. }
  split; [split; [exact Fz|exact Az]|]. split; [|split].
  - apply Forall_forall. intros y Iy. destruct (In_nth _ _ d0 Iy) as (k & Hk & <-). apply Sub. lia.
  - destruct (In_nth _ _ d0 Im) as (k & Hk & Ek). rewrite Le in Hk. exists k. split; [exact Hk|]. fold d0. rewrite (Ng k Hk). rewrite (Ne k Hk) in Ek. rewrite Ek.
    destruct (sub_spec m z Fm Fz) as [Fs Vs]; [apply (big_abs _ 60000000); [lia|]; apply abs_in in Az; apply Rabs_le; lra|].
    assert (Rs : -8 <= val (b64_sub m z) <= 0) by (rewrite Vs; split; [apply rnd_ge; [apply (fmt_IZR (-8)); lia|lra]|apply rnd_le'; [apply fmt_0|lra]]).
    destruct G as (_ & _ & Ge & _). specialize (Ge _ Fs ltac:(lra)). eapply Rle_trans; [|exact Ge]. change (-14)%Z with (-13 + -1)%Z. rewrite bpow_plus. change (bpow radix2 (-1)) with (/ 2). apply Rmult_le_compat_r; [lra|].
    apply Rle_trans with (exp (-8)); [apply exp_m8|]. destruct Rs as [[Q|Q] _]; [left; apply exp_increasing; exact Q|right; rewrite Q; reflexivity].
  - intros k Hk Zk. destruct (Sub k Hk) as [_ S0]. fold d0. rewrite S0; [apply val_0|]. apply (expo_low l _ _ G (Nu k Hk) (Nb k Hk)). exact Zk.
Qed.
