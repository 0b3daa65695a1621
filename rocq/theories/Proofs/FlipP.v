(** Lemmas about the samples and priors for bit flipping decoders. *)
From Coq Require Import List ZArith Arith Bool Lia Reals Lra.
From Verif.Model Require Import Py Float InfoTheory Clustering DecoderBase ClassDecoder.
From Verif.Spec Require Import RealOps Info Cluster Stats EmleSpec DecoderSpec WeightedSpec ClassSpec FlipSpec.
From Verif.Proofs Require Import Base RealP StatReal EmleP DecoderP EntropyDecP WeightedP ClassP.
Import ListNotations.
Local Close Scope R_scope.

Lemma fsign_R x : fsign Rops x = sgn x.
Proof. unfold fsign, sgn. cbn [flt fz Rops]. change (IZR 0) with 0%R. destruct (Rlt_dec 0 x), (Rlt_dec x 0); unfold Rltb; destruct (Rlt_dec _ _); try lra; try reflexivity; destruct (Rlt_dec _ _); try lra; reflexivity. Qed.

Lemma peak_ex l : l <> [] -> exists p, pymax Rops (map (fabs Rops) l) = Ok p /\ peak l p.
Proof. intro H. destruct (pymax_R (map Rabs l)) as (p & E & Lp); [destruct l; [contradiction|discriminate]|]. exists p. split; [exact E|exact Lp]. Qed.

Lemma peak_nonneg l p : peak l p -> (0 <= p)%R.
Proof. intros [I _]. apply in_map_iff in I. destruct I as (x & <- & _). apply Rabs_pos. Qed.

Lemma peak_scaled l p t : (0 <= t)%R -> peak l p -> peak (map (fun x => (x * t)%R) l) (p * t).
Proof.
  intros Ht [I Fa]. split.
  - apply in_map_iff in I. destruct I as (x & <- & Hx). apply in_map_iff. exists (x * t)%R. split; [rewrite Rabs_mult, (Rabs_right t); [reflexivity|lra]|]. apply in_map_iff. eauto.
  - rewrite map_map. apply Forall_forall. intros y Hy. apply in_map_iff in Hy. destruct Hy as (x & <- & Hx). rewrite Rabs_mult, (Rabs_right t) by lra. apply Rmult_le_compat_r; [exact Ht|].
    rewrite Forall_forall in Fa. apply Fa. apply in_map. exact Hx.
Qed.

Lemma scale_down_R limit l p : peak l p -> scale_down Rops limit l = Ok (if Rlt_dec 0 p then if Rlt_dec limit p then map (fun x => (x * (limit / p))%R) l else l else l).
Proof.
  intro P. unfold scale_down. assert (E : pymax Rops (map (fabs Rops) l) = Ok p) by (apply pymax_largest; exact P). change (F Rops) with R in *. rewrite E. cbn [bind flt fz Rops]. change (IZR 0) with 0%R. unfold Rltb.
  destruct (Rlt_dec 0 p); [|reflexivity]. cbn [andb]. destruct (Rlt_dec limit p); reflexivity.
Qed.

(** Two limits in turn are the smaller of both at once. *)
Lemma scale_twice a b l p : (0 < a)%R -> peak l p -> exists out, (do! q <- scale_down Rops a l in scale_down Rops b q) = Ok out /\ scaled_to a b l out.
Proof.
  intros Ha P. rewrite (scale_down_R a l p P). cbn [bind]. pose proof (peak_nonneg l p P) as Hp. unfold scaled_to. destruct (Rlt_dec 0 p) as [Hq|Hq].
  - assert (Key : forall t, (0 < t)%R -> t = Rmin 1 (a / p) ->
      exists out, scale_down Rops b (map (fun x => (x * t)%R) l) = Ok out /\ out = map (fun x => (x * Rmin 1 (Rmin (a / p) (b / p)))%R) l).
    { intros t Ht Et. rewrite (scale_down_R b _ (p * t)); [|apply peak_scaled; [lra|exact P]]. eexists. split; [reflexivity|]. destruct (Rlt_dec 0 (p * t)) as [_|N]; [|exfalso; apply N; apply Rmult_lt_0_compat; assumption].
      assert (Em : Rmin 1 (Rmin (a / p) (b / p)) = Rmin t (b / p)) by (rewrite Et, Rmin_assoc; reflexivity). rewrite Em. destruct (Rlt_dec b (p * t)) as [Lb|Lb].
      - rewrite map_map. apply map_ext. intro x. rewrite Rmin_right.
        + field. lra.
        + apply Rmult_le_reg_r with p; [exact Hq|]. unfold Rdiv. rewrite Rmult_assoc, Rinv_l by lra. lra.
      - apply map_ext. intro x. rewrite Rmin_left; [reflexivity|]. apply Rmult_le_reg_r with p; [exact Hq|]. unfold Rdiv. rewrite Rmult_assoc, Rinv_l by lra. lra. }
    assert (D : (0 < a / p)%R) by (apply Rdiv_lt_0_compat; assumption).
    destruct (Rlt_dec a p) as [L|L].
    + destruct (Key (a / p)%R D) as (out & E & Q); [|exists out; split; [exact E|exists p; split; [exact P|]; destruct (Rlt_dec 0 p); [exact Q|contradiction]]].
      rewrite Rmin_right; [reflexivity|]. apply Rmult_le_reg_r with p; [exact Hq|]. unfold Rdiv. rewrite Rmult_assoc, Rinv_l by lra. lra.
    + destruct (Key 1%R ltac:(lra)) as (out & E & Q); [|exists out; split; [|exists p; split; [exact P|]; destruct (Rlt_dec 0 p); [exact Q|contradiction]]].
      * rewrite Rmin_left; [reflexivity|]. apply Rmult_le_reg_r with p; [exact Hq|]. unfold Rdiv. rewrite Rmult_assoc, Rinv_l by lra. lra.
      * rewrite <- E. f_equal. transitivity (map (fun x : R => x) l); [symmetry; apply map_id|]. apply map_ext. intro. lra.
  - rewrite (scale_down_R b l p P). destruct (Rlt_dec 0 p); [contradiction|]. eexists. split; [reflexivity|]. exists p. split; [exact P|]. destruct (Rlt_dec 0 p); [contradiction|].
    transitivity (map (fun x : R => x) l); [symmetry; apply map_id|]. apply map_ext. intro. lra.
Qed.

Lemma zip_with_nth (f : R -> R -> R) a b i : length a = length b -> f 0%R 0%R = 0%R -> nth i (zip_with f a b) 0%R = f (nth i a 0%R) (nth i b 0%R).
Proof.
  intros L Z0. revert b i L. induction a as [|x a IH]; intros [|y b] i L; cbn in L; try discriminate; [destruct i; cbn; symmetry; exact Z0|]. destruct i; cbn; [reflexivity|]. apply IH. lia.
Qed.
Lemma zip_with_len (f : R -> R -> R) a b : length a = length b -> length (zip_with f a b) = length a.
Proof. intro L. unfold zip_with. rewrite map_length, combine_length. lia. Qed.

Lemma zeros_map (l : list R) : map (fun _ => fz Rops 0) l = repeat 0%R (length l).
Proof. induction l as [|x l IH]; [reflexivity|]. cbn [map length repeat]. rewrite IH. reflexivity. Qed.

(** The samples, priors and bits for every method. *)
Lemma samples_prepared c models m0 ps0 word help sm priors : holds m0 ps0 -> (ps0 = [] \/ length ps0 = length (cd_idx Rops c)) -> NoDup (cd_idx Rops c) -> Forall (fun i => i < length word) (cd_idx Rops c) ->
  Forall (fun b => b <> []) (em_data m0) -> index models 0 = Ok m0 -> length help = length word -> word <> [] ->
  cd_samples Rops c models word help = Ok (sm, priors) ->
  prepared (cd_method Rops c) (cd_degree Rops c) (fun i => exists w, cd_window Rops c = Some w /\ override (cd_idx Rops c) (cd_threshold Rops c) w (length (em_data m0)) ps0 i) word help
    (as_floats Rops sm) priors (as_bits Rops sm).
Proof.
  intros K0 L0 N Rg Nd E0 Lh Nw E. unfold cd_samples in E.
  destruct (peak_ex word Nw) as (mx & Emx & Pm). destruct (peak_ex help) as (hm & Ehm & Ph); [intros ->; destruct word; [contradiction|discriminate]|]. rewrite Emx in E. cbn [bind] in E. cbv zeta in E. rewrite Ehm in E. cbn [bind] in E. change (F Rops) with R in *. pose proof (zeros_map word) as Ez. cbn [fz Rops] in Ez, E. change (F Rops) with R in Ez. rewrite Ez in E.
  pose proof (peak_nonneg _ _ Pm) as Gm. pose proof (peak_nonneg _ _ Ph) as Gh. exists mx, hm. split; [exact Pm|]. split; [exact Ph|]. split; [exact Lh|]. cbn zeta.
  cbn [flt fz Rops] in E. change (IZR 0) with 0%R in E. unfold Rltb in E. destruct (Rlt_dec 0 hm) as [Hh|Hh].
  2: { inversion E; subst. cbn [as_floats as_bits]. rewrite hard_sign. repeat split; intros; try lra; reflexivity. }
  change (F Rops) with R in *. destruct (Z.eqb_spec (cd_method Rops c) 0) as [M0|M0].
  { assert (Fin : forall sum : list R, (do! ms <- pymax Rops (map (fabs Rops) sum) in Ok (SReal Rops (map (fun x : R => fmul Rops x (fdiv Rops mx ms)) sum), repeat 0%R (length word))) = Ok (sm, priors) ->
      length sum = length word -> (forall i, nth i sum 0%R = (nth i word 0 + Rmin 1 (mx / hm) * nth i help 0)%R) ->
      priors = repeat 0%R (length word) /\ as_bits Rops sm = map sign_bit (as_floats Rops sm) /\
      exists sum p, length sum = length word /\ (forall i, nth i sum 0%R = (nth i word 0 + Rmin 1 (mx / hm) * nth i help 0)%R) /\ peak sum p /\ as_floats Rops sm = map (fun x => (x * (mx / p))%R) sum).
    { intros sum Es Ls Hs. destruct (peak_ex sum) as (p & Ep & Pp); [intros Q; rewrite Q in Ls; destruct word; [contradiction|discriminate]|]. change (F Rops) with R in *. rewrite Ep in Es. cbn [bind] in Es. inversion Es; subst sm priors. cbn [as_floats as_bits]. rewrite hard_sign.
      split; [reflexivity|]. split; [reflexivity|]. exists sum, p. split; [exact Ls|]. split; [exact Hs|]. split; [exact Pp|reflexivity]. }
    split; [intros [Q|Q]; [lra|lia]|]. split; [|split; [intros _ [Q|Q]; lia|intros _ Q; lia]]. intros _ _.
    destruct (Rlt_dec mx hm) as [Q|Q]; (eapply Fin; [exact E|apply zip_with_len; lia|]; intro i; rewrite zip_with_nth by (try lia; cbn [fadd fdiv fmul Rops]; unfold Rdiv; lra); cbn [fadd fdiv fmul Rops]).
    - rewrite Rmin_right; [unfold Rdiv; lra|]. apply Rmult_le_reg_r with hm; [exact Hh|]. unfold Rdiv. rewrite Rmult_assoc, Rinv_l by lra. lra.
    - rewrite Rmin_left; [lra|]. apply Rmult_le_reg_r with hm; [exact Hh|]. unfold Rdiv. rewrite Rmult_assoc, Rinv_l by lra. lra. }
  split; [intros [Q|Q]; [lra|]|split; [intros _ Q; lia|split; [intros _ Q|intros _ Q]]].
  - destruct (Z.eqb_spec (cd_method Rops c) 1) as [M1|M1]; [lia|]. destruct (Z.eqb_spec (cd_method Rops c) 2) as [M2|M2]; [lia|]. cbn [orb bind] in E. destruct (Z.eqb_spec (cd_method Rops c) 3) as [M3|M3]; [lia|].
    inversion E; subst. cbn [as_floats as_bits]. rewrite hard_sign. auto.
  - assert (Eo : (Z.eqb (cd_method Rops c) 1 || Z.eqb (cd_method Rops c) 2)%bool = true) by (destruct Q as [-> | ->]; reflexivity). rewrite Eo in E. assert (E3 : Z.eqb (cd_method Rops c) 3 = false) by (destruct Q as [-> | ->]; reflexivity). rewrite E3 in E.
    set (raw := zip_with (fun x m : R => fmul Rops (fneg Rops (fsign Rops (fmul Rops x m))) (fabs Rops m)) word help) in E.
    assert (Lr : length raw = length word) by (apply zip_with_len; lia).
    assert (Nr : forall i, nth i raw 0%R = (- sgn (nth i word 0 * nth i help 0) * Rabs (nth i help 0))%R).
    { intro i. unfold raw. rewrite zip_with_nth; [rewrite fsign_R; reflexivity|lia|]. cbn [fmul fneg fabs Rops]. rewrite Rabs_R0. lra. }
    set (coef := if Z.eqb (cd_method Rops c) 2 then fdiv Rops (fsqrt Rops (fmean Rops (map (fun x : R => fmul Rops x x) word))) (cd_degree Rops c) else IZR 1) in E.
    assert (Ec : coef = (if Z.eqb (cd_method Rops c) 1 then 1 else sqrt (mean_of (map (fun x => (x * x)%R) word)) / cd_degree Rops c)%R).
    { unfold coef. destruct Q as [-> | ->]; cbn [Z.eqb Pos.eqb]; [reflexivity|]. cbn [fdiv fsqrt fmul Rops]. rewrite fmean_R. reflexivity. }
    destruct (peak_ex raw) as (p & Ep & Pp); [intro Q'; rewrite Q' in Lr; destruct word; [contradiction|discriminate]|].
    assert (St : exists out, (do! q <- scale_down Rops mx raw in scale_down Rops coef q) = Ok out /\ scaled_to mx coef raw out).
    { destruct (Rlt_dec 0 mx) as [G|G]; [apply (scale_twice mx coef raw p G Pp)|].
      assert (P0 : p = 0%R).
      { destruct Pp as [I _]. apply in_map_iff in I. destruct I as (y & <- & Hy). apply (In_nth _ _ 0%R) in Hy. destruct Hy as (i & Hi & <-). rewrite Nr.
        assert (W0 : nth i word 0%R = 0%R).
        { destruct Pm as [_ Fa]. rewrite Forall_forall in Fa. assert (I : In (Rabs (nth i word 0%R)) (map Rabs word)) by (apply in_map; apply nth_In; eapply Nat.lt_le_trans; [exact Hi|apply Nat.eq_le_incl; exact Lr]). specialize (Fa _ I). pose proof (Rabs_pos (nth i word 0%R)) as A. destruct (Req_dec (nth i word 0%R) 0%R) as [Z0|Z0]; [exact Z0|]. pose proof (Rabs_pos_lt _ Z0). lra. }
        rewrite W0, Rmult_0_l. unfold sgn. destruct (Rlt_dec 0 0); [lra|]. rewrite Ropp_0, Rmult_0_l, Rabs_R0. reflexivity. }
      rewrite (scale_down_R mx raw p Pp). destruct (Rlt_dec 0 p) as [Z0|Z0]; [lra|]. cbn [bind]. rewrite (scale_down_R coef raw p Pp). destruct (Rlt_dec 0 p); [lra|]. eexists. split; [reflexivity|]. exists p. split; [exact Pp|]. destruct (Rlt_dec 0 p); [lra|].
      transitivity (map (fun x : R => x) raw); [symmetry; apply map_id|]. apply map_ext. intro. lra. }
    destruct St as (out & Eout & Sc). assert (E' : (do! pr <- (do! q <- scale_down Rops mx raw in scale_down Rops coef q) in Ok (SReal Rops word, pr)) = Ok (sm, priors)) by exact E. rewrite Eout in E'. cbn [bind] in E'. inversion E'; subst sm priors. cbn [as_floats as_bits]. rewrite hard_sign. split; [reflexivity|]. split; [reflexivity|]. exists raw. split; [exact Lr|]. split; [exact Nr|]. rewrite Ec in Sc. exact Sc.
  - rewrite Q in E. cbn [Z.eqb Pos.eqb orb bind] in E. change (F Rops) with R in *. rewrite E0 in E. cbn [bind] in E. destruct (cd_window Rops c) as [w|] eqn:Ew; [|discriminate].
    assert (Lw : length (hard Rops word) = length word) by (rewrite hard_sign; apply map_length).
    assert (Hn : forall i l, i < length l -> nth i (hard Rops l) 0%Z = sign_bit (nth i l 0%R)).
    { intros i l Hi. rewrite hard_sign. rewrite (nth_indep _ 0%Z (sign_bit 0%R)) by (rewrite map_length; exact Hi). apply map_nth. }
    assert (Plain : forall P : Prop, (P -> False) -> sm = SBits Rops (hard Rops word) -> priors = repeat 0%R (length word) ->
       (forall i, (exists w', Some w = Some w' /\ override (cd_idx Rops c) (cd_threshold Rops c) w' (length (em_data m0)) ps0 i) -> P) ->
       priors = repeat 0%R (length word) /\ as_floats Rops sm = map IZR (as_bits Rops sm) /\ length (as_bits Rops sm) = length word /\
       (forall i, i < length word -> ((exists w', Some w = Some w' /\ override (cd_idx Rops c) (cd_threshold Rops c) w' (length (em_data m0)) ps0 i) -> nth i (as_bits Rops sm) 0%Z = sign_bit (nth i help 0%R)) /\
         (~ (exists w', Some w = Some w' /\ override (cd_idx Rops c) (cd_threshold Rops c) w' (length (em_data m0)) ps0 i) -> nth i (as_bits Rops sm) 0%Z = sign_bit (nth i word 0%R)))).
    { intros P NP -> -> Imp. split; [reflexivity|]. split; [reflexivity|]. cbn [as_bits]. split; [exact Lw|]. intros i Hi. split; [intro O; destruct (NP (Imp i O))|]. intros _. apply Hn. exact Hi. }
    assert (Sz : em_size (em_data m0) = length (em_data m0)) by (apply em_size_length; exact Nd). rewrite Sz in E.
    destruct (Z.leb_spec w (Z.of_nat (length (em_data m0)))) as [Hw|Hw].
    2: { inversion E; subst sm priors. apply (Plain (w <= Z.of_nat (length (em_data m0)))%Z); try reflexivity; [lia|]. intros i (w' & Q' & O & _). inversion Q'; subst w'. exact O. }
    rewrite (mask_holds c m0 ps0 _ K0 L0) in E. cbn [bind] in E. pose proof (any_structural (cd_idx Rops c) (cd_threshold Rops c) ps0 L0) as A.
    destruct (any_index (sel (cd_idx Rops c) (low_mask (cd_threshold Rops c) ps0))) eqn:Ea.
    2: { inversion E; subst sm priors. apply (Plain (exists k, structural (cd_threshold Rops c) ps0 k /\ nth k (cd_idx Rops c) 0 <> 0)); try reflexivity.
         - intro Q'. apply A in Q'. discriminate. - intros i (w' & _ & _ & _ & O). exact O. }
    assert (A1 : exists k, structural (cd_threshold Rops c) ps0 k /\ nth k (cd_idx Rops c) 0 <> 0) by (apply A; reflexivity). clear Plain A.
    destruct L0 as [->|L0]; [destruct A1 as (k & (Hk & _) & _); cbn in Hk; lia|].
    set (idx := cd_idx Rops c) in *. set (thr := cd_threshold Rops c) in *. assert (Lm : length (low_mask thr ps0) = length idx) by (unfold low_mask; rewrite map_length; exact L0).
    assert (Et : take (hard Rops help) (sel idx (low_mask thr ps0)) = Ok (sel (map (fun i => nth i (hard Rops help) 0%Z) idx) (low_mask thr ps0))).
    { rewrite (take_ok _ _ 0%Z); [rewrite sel_map; reflexivity|]. apply Forall_forall. intros i Hi. apply (sel_in _ _ i 0) in Hi; [|exact Lm]. destruct Hi as (j & Hj & _ & <-). rewrite hard_sign, map_length, Lh. rewrite Forall_forall in Rg. apply Rg. apply nth_In. exact Hj. }
    change (F Rops) with R in *. rewrite Et in E. cbn [bind] in E.
    destruct (put_selected (hard Rops word) (map (fun i => nth i (hard Rops help) 0%Z) idx) idx (low_mask thr ps0) 0%Z N) as (out & Eo & Lo & H1 & H2 & H3); [rewrite Lw; exact Rg|exact Lm|apply map_length|].
    change (F Rops) with R in *. rewrite Eo in E. cbn [bind] in E. inversion E; subst sm priors. cbn [as_bits as_floats]. split; [reflexivity|]. split; [reflexivity|]. split; [rewrite Lo; exact Lw|].
    intros i Hi. split.
    + intros (w' & _ & _ & (j & St & Ej) & _). assert (Hj : j < length idx) by (destruct St; lia). subst i. rewrite (H1 j Hj (proj2 (low_mask_nth _ _ _) St)).
      rewrite (nth_indep _ 0%Z (nth 0 (hard Rops help) 0%Z)) by (rewrite map_length; exact Hj). rewrite (map_nth (fun i => nth i (hard Rops help) 0%Z)). apply Hn. rewrite Lh. exact Hi.
    + intro NO. destruct (in_dec Nat.eq_dec i idx) as [I|I].
      * apply (In_nth _ _ 0) in I. destruct I as (j & Hj & Ej). subst i. rewrite (H2 j Hj); [apply Hn; exact Hi|]. destruct (nth j (low_mask thr ps0) false) eqn:El; [|reflexivity]. exfalso. apply NO. exists w. split; [reflexivity|]. split; [exact Hw|]. split; [|exact A1].
        exists j. split; [|reflexivity]. apply low_mask_nth. exact El.
      * rewrite (H3 i I). apply Hn. exact Hi.
Qed.

(** The samples are found unless method 3 lacks a window. *)
Lemma samples_total c models m0 ps0 word help : holds m0 ps0 -> (ps0 = [] \/ length ps0 = length (cd_idx Rops c)) -> Forall (fun i => i < length word) (cd_idx Rops c) ->
  Forall (fun b => b <> []) (em_data m0) -> index models 0 = Ok m0 -> length help = length word -> word <> [] -> (cd_method Rops c = 3%Z -> cd_window Rops c <> None) ->
  exists sm priors, cd_samples Rops c models word help = Ok (sm, priors).
Proof.
  intros K0 L0 Rg Nd E0 Lh Nw W3. unfold cd_samples.
  destruct (peak_ex word Nw) as (mx & Emx & Pm). destruct (peak_ex help) as (hm & Ehm & Ph); [intros ->; destruct word; [contradiction|discriminate]|]. rewrite Emx. cbn [bind]. cbv zeta. rewrite Ehm. cbn [bind].
  destruct (flt Rops (fz Rops 0) hm); [|eauto]. change (F Rops) with R in *. destruct (Z.eqb (cd_method Rops c) 0).
  { match goal with |- context[pymax Rops (map (fabs Rops) ?s)] => destruct (peak_ex s) as (p & Ep & _) end; [|change (F Rops) with R in *; rewrite Ep; cbn [bind]; eauto].
    destruct word as [|y word]; [contradiction|]. destruct help as [|h help]; [discriminate|]. destruct (flt Rops mx hm); discriminate. }
  assert (Sd : forall (l : list R) limit, l <> [] -> exists q, scale_down Rops limit l = Ok q /\ q <> []).
  { intros l limit Nl. destruct (peak_ex l Nl) as (p & _ & Pp). rewrite (scale_down_R limit l p Pp). eexists. split; [reflexivity|]. destruct (Rlt_dec 0 p), (Rlt_dec limit p); try exact Nl. destruct l; [contradiction|discriminate]. }
  match goal with |- context[bind ?e _] => assert (Pr : exists q, e = Ok q) end.
  { destruct (_ || _)%bool; [|eauto]. destruct (Sd (zip_with (fun x m : R => fmul Rops (fneg Rops (fsign Rops (fmul Rops x m))) (fabs Rops m)) word help) mx) as (q & Eq & Nq); [destruct word as [|y word]; [contradiction|]; destruct help as [|h help]; [discriminate|discriminate]|].
    change (F Rops) with R in *. rewrite Eq. cbn [bind]. match goal with |- context[scale_down Rops ?l q] => destruct (Sd q l Nq) as (q2 & E2 & _) end. rewrite E2. eauto. }
  destruct Pr as (q & Eq). change (F Rops) with R in *. rewrite Eq. cbn [bind]. destruct (Z.eqb_spec (cd_method Rops c) 3) as [M|M]; [|eauto]. change (F Rops) with R in *. rewrite E0. cbn [bind]. specialize (W3 M). destruct (cd_window Rops c) as [w|]; [|contradiction].
  destruct (_ <=? _)%Z; [|eauto]. rewrite (mask_holds c m0 ps0 _ K0 L0). cbn [bind]. destruct (any_index _); [|eauto].
  assert (In1 : forall i, In i (sel (cd_idx Rops c) (low_mask (cd_threshold Rops c) ps0)) -> i < length word).
  { intros i Hi. rewrite Forall_forall in Rg. apply Rg. destruct L0 as [->|L0]; [cbn in Hi; rewrite sel_nil in Hi; destruct Hi|]. apply (sel_in _ _ i 0) in Hi; [|unfold low_mask; rewrite map_length; exact L0]. destruct Hi as (j & Hj & _ & <-). apply nth_In. exact Hj. }
  rewrite (take_ok _ _ 0%Z) by (apply Forall_forall; intros i Hi; rewrite hard_sign, map_length, Lh; apply In1; exact Hi). cbn [bind]. rewrite put_ok; [cbn [bind]; eauto| |rewrite map_length; reflexivity].
  apply Forall_forall. intros i Hi. rewrite hard_sign, map_length. apply In1. exact Hi.
Qed.
