(** Lemmas about the entropy aided denoiser. *)
From Coq Require Import List ZArith Reals Lra Bool Lia Arith.
From Verif.Model Require Import Py Float InfoTheory Clustering Emle.
From Verif.Spec Require Import RealOps Info Cluster EmleSpec.
From Verif.Proofs Require Import Base RealP InfoP EntropyP PerfP ClusterP ClusterH ClusterR.
Import ListNotations.
Local Close Scope R_scope.

Lemma zip_with_length {A B C} (f : A -> B -> C) l l' : length (zip_with f l l') = Nat.min (length l) (length l').
Proof. unfold zip_with. rewrite map_length, combine_length. reflexivity. Qed.
Lemma zip_with_nth {A B C} (f : A -> B -> C) l l' i a b d : length l = length l' -> i < length l -> nth i (zip_with f l l') d = f (nth i l a) (nth i l' b).
Proof.
  intros L H. rewrite (nth_indep _ d (f (fst (a, b)) (snd (a, b)))) by (rewrite zip_with_length; lia). unfold zip_with.
  rewrite (map_nth (fun xy => f (fst xy) (snd xy))). rewrite combine_nth by auto. reflexivity.
Qed.

Section Generic.
Variable FO : fops.
Variable c : emle_conf FO.
Notation F := (F FO).

Definition estimate_of (m : F) : F := fclip FO (fdiv FO (fsub FO m (e_f FO c)) (fsub FO (fz FO 1) (fmul FO (fz FO 2) (e_f FO c)))) (fz FO 0) (fz FO 1).
(** The state of a model of observations of length n. *)
Definition emle_inv (n : nat) (obs : list (list Z)) (s : emle FO) : Prop :=
  e_data FO s = in_window (e_window FO c) obs /\ e_size FO s = Z.of_nat (admitted (e_window FO c) (length obs)) /\
  e_p1 FO s = match obs with [] => [] | _ => map estimate_of (row_means FO n (in_window (e_window FO c) obs)) end /\
  e_entropy FO s = map (fun p => row_entropy FO 2 [fsub FO (fz FO 1) p; p]) (e_p1 FO s).

Lemma in_window_nil {A} w : in_window w (@nil A) = [].
Proof. unfold in_window, last_of. cbn. destruct (0 <? w)%Z; auto; destruct (Z.to_nat w); reflexivity. Qed.
Lemma in_window_length {A} w (l : list A) : length (in_window w l) = if (0 <? w)%Z then Nat.min (length l) (Z.to_nat w) else length l.
Proof. unfold in_window, last_of. destruct (0 <? w)%Z; auto. rewrite skipn_length. lia. Qed.
Lemma in_window_in {A} w (l : list A) x : In x (in_window w l) -> In x l.
Proof. unfold in_window, last_of. destruct (0 <? w)%Z; auto. intro H. rewrite <- (firstn_skipn (length l - Z.to_nat w) l). apply in_or_app. auto. Qed.

Lemma in_window_snoc {A} w (l : list A) x :
  in_window w (l ++ [x]) = let d := in_window w l ++ [x] in if ((0 <? w) && (w <? Z.of_nat (length d)))%Z then slice_from d (- w) else d.
Proof.
  cbn zeta. rewrite app_length, in_window_length. cbn [length]. unfold in_window, last_of. destruct (Z.ltb_spec 0 w) as [W|W]; [|reflexivity]. cbn [andb].
  rewrite app_length. cbn [length]. set (m := Z.to_nat w). assert (Em : w = Z.of_nat m) by (unfold m; lia).
  destruct (Z.ltb_spec w (Z.of_nat (Nat.min (length l) m + 1))) as [L|L].
  - unfold slice_from, norm_bound. rewrite app_length, skipn_length. cbn [length]. destruct (Z.ltb_spec (- w) 0); [|lia].
    replace (Z.to_nat (Z.max 0 (Z.of_nat (length l - (length l - m) + 1) + - w))) with 1 by lia.
    replace (length l + 1 - m) with (S (length l - m)) by lia.
    rewrite !skipn_app. rewrite skipn_length. replace (S (length l - m) - length l) with 0 by lia. replace (1 - (length l - (length l - m))) with 0 by lia. cbn [skipn].
    f_equal. change (skipn 1 (skipn (length l - m) l)) with (tl (skipn (length l - m) l)). generalize (length l - m). clear. intro k. revert k.
    induction l as [|a l IH]; intros [|k]; try reflexivity. cbn [skipn]. apply IH.
  - replace (length l + 1 - m) with 0 by lia. replace (length l - m) with 0 by lia. reflexivity.
Qed.

Lemma emle_inv_new n : emle_inv n [] (emle_new FO).
Proof. unfold emle_inv. rewrite in_window_nil. repeat split. cbn. unfold admitted. destruct (e_window FO c =? 0)%Z; reflexivity. Qed.

Lemma update_step n obs s o : 1 <= n -> Forall (fun b => length b = n) obs -> length o = n -> emle_inv n obs s ->
  exists s', update_model FO c s o = (s', Ok tt) /\ emle_inv n (obs ++ [o]) s'.
Proof.
  intros Hn Hobs Ho (Hd & Hs & Hp & He). unfold update_model.
  set (joined := match e_data FO s with [] => _ | _ => _ end).
  assert (Ej : joined = Ok (in_window (e_window FO c) obs ++ [o])).
  { unfold joined. rewrite Hd. destruct (in_window (e_window FO c) obs) as [|col t] eqn:E; [reflexivity|].
    assert (Hc : length col = n) by (rewrite Forall_forall in Hobs; apply Hobs; eapply in_window_in; rewrite E; left; reflexivity).
    rewrite Hc. destruct (Nat.eqb_spec n 0); [lia|]. rewrite Ho, Nat.eqb_refl. reflexivity. }
  rewrite Ej. cbn [entropy]. rewrite map_map. eexists. split; [reflexivity|]. unfold emle_inv. cbn [e_data e_size e_p1 e_entropy].
  assert (Ew := in_window_snoc (e_window FO c) obs o). cbn zeta in Ew. rewrite <- Ew.
  split; [reflexivity|]. split; [|split].
  - rewrite Hs. rewrite app_length. cbn [length]. unfold admitted. destruct (Z.eqb_spec (e_window FO c) 0) as [W|W].
    + rewrite orb_true_r. lia.
    + rewrite orb_false_r. destruct (Z.ltb_spec (Z.of_nat (Nat.min (length obs) (Z.to_nat (e_window FO c)))) (e_window FO c)); lia.
  - rewrite Ho. destruct obs; reflexivity.
  - reflexivity.
Qed.

Lemma updated_snoc s obs o : updated FO c s (obs ++ [o]) = fst (update_model FO c (updated FO c s obs) o).
Proof. unfold updated. rewrite fold_left_app. reflexivity. Qed.

Lemma updated_inv n obs : 1 <= n -> Forall (fun b => length b = n) obs -> emle_inv n obs (updated FO c (emle_new FO) obs).
Proof.
  intro Hn. induction obs as [|o obs IH] using rev_ind; intro H; [apply emle_inv_new|].
  apply Forall_app in H. destruct H as [H Ho]. pose proof (Forall_inv Ho) as Ho1. rewrite updated_snoc.
  destruct (update_step n obs _ o Hn H Ho1 (IH H)) as [s' [-> I]]. exact I.
Qed.

Lemma update_refused n obs s o : 1 <= n -> obs <> [] -> Forall (fun b => length b = n) obs -> length o <> n -> emle_inv n obs s ->
  update_model FO c s o = (s, Err ValueError).
Proof.
  intros Hn Hne Hobs Ho (Hd & _). unfold update_model. rewrite Hd. destruct (in_window (e_window FO c) obs) as [|col t] eqn:E.
  - exfalso. assert (L := in_window_length (e_window FO c) obs). rewrite E in L. cbn [length] in L. assert (1 <= length obs) by (destruct obs; [congruence|cbn; lia]). destruct (Z.ltb_spec 0 (e_window FO c)); lia.
  - assert (Hc : length col = n) by (rewrite Forall_forall in Hobs; apply Hobs; eapply in_window_in; rewrite E; left; reflexivity).
    rewrite Hc. destruct (Nat.eqb_spec n 0); [lia|]. destruct (Nat.eqb_spec (length o) n); [contradiction|reflexivity].
Qed.

Lemma p1_length n obs s : obs <> [] -> emle_inv n obs s -> length (e_p1 FO s) = n /\ length (e_entropy FO s) = n.
Proof.
  intros Hne (_ & _ & Hp & He). rewrite He, map_length. destruct obs; [congruence|]. rewrite Hp, map_length. unfold row_means. rewrite map_length, seq_length. auto.
Qed.
End Generic.

(** ** Exact reals *)
Local Open Scope R_scope.

Lemma confidence_R c n : confidence Rops c n = weight (e_center Rops c) (e_slope Rops c) n.
Proof.
  unfold confidence, weight. destruct (n <=? 1)%Z; [reflexivity|]. cbn [fdiv fadd fexp fmul fz Rops]. rewrite opp_IZR, minus_IZR.
  unfold Rdiv. rewrite Rmult_1_l. reflexivity.
Qed.
Lemma weight_range center slope n : (n <= 1)%Z /\ weight center slope n = 0 \/ (2 <= n)%Z /\ 0 < weight center slope n < 1.
Proof.
  unfold weight. destruct (Z.leb_spec n 1) as [L|L]; [left; split; auto|right]. split; [lia|].
  pose proof (exp_pos (- (IZR n - IZR center) * slope)) as P. split; [apply Rinv_0_lt_compat; lra|].
  rewrite <- Rinv_1. apply Rinv_lt_contravar; lra.
Qed.
Lemma weight_mono center slope n m : 0 <= slope -> (n <= m)%Z -> weight center slope n <= weight center slope m.
Proof.
  intros Hs Hnm. destruct (weight_range center slope n) as [[H ->]|[H R]].
  - destruct (weight_range center slope m) as [[_ ->]|[_ R]]; lra.
  - unfold weight. destruct (Z.leb_spec n 1); [lia|]. destruct (Z.leb_spec m 1); [lia|].
    assert (X : exp (- (IZR m - IZR center) * slope) <= exp (- (IZR n - IZR center) * slope)).
    { apply IZR_le in Hnm. assert (Y : - (IZR m - IZR center) * slope <= - (IZR n - IZR center) * slope) by nra.
      destruct Y as [Y|Y]; [left; apply exp_increasing; auto|right; rewrite Y; auto]. }
    pose proof (exp_pos (- (IZR m - IZR center) * slope)). apply Rinv_le_contravar; lra.
Qed.
Lemma weight_strict center slope n m : 0 < slope -> (2 <= n)%Z -> (n < m)%Z -> weight center slope n < weight center slope m.
Proof.
  intros Hs Hn Hnm. unfold weight. destruct (Z.leb_spec n 1); [lia|]. destruct (Z.leb_spec m 1); [lia|].
  assert (X : exp (- (IZR m - IZR center) * slope) < exp (- (IZR n - IZR center) * slope)).
  { apply exp_increasing. apply IZR_lt in Hnm. nra. }
  pose proof (exp_pos (- (IZR m - IZR center) * slope)). apply Rinv_lt_contravar; [|lra].
  pose proof (exp_pos (- (IZR n - IZR center) * slope)). apply Rmult_lt_0_compat; lra.
Qed.
Lemma weight_center center slope : (2 <= center)%Z -> weight center slope center = / 2.
Proof. intro H. unfold weight. destruct (Z.leb_spec center 1); [lia|]. replace (- (IZR center - IZR center) * slope) with 0 by ring. rewrite exp_0. f_equal; lra. Qed.

Lemma estimate_explains c m : 0 <= e_f Rops c < / 2 -> explains (e_f Rops c) m (estimate_of Rops c m).
Proof.
  intros Hf. set (f := e_f Rops c) in *. unfold estimate_of. fold f. rewrite fclip_R. cbn [fdiv fsub fmul fz Rops].
  set (x := (m - f) / (1 - 2 * f)). assert (Ex : m = x * (1 - f) + (1 - x) * f) by (unfold x; field; lra).
  assert (D : 0 < 1 - 2 * f) by lra. assert (E2 : m - f = x * (1 - 2 * f)) by lra.
  unfold explains. destruct (Rle_lt_dec x 0) as [X0|X0].
  - left. rewrite Rmax_right by lra. rewrite Rmin_left by lra. split; [nra|reflexivity].
  - rewrite Rmax_left by lra. destruct (Rle_lt_dec 1 x) as [X1|X1].
    + right; left. rewrite Rmin_right by lra. split; [nra|reflexivity].
    + right; right. rewrite Rmin_left by lra. repeat split; try lra; nra.
Qed.
Lemma explains_unit f m p : explains f m p -> 0 <= p <= 1.
Proof. unfold explains. intros [[_ ->]|[[_ ->]|(_ & H & _)]]; lra. Qed.

Lemma ones_votes cols i : Forall (fun b => Forall is_bit b /\ (i < length b)%nat) cols ->
  fold_right Z.add 0%Z (map (fun col => nth i col 0%Z) cols) = Z.of_nat (votes cols 1 i).
Proof.
  unfold votes. induction 1 as [|b t [Hb Hi] _ IH]; [reflexivity|]. cbn [map fold_right filter]. rewrite IH.
  rewrite (nth_indep b (-1)%Z 0%Z Hi). rewrite Forall_forall in Hb. destruct (Hb (nth i b 0%Z) (nth_In b 0%Z Hi)) as [->| ->]; cbn [Z.eqb Pos.eqb length]; lia.
Qed.
Lemma row_means_R n cols : Forall (bits_of_length n) cols -> row_means Rops n cols = map (share cols 1) (seq 0 n).
Proof.
  intro H. unfold row_means. apply map_ext_in. intros i Hi. apply in_seq in Hi. rewrite ones_votes.
  - cbn [fdiv fz Rops]. rewrite <- !INR_IZR_INZ. reflexivity.
  - eapply Forall_impl; [|exact H]. intros b [L B]. split; auto. lia.
Qed.

(** The model over the reals. *)
Lemma emle_values c n obs s i : 0 <= e_f Rops c < / 2 -> obs <> [] -> Forall (bits_of_length n) obs -> emle_inv Rops c n obs s -> (i < n)%nat ->
  explains (e_f Rops c) (share (in_window (e_window Rops c) obs) 1 i) (nth i (e_p1 Rops s) 0) /\
  nth i (e_entropy Rops s) 0 = shannon 2 [1 - nth i (e_p1 Rops s) 0; nth i (e_p1 Rops s) 0].
Proof.
  intros Hf Hne Hobs I Hi. destruct (p1_length Rops c n obs s Hne I) as [Lp Le]. destruct I as (_ & _ & Hp & He).
  assert (E1 : explains (e_f Rops c) (share (in_window (e_window Rops c) obs) 1 i) (nth i (e_p1 Rops s) 0)).
  { rewrite Hp. destruct obs as [|o obs']; [congruence|]. rewrite row_means_R.
    - rewrite map_map. rewrite nth_map_seq by auto. apply estimate_explains. auto.
    - apply Forall_forall. intros b Hb. rewrite Forall_forall in Hobs. apply Hobs. eapply in_window_in, Hb. }
  split; [exact E1|]. apply explains_unit in E1. rewrite He.
  change (F Rops) with R in *. rewrite (nth_indep _ 0 ((fun p => row_entropy Rops 2 [fsub Rops (fz Rops 1) p; p]) 0)) by (rewrite map_length; lia).
  rewrite (map_nth (fun p => row_entropy Rops 2 [fsub Rops (fz Rops 1) p; p])). cbn [fsub fz Rops]. rewrite row_entropy_R, distribution_normalised; [reflexivity|].
  split; [apply Forall_forall; intros x [<-|[<-|[]]]; clear - E1; cbn [fsub fz Rops] in *; change (F Rops) with R in *; lra|]. cbn. lra.
Qed.

Lemma model_llr_R p : model_llr Rops p = log_ratio p.
Proof. unfold model_llr, log_ratio, feps. cbn [flog fdiv fadd fsub fz Rops]. replace (1 / 4503599627370496) with (/ 4503599627370496) by lra. reflexivity. Qed.
Lemma log_ratio_sign p : 0 <= p <= 1 -> (0 < log_ratio p <-> p < / 2) /\ (log_ratio p < 0 <-> / 2 < p) /\ (log_ratio p = 0 <-> p = / 2).
Proof.
  intro Hp. unfold log_ratio. set (e := / 4503599627370496). assert (He : 0 < e) by (apply Rinv_0_lt_compat; lra).
  set (r := (1 - p + e) / (p + e)). assert (Er : r * (p + e) = 1 - p + e) by (unfold r; field; lra). assert (P : 0 < r) by (apply Rdiv_lt_0_compat; lra).
  assert (A : r = 1 -> ln r = 0) by (intros ->; apply ln_1).
  assert (B : 1 < r -> 0 < ln r) by (intro; rewrite <- ln_1; apply ln_increasing; lra).
  assert (C : r < 1 -> ln r < 0) by (intro; rewrite <- ln_1; apply ln_increasing; lra).
  destruct (Rtotal_order p (/ 2)) as [T|[T|T]].
  - assert (1 < r) by nra. specialize (B H). repeat split; intros; try lra.
  - assert (r = 1) by nra. specialize (A H). repeat split; intros; try lra.
  - assert (r < 1) by nra. specialize (C H). repeat split; intros; try lra.
Qed.

(** Prediction. *)
Lemma predict_R c n obs s llr : 0 <= e_f Rops c < / 2 -> obs <> [] -> Forall (bits_of_length n) obs -> emle_inv Rops c n obs s -> length llr = n ->
  exists out, predict Rops c s llr = Ok out /\ length out = n /\
    forall i, (i < n)%nat -> nth i out 0 = nth i llr 0 +
      (if Rlt_dec (shannon 2 [1 - nth i (e_p1 Rops s) 0; nth i (e_p1 Rops s) 0]) (e_threshold Rops c)
       then weight (e_center Rops c) (e_slope Rops c) (Z.of_nat (admitted (e_window Rops c) (length obs))) * log_ratio (nth i (e_p1 Rops s) 0) else 0).
Proof.
  intros Hf Hne Hobs I Ll. destruct (p1_length Rops c n obs s Hne I) as [Lp Le]. unfold predict. set (st := map (fun h => flt Rops h (e_threshold Rops c)) (e_entropy Rops s)).
  assert (Lst : length st = n) by (unfold st; rewrite map_length; auto).
  assert (Hst : forall i, (i < n)%nat -> nth i st false = true <-> shannon 2 [1 - nth i (e_p1 Rops s) 0; nth i (e_p1 Rops s) 0] < e_threshold Rops c).
  { intros i Hi. destruct (emle_values c n obs s i Hf Hne Hobs I Hi) as [_ <-]. unfold st. change (F Rops) with R in *.
    rewrite (nth_indep _ false (flt Rops 0 (e_threshold Rops c))) by (rewrite map_length; lia). rewrite (map_nth (fun h => flt Rops h (e_threshold Rops c))). cbn [flt Rops]. apply Rltb_spec. }
  set (cf := confidence Rops c (e_size Rops s)).
  assert (Ec : cf = weight (e_center Rops c) (e_slope Rops c) (Z.of_nat (admitted (e_window Rops c) (length obs)))) by (unfold cf; rewrite confidence_R; destruct I as (_ & -> & _); reflexivity).
  destruct (existsb (fun b => b) st) eqn:Ex; cbn [negb].
  - cbn [flt fz Rops]. destruct (Rltb 0 cf) eqn:Ecf.
    + rewrite Ll, Lst, Nat.eqb_refl. eexists. split; [reflexivity|]. change (F Rops) with R in *. rewrite zip_with_length, combine_length, Ll, Lst. split; [rewrite Lp; lia|].
      intros i Hi. rewrite (zip_with_nth _ _ _ _ 0 (false, 0)); [|rewrite combine_length; lia|lia]. rewrite combine_nth by lia. cbn [fst snd].
      specialize (Hst i Hi). rewrite <- Ec. destruct (nth i st false); destruct (Rlt_dec _ _) as [L|L]; try tauto.
      * cbn [fadd fmul Rops]. rewrite model_llr_R. reflexivity.
      * exfalso. assert (false = true) by (apply Hst; exact L). discriminate.
      * rewrite Rplus_0_r. reflexivity.
    + apply (proj1 (Rltb_false _ _)) in Ecf. exists llr. split; [reflexivity|]. split; [auto|]. intros i Hi. rewrite <- Ec.
      assert (cf = 0) as ->; [|destruct (Rlt_dec _ _); lra].
      destruct (weight_range (e_center Rops c) (e_slope Rops c) (Z.of_nat (admitted (e_window Rops c) (length obs)))) as [[_ X]|[_ X]]; rewrite <- Ec in X; lra.
  - exists llr. split; [reflexivity|]. split; [auto|]. intros i Hi. destruct (Rlt_dec _ _) as [L|L]; [|lra].
    exfalso. apply (Hst i Hi) in L. assert (X : existsb (fun b => b) st = true) by (apply existsb_exists; exists true; split; auto; rewrite <- L; apply nth_In; lia). congruence.
Qed.

Lemma predict_unfit c n obs s llr : 0 <= e_f Rops c < / 2 -> obs <> [] -> Forall (bits_of_length n) obs -> emle_inv Rops c n obs s -> length llr <> n ->
  predict Rops c s llr = if (Nat.leb 2 (admitted (e_window Rops c) (length obs)) && existsb (fun p => if Rlt_dec (shannon 2 [1 - p; p]) (e_threshold Rops c) then true else false) (e_p1 Rops s))%bool
                         then Err IndexError else Ok llr.
Proof.
  intros Hf Hne Hobs I Ll. destruct (p1_length Rops c n obs s Hne I) as [Lp Le]. unfold predict.
  set (st := map (fun h => flt Rops h (e_threshold Rops c)) (e_entropy Rops s)).
  assert (Est : st = map (fun p => if Rlt_dec (shannon 2 [1 - p; p]) (e_threshold Rops c) then true else false) (e_p1 Rops s)).
  { unfold st. change (F Rops) with R in *. apply nth_ext with (d := false) (d' := false); [rewrite !map_length; lia|]. intros i Hi. rewrite map_length in Hi.
    destruct (emle_values c n obs s i Hf Hne Hobs I ltac:(lia)) as [_ Hv].
    rewrite (nth_indep _ false (flt Rops 0 (e_threshold Rops c))) by (rewrite map_length; lia). rewrite (map_nth (fun h => flt Rops h (e_threshold Rops c))).
    set (g := fun p : R => if Rlt_dec (shannon 2 [1 - p; p]) (e_threshold Rops c) then true else false).
    rewrite (nth_indep (map g _) false (g 0)) by (rewrite map_length; lia). rewrite (map_nth g). unfold g. change (F Rops) with R in *. cbn [flt Rops]. unfold Rltb. rewrite Hv. reflexivity. }
  assert (Eex : existsb (fun b => b) st = existsb (fun p => if Rlt_dec (shannon 2 [1 - p; p]) (e_threshold Rops c) then true else false) (e_p1 Rops s)).
  { rewrite Est. generalize (e_p1 Rops s). intro l. induction l as [|x l IH]; [reflexivity|]. cbn [map existsb]. rewrite IH. reflexivity. }
  rewrite <- Eex. assert (Lst : length st = n) by (unfold st; rewrite map_length; auto).
  destruct (existsb (fun b => b) st); cbn [negb]; [rewrite andb_true_r|rewrite andb_false_r; reflexivity].
  destruct I as (_ & Es & _). rewrite Es, confidence_R. cbn [flt fz Rops].
  destruct (weight_range (e_center Rops c) (e_slope Rops c) (Z.of_nat (admitted (e_window Rops c) (length obs)))) as [[H1 ->]|[H1 H2]].
  - destruct (Nat.leb_spec 2 (admitted (e_window Rops c) (length obs))); [lia|]. destruct (Rltb 0 0) eqn:E; [apply (proj1 (Rltb_spec _ _)) in E; lra|reflexivity].
  - destruct (Nat.leb_spec 2 (admitted (e_window Rops c) (length obs))); [|lia]. destruct (Rltb 0 (weight _ _ _)) eqn:E; [|apply (proj1 (Rltb_false _ _)) in E; lra].
    rewrite Lst. destruct (Nat.eqb_spec (length llr) n); [contradiction|reflexivity].
Qed.

Lemma signs_R llr : signs Rops llr = map sign_bit llr.
Proof. unfold signs. apply map_ext. intro x. cbn [flt fz Rops]. unfold Rltb, sign_bit. destruct (Rlt_dec x 0); reflexivity. Qed.
Lemma sign_bit_bit x : is_bit (sign_bit x).
Proof. unfold sign_bit, is_bit. destruct (Rlt_dec x 0); auto. Qed.

Lemma cost_differences a b : Forall is_bit a -> Forall is_bit b -> fold_right Z.add 0%Z (zip_with (fun x y => Z.abs (x - y)) a b) = Z.of_nat (differences a b).
Proof.
  intro Ha. revert b. unfold zip_with, differences. induction Ha as [|x a Hx Ha IH]; intros b Hb; [reflexivity|]. destruct Hb as [|y b Hy Hb]; [reflexivity|].
  cbn [combine map fold_right filter fst snd]. rewrite IH by auto. set (k := filter _ (combine a b)). clearbody k.
  destruct Hx as [->| ->], Hy as [->| ->]; cbn [Z.eqb Pos.eqb negb length]; rewrite ?Nat2Z.inj_succ; lia.
Qed.

Lemma bsc_llr_R p y : Forall is_bit y -> bsc_llr Rops p y = Ok (map (fun b => if Z.eqb b 1 then - ln ((1 - p) / p) else ln ((1 - p) / p)) y).
Proof.
  intro H. unfold bsc_llr. destruct (existsb (fun b => (b <? 0)%Z) y) eqn:E.
  - apply existsb_exists in E. destruct E as (b & Hb & Hl). rewrite Forall_forall in H. apply Z.ltb_lt in Hl. destruct (H b Hb); lia.
  - f_equal. apply map_ext_in. intros b Hb. rewrite Forall_forall in H. cbn [fmul fz flog fdiv fsub Rops]. destruct (H b Hb) as [->| ->]; cbn; lra.
Qed.
Lemma bsc_llr_sign p b : 0 < p < / 2 -> is_bit b -> sign_bit (if Z.eqb b 1 then - ln ((1 - p) / p) else ln ((1 - p) / p)) = b.
Proof.
  intros Hp Hb. assert (P : 0 < ln ((1 - p) / p)). { rewrite <- ln_1. apply ln_increasing; [lra|]. apply Rmult_lt_reg_r with p; [lra|]. unfold Rdiv. rewrite Rmult_assoc, Rinv_l; lra. }
  unfold sign_bit. destruct Hb as [->| ->]; cbn; destruct (Rlt_dec _ _); auto; lra.
Qed.
