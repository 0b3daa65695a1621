(** The entropy aided denoiser (C43 - C45). *)
From Coq Require Import List ZArith QArith Reals Lra Bool Lia Arith.
From Verif.Model Require Import Py Float InfoTheory Clustering Emle.
From Verif.Spec Require Import RealOps Info Cluster EmleSpec.
From Verif.Proofs Require Import Base RealP InfoP EntropyP PerfP ClusterP ClusterH ClusterR EmleP.
Import ListNotations.
Local Close Scope R_scope.
Local Close Scope Q_scope.

(** C43.  The stored data are the observations within the window, and model_size is their number; with a negative window everything is
    stored but model_size stays 0. *)
Theorem c43_window : forall (FO : fops) (c : emle_conf FO) n obs, 1 <= n -> Forall (fun b => length b = n) obs ->
  let s := updated FO c (emle_new FO) obs in
  e_data FO s = in_window (e_window FO c) obs /\ e_size FO s = Z.of_nat (admitted (e_window FO c) (length obs)) /\
  ((0 <= e_window FO c)%Z -> e_size FO s = Z.of_nat (length (e_data FO s))) /\
  (obs <> [] -> length (e_p1 FO s) = n /\ length (e_entropy FO s) = n).
Proof.
  intros FO c n obs Hn Ho s. pose proof (updated_inv FO c n obs Hn Ho) as I. fold s in I. destruct I as (Hd & Hs & Hr). split; [exact Hd|]. split; [exact Hs|]. split.
  - intro W. rewrite Hd, Hs, in_window_length. unfold admitted. destruct (Z.eqb_spec (e_window FO c) 0); destruct (Z.ltb_spec 0 (e_window FO c)); try lia; auto.
  - intro Hne. apply (p1_length FO c n obs s); auto. unfold emle_inv. auto.
Qed.
Print Assumptions c43_window.

(** An update succeeds for an observation of the length of the earlier ones, and otherwise raises and changes nothing. *)
Theorem c43_update : forall (FO : fops) (c : emle_conf FO) n obs o, 1 <= n -> obs <> [] -> Forall (fun b => length b = n) obs ->
  let s := updated FO c (emle_new FO) obs in
  (length o = n -> update_model FO c s o = (updated FO c (emle_new FO) (obs ++ [o]), Ok tt)) /\
  (length o <> n -> update_model FO c s o = (s, Err ValueError)) /\
  emle_reset FO s = emle_new FO.
Proof.
  intros FO c n obs o Hn Hne Ho s. pose proof (updated_inv FO c n obs Hn Ho) as I. fold s in I. split; [|split; [|reflexivity]].
  - intro Lo. destruct (update_step FO c n obs s o Hn Ho Lo I) as [s' [E _]]. rewrite updated_snoc. fold s. rewrite E. reflexivity.
  - intro Lo. apply (update_refused FO c n obs); auto.
Qed.
Print Assumptions c43_update.

(** C44.  The stored probabilities explain the shares of ones seen through the channel, and the stored entropies are theirs. *)
Theorem c44_estimates : forall (c : emle_conf Rops) n obs i, (0 <= e_f Rops c < / 2)%R -> obs <> [] -> Forall (bits_of_length n) obs -> i < n ->
  let s := updated Rops c (emle_new Rops) obs in
  let p := nth i (e_p1 Rops s) 0%R in
  (0 <= p <= 1)%R /\ explains (e_f Rops c) (share (in_window (e_window Rops c) obs) 1 i) p /\ nth i (e_entropy Rops s) 0%R = shannon 2 [1 - p; p]%R.
Proof.
  intros c n obs i Hf Hne Ho Hi s p. assert (I : emle_inv Rops c n obs s) by (apply updated_inv; [lia|]; eapply Forall_impl; [|exact Ho]; intros b [L _]; exact L).
  destruct (emle_values c n obs s i Hf Hne Ho I Hi) as [E H]. split; [eapply explains_unit, E|]. split; auto.
Qed.
Print Assumptions c44_estimates.

(** Prediction adds the weighted log ratio to the bits of entropy below the threshold, and changes nothing else. *)
Theorem c44_prediction : forall (c : emle_conf Rops) n obs llr, (0 <= e_f Rops c < / 2)%R -> 1 <= n -> obs <> [] -> Forall (bits_of_length n) obs -> length llr = n ->
  let s := updated Rops c (emle_new Rops) obs in
  exists out, predict Rops c s llr = Ok out /\ length out = n /\
    forall i, i < n -> let p := nth i (e_p1 Rops s) 0%R in
      nth i out 0%R = (nth i llr 0 + (if Rlt_dec (shannon 2 [1 - p; p]) (e_threshold Rops c)
        then weight (e_center Rops c) (e_slope Rops c) (Z.of_nat (admitted (e_window Rops c) (length obs))) * log_ratio p else 0))%R.
Proof.
  intros c n obs llr Hf Hn Hne Ho Ll s. apply (predict_R c n obs s llr); auto. apply updated_inv; [lia|]. eapply Forall_impl; [|exact Ho]. intros b [L _]. exact L.
Qed.
Print Assumptions c44_prediction.

(** It moves each such bit towards the value seen more often once two observations count. *)
Theorem c44_direction : forall (c : emle_conf Rops) n obs llr out i, (0 <= e_f Rops c < / 2)%R -> 1 <= n -> obs <> [] -> Forall (bits_of_length n) obs -> length llr = n ->
  let s := updated Rops c (emle_new Rops) obs in
  predict Rops c s llr = Ok out -> i < n -> nth i out 0%R <> nth i llr 0%R ->
  let m := share (in_window (e_window Rops c) obs) 1 i in
  2 <= admitted (e_window Rops c) (length obs) /\ (nth i llr 0 < nth i out 0 <-> m < / 2)%R /\ (nth i out 0 < nth i llr 0 <-> / 2 < m)%R.
Proof.
  intros c n obs llr out i Hf Hn Hne Ho Ll s E Hi Hd m.
  destruct (c44_prediction c n obs llr Hf Hn Hne Ho Ll) as (out' & E' & Lo & H). fold s in E', H. rewrite E in E'. inversion E'; subst out'. clear E'.
  specialize (H i Hi). cbn zeta in H. destruct (c44_estimates c n obs i Hf Hne Ho Hi) as (Hp & He & _). fold s in Hp, He, H. fold m in He. set (p := nth i (e_p1 Rops s) 0%R) in *.
  destruct (Rlt_dec _ _) as [L|L]; [|exfalso; apply Hd; rewrite H; change (F Rops) with R in *; lra].
  destruct (weight_range (e_center Rops c) (e_slope Rops c) (Z.of_nat (admitted (e_window Rops c) (length obs)))) as [[W1 W2]|[W1 W2]].
  - exfalso. apply Hd. rewrite H, W2. change (F Rops) with R in *. lra.
  - split; [lia|]. destruct (log_ratio_sign p Hp) as (S1 & S2 & S3). change (F Rops) with R in *.
    set (w := weight _ _ _) in *. set (g := log_ratio p) in *.
    assert (M : (p < / 2 <-> m < / 2)%R /\ (/ 2 < p <-> / 2 < m)%R).
    { unfold explains in He. destruct He as [[H1 ->]|[[H1 ->]|(H1 & H2 & H3)]]; [lra|lra|]. assert (X : (m - / 2 = (p - / 2) * (1 - 2 * e_f Rops c))%R) by (rewrite H3; lra). assert (0 < 1 - 2 * e_f Rops c)%R by lra. split; split; intro; nra. }
    destruct M as [M1 M2]. rewrite <- M1, <- M2, <- S1, <- S2. rewrite H. split; split; intro; nra.
Qed.
Print Assumptions c44_direction.

(** Inputs of another length: refused once a structural bit is known and two observations count, returned unchanged before. *)
Theorem c44_other_length : forall (c : emle_conf Rops) n obs llr, (0 <= e_f Rops c < / 2)%R -> 1 <= n -> obs <> [] -> Forall (bits_of_length n) obs -> length llr <> n ->
  let s := updated Rops c (emle_new Rops) obs in
  (predict Rops c s llr = Err IndexError /\ 2 <= admitted (e_window Rops c) (length obs) /\ (exists p, In p (e_p1 Rops s) /\ shannon 2 [1 - p; p] < e_threshold Rops c)%R) \/
  (predict Rops c s llr = Ok llr /\ ~ (2 <= admitted (e_window Rops c) (length obs) /\ exists p, In p (e_p1 Rops s) /\ (shannon 2 [1 - p; p] < e_threshold Rops c)%R)).
Proof.
  intros c n obs llr Hf Hn Hne Ho Ll s. assert (I : emle_inv Rops c n obs s) by (apply updated_inv; [lia|]; eapply Forall_impl; [|exact Ho]; intros b [L _]; exact L).
  rewrite (predict_unfit c n obs s llr Hf Hne Ho I Ll). destruct (Nat.leb_spec 2 (admitted (e_window Rops c) (length obs))) as [A|A]; cbn [andb].
  - change (F Rops) with R in *. match goal with |- context [existsb ?g ?l] => destruct (existsb g l) eqn:E end.
    + left. split; [reflexivity|]. split; [exact A|]. apply existsb_exists in E. destruct E as (p & Hp & X). exists p. split; auto. destruct (Rlt_dec _ _); [auto|discriminate].
    + right. split; [reflexivity|]. intros (_ & p & Hp & X). assert (Y : forall g, existsb g (e_p1 Rops s : list R) = false -> g p = false) by (intros g Eg; destruct (g p) eqn:Gp; auto; rewrite (proj2 (existsb_exists g _)) in Eg; [discriminate|exists p; auto]). apply Y in E. destruct (Rlt_dec _ _); [discriminate|contradiction].
  - right. split; [reflexivity|]. intros [X _]. lia.
Qed.
Print Assumptions c44_other_length.

(** Denoising a buffer predicts from the earlier buffers, then learns the hard bits received; the cost is the number of bits changed. *)
Lemma denoise_with_spec (c : emle_conf Rops) n obs llr hard : (0 <= e_f Rops c < / 2)%R -> 1 <= n -> Forall (bits_of_length n) obs -> length llr = n -> bits_of_length n hard ->
  let s := updated Rops c (emle_new Rops) obs in
  exists est, predict Rops c s llr = Ok est /\ length est = n /\
    denoise_with Rops c s llr hard = (updated Rops c (emle_new Rops) (obs ++ [hard]),
      Ok (if e_hard Rops c then Bits (map sign_bit est) else @Llr Rops est, Z.of_nat (differences hard (map sign_bit est)))).
Proof.
  intros Hf Hn Ho Ll [Lh Hh] s. assert (Ho' : Forall (fun b => length b = n) obs) by (eapply Forall_impl; [|exact Ho]; intros b [L _]; exact L).
  assert (P : exists est, predict Rops c s llr = Ok est /\ length est = n).
  { destruct obs as [|o t]; [exists llr; split; [reflexivity|exact Ll]|]. destruct (c44_prediction c n (o :: t) llr Hf Hn ltac:(discriminate) Ho Ll) as (out & E & L & _). exists out. auto. }
  destruct P as (est & E & Le). exists est. split; [exact E|]. split; [exact Le|]. unfold denoise_with. rewrite E.
  destruct (update_step Rops c n obs s hard Hn Ho' Lh (updated_inv Rops c n obs Hn Ho')) as [s' [Eu _]]. rewrite Eu. rewrite updated_snoc. fold s. rewrite Eu. cbn [fst].
  rewrite signs_R. rewrite cost_differences; auto. apply Forall_forall. intros x Hx. apply in_map_iff in Hx. destruct Hx as (y & <- & _). apply sign_bit_bit.
Qed.
Theorem c44_denoise_soft : forall (c : emle_conf Rops) n obs llr, (0 <= e_f Rops c < / 2)%R -> 1 <= n -> Forall (bits_of_length n) obs -> length llr = n ->
  let s := updated Rops c (emle_new Rops) obs in
  exists est, predict Rops c s llr = Ok est /\ length est = n /\
    denoise_soft Rops c s llr = (updated Rops c (emle_new Rops) (obs ++ [map sign_bit llr]),
      Ok (if e_hard Rops c then Bits (map sign_bit est) else @Llr Rops est, Z.of_nat (differences (map sign_bit llr) (map sign_bit est)))).
Proof.
  intros c n obs llr Hf Hn Ho Ll s. unfold denoise_soft. rewrite signs_R. apply (denoise_with_spec c n obs llr (map sign_bit llr)); auto.
  split; [rewrite map_length; auto|]. apply Forall_forall. intros x Hx. apply in_map_iff in Hx. destruct Hx as (y & <- & _). apply sign_bit_bit.
Qed.
Print Assumptions c44_denoise_soft.
Theorem c44_denoise_hard : forall (c : emle_conf Rops) n obs bits, (0 < e_f Rops c < / 2)%R -> 1 <= n -> Forall (bits_of_length n) obs -> bits_of_length n bits ->
  let s := updated Rops c (emle_new Rops) obs in
  let llr := map (fun b => if Z.eqb b 1 then - ln ((1 - e_f Rops c) / e_f Rops c) else ln ((1 - e_f Rops c) / e_f Rops c))%R bits in
  map sign_bit llr = bits /\
  exists est, predict Rops c s llr = Ok est /\ length est = n /\
    denoise_hard Rops c s bits = (updated Rops c (emle_new Rops) (obs ++ [bits]),
      Ok (if e_hard Rops c then Bits (map sign_bit est) else @Llr Rops est, Z.of_nat (differences bits (map sign_bit est)))).
Proof.
  intros c n obs bits Hf Hn Ho Hb s llr. destruct Hb as [Lb Hb]. split.
  - unfold llr. rewrite map_map. rewrite <- (map_id bits) at 2. apply map_ext_in. intros b Hin. rewrite Forall_forall in Hb. apply bsc_llr_sign; auto.
  - unfold denoise_hard. rewrite bsc_llr_R by auto. apply (denoise_with_spec c n obs llr bits); auto; [lra|unfold llr; rewrite map_length; auto|split; auto].
Qed.
Print Assumptions c44_denoise_hard.

(** Sequences are denoised buffer by buffer. *)
Theorem c44_sequence : forall (c : emle_conf Rops) n obs llrs, (0 <= e_f Rops c < / 2)%R -> 1 <= n -> Forall (bits_of_length n) obs -> Forall (fun l => length l = n) llrs ->
  exists rs, denoise_sequence Rops (denoise_soft Rops c) (updated Rops c (emle_new Rops) obs) llrs = (updated Rops c (emle_new Rops) (obs ++ map (map sign_bit) llrs), Ok rs) /\
    length rs = length llrs /\
    forall i r, nth_error rs i = Some r ->
      snd (denoise_soft Rops c (updated Rops c (emle_new Rops) (obs ++ map (map sign_bit) (firstn i llrs))) (nth i llrs [])) = Ok r.
Proof.
  intros c n obs llrs Hf Hn. revert obs. induction llrs as [|x llrs IH]; intros obs Ho Hl.
  - exists []. cbn [map denoise_sequence]. rewrite app_nil_r. split; [reflexivity|]. split; [reflexivity|]. intros [|i] r; discriminate.
  - pose proof (Forall_inv Hl) as Lx. apply Forall_inv_tail in Hl. destruct (c44_denoise_soft c n obs x Hf Hn Ho Lx) as (est & E & Le & Ed).
    assert (Hx : bits_of_length n (map sign_bit x)). { split; [rewrite map_length; auto|]. apply Forall_forall. intros z Hz. apply in_map_iff in Hz. destruct Hz as (y & <- & _). apply sign_bit_bit. }
    destruct (IH (obs ++ [map sign_bit x])) as (rs & Er & Lr & Hr); auto; [apply Forall_app; split; auto|].
    eexists (_ :: rs). cbn [denoise_sequence map]. rewrite Ed, Er. cbn [bind]. rewrite <- app_assoc. cbn [app]. split; [reflexivity|]. split; [cbn [length]; auto|].
    intros [|i] r Hi; cbn [nth_error] in Hi; cbn [firstn map nth].
    + rewrite app_nil_r, Ed. cbn [snd]. inversion Hi. reflexivity.
    + specialize (Hr i r Hi). rewrite <- app_assoc in Hr. exact Hr.
Qed.
Print Assumptions c44_sequence.

(** A fresh model, and one with a negative window, change nothing. *)
Theorem c44_no_model : forall (c : emle_conf Rops) n obs llr, (0 <= e_f Rops c < / 2)%R -> 1 <= n -> Forall (bits_of_length n) obs -> length llr = n ->
  length obs <= 1 \/ (e_window Rops c < 0)%Z -> predict Rops c (updated Rops c (emle_new Rops) obs) llr = Ok llr.
Proof.
  intros c n obs llr Hf Hn Ho Ll H. destruct obs as [|o t]; [reflexivity|]. destruct (c44_prediction c n (o :: t) llr Hf Hn ltac:(discriminate) Ho Ll) as (out & E & Lo & Hv).
  rewrite E. f_equal. change (F Rops) with R in *. apply nth_ext with (d := 0%R) (d' := 0%R); [congruence|]. intros i Hi. rewrite Hv by lia.
  assert (A : admitted (e_window Rops c) (length (o :: t)) <= 1).
  { unfold admitted. destruct (Z.eqb_spec (e_window Rops c) 0); destruct H as [H|H]; lia. }
  destruct (weight_range (e_center Rops c) (e_slope Rops c) (Z.of_nat (admitted (e_window Rops c) (length (o :: t))))) as [[_ ->]|[W _]]; [|lia].
  destruct (Rlt_dec _ _); lra.
Qed.
Print Assumptions c44_no_model.

(** C45.  The confidence in the model. *)
Theorem c45_confidence : forall (c : emle_conf Rops) n m, 
  let w := confidence Rops c in
  ((n <= 1)%Z -> w n = 0%R) /\ ((2 <= n)%Z -> 0 < w n < 1)%R /\
  (0 <= e_slope Rops c -> (n <= m)%Z -> w n <= w m)%R /\ (0 < e_slope Rops c -> (2 <= n)%Z -> (n < m)%Z -> w n < w m)%R /\
  ((2 <= e_center Rops c)%Z -> w (e_center Rops c) = / 2)%R /\
  ((2 <= n)%Z -> w n = / (1 + exp (- (IZR n - IZR (e_center Rops c)) * e_slope Rops c)))%R.
Proof.
  intros c n m w. unfold w. rewrite !confidence_R. repeat split.
  - intro H. unfold weight. destruct (Z.leb_spec n 1); [reflexivity|lia].
  - destruct (weight_range (e_center Rops c) (e_slope Rops c) n) as [[X _]|[_ X]]; [lia|lra].
  - destruct (weight_range (e_center Rops c) (e_slope Rops c) n) as [[X _]|[_ X]]; [lia|lra].
  - apply weight_mono.
  - apply weight_strict.
  - apply weight_center.
  - intro H. unfold weight. destruct (Z.leb_spec n 1); [lia|reflexivity].
Qed.
Print Assumptions c45_confidence.

(** Examples. *)
Definition ex_emle (w : Z) : emle_conf Qops := EmleConf Qops (1 # 10)%Q (1 # 2)%Q w 2 (1 # 3)%Q true.
Example c43_ex : e_data Qops (updated Qops (ex_emle 2) (emle_new Qops) [[0; 1; 0]; [1; 1; 0]; [1; 0; 0]]%Z) = [[1; 1; 0]; [1; 0; 0]]%Z /\
  e_size Qops (updated Qops (ex_emle 2) (emle_new Qops) [[0; 1; 0]; [1; 1; 0]; [1; 0; 0]]%Z) = 2%Z.
Proof. split; vm_compute; reflexivity. Qed.
Example c43_ex_negative : e_size Qops (updated Qops (ex_emle (-1)) (emle_new Qops) [[0; 1; 0]; [1; 1; 0]; [1; 0; 0]]%Z) = 0%Z.
Proof. vm_compute. reflexivity. Qed.
Example c44_ex : e_p1 Qops (updated Qops (ex_emle 0) (emle_new Qops) [[0; 1; 0]; [1; 1; 0]; [1; 1; 0]; [0; 1; 1]]%Z) = [1 # 2; 1 # 1; 3 # 16]%Q.
Proof. vm_compute. reflexivity. Qed.
Example c44_ex_explains : explains (1 / 10) (1 / 4) (3 / 16).
Proof. right; right. lra. Qed.
Example c45_ex : confidence Rops (EmleConf Rops (/ 10)%R (/ 2)%R 0 40 1%R false) 40 = (/ 2)%R.
Proof. apply (c45_confidence (EmleConf Rops (/ 10)%R (/ 2)%R 0 40 1%R false) 40 40). cbn [e_center]. lia. Qed.
