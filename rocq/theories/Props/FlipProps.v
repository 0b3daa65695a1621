(** C65: what the bit flipping LDPC decoders are given by the classifying entropy decoder. *)
From Coq Require Import List ZArith Arith Bool Lia Reals Lra.
From Verif.Model Require Import Py Float InfoTheory Clustering DecoderBase ClassDecoder.
From Verif.Spec Require Import RealOps Info Cluster Stats EmleSpec DecoderSpec WeightedSpec ClassSpec FlipSpec.
From Verif.Proofs Require Import Base RealP EmleP DecoderP EntropyDecP WeightedP ClassP FlipP.
From Verif.Props Require Import EntropyDecoderProps WeightedProps.
Import ListNotations.
Local Close Scope R_scope.

(** An answered call with a label that is not negative: the bit flipping decoder was given what the reliability method prepares from the
    received word and the help of the model of the label. *)
Theorem c65_call {X} kl c (d : ldpc_decoder Rops (X := X)) s word s' e llr ok x ds st u m ps m0 ps0 : (forall f, d <> LogSpa Rops f) ->
  cd_decode Rops kl c d s word = (s', Ok (e, llr, ok, x, ds, st, Z.of_nat u)) -> NoDup (cd_idx Rops c) ->
  nth_error (cd_models Rops s) u = Some m -> holds m ps -> (ps = [] \/ length ps = length (cd_idx Rops c)) -> Forall (fun b => b <> []) (em_data m) ->
  nth_error (cd_models Rops s) 0 = Some m0 -> holds m0 ps0 -> (ps0 = [] \/ length ps0 = length (cd_idx Rops c)) -> Forall (fun b => b <> []) (em_data m0) ->
  llr = [] /\ exists help samples priors bits, helped (cd_idx Rops c) (cd_threshold Rops c) ps (model_weight c m) (repeat 0%R (length word)) help /\
    prepared (cd_method Rops c) (cd_degree Rops c)
      (fun i => exists w, cd_window Rops c = Some w /\ override (cd_idx Rops c) (cd_threshold Rops c) w (length (em_data m0)) ps0 i) word help samples priors bits /\
    asked d samples priors bits e ok x.
Proof.
  intros Nl E N Em K L Nd Em0 K0 L0 Nd0. destruct (decode_ok kl c d s word s' e llr ok x ds st (Z.of_nat u) E) as (s1 & _ & Rg & _ & Pos). destruct (Pos ltac:(lia)) as (m1 & m' & Em1 & Ea & _). rewrite Nat2Z.id, Em in Em1. inversion Em1; subst m1. clear Pos Em1.
  destruct (predict_holds c m ps (length word) K L N Rg Nd) as (help & Eh & Hh). unfold cd_aided in Ea. change (F Rops) with R in *. rewrite Eh in Ea. cbn [bind] in Ea.
  assert (Lh : length help = length word) by (destruct Hh as [Q _]; rewrite repeat_length in Q; exact Q).
  assert (I0 : index (cd_models Rops s) 0 = Ok m0) by (unfold index; rewrite Em0; reflexivity).
  assert (Fin : forall sm pr, cd_samples Rops c (cd_models Rops s) word help = Ok (sm, pr) -> prepared (cd_method Rops c) (cd_degree Rops c)
      (fun i => exists w, cd_window Rops c = Some w /\ override (cd_idx Rops c) (cd_threshold Rops c) w (length (em_data m0)) ps0 i) word help (as_floats Rops sm) pr (as_bits Rops sm)).
  { intros sm pr Es. apply (samples_prepared c (cd_models Rops s) m0 ps0 word help sm pr K0 L0 N Rg Nd0 I0 Lh); [|exact Es]. intros ->. discriminate Es. }
  destruct d as [f|f|f]; [destruct (Nl f eq_refl)| |].
  - apply bind_ok in Ea. destruct Ea as ([sm pr] & Es & Ea). apply bind_ok in Ea. destruct Ea as ([[e0 ok0] x0] & Ef & Q). inversion Q; subst. split; [reflexivity|]. exists help, (as_floats Rops sm), pr, (as_bits Rops sm). split; [exact Hh|]. split; [apply Fin; exact Es|exact Ef].
  - apply bind_ok in Ea. destruct Ea as ([sm pr] & Es & Ea). apply bind_ok in Ea. destruct Ea as ([[e0 ok0] x0] & Ef & Q). inversion Q; subst. split; [reflexivity|]. exists help, (as_floats Rops sm), pr, (as_bits Rops sm). split; [exact Hh|]. split; [apply Fin; exact Es|exact Ef].
Qed.
Print Assumptions c65_call.

(** With a given model and one cluster every call that the LDPC decoder answers is answered (with a window for method 3). *)
Theorem c65_given {X} kl c (d : ldpc_decoder Rops (X := X)) s word m ps : (forall f, d <> LogSpa Rops f) -> cd_train Rops c = false -> cd_n Rops c <= 1 -> NoDup (cd_idx Rops c) -> Forall (fun i => i < length word) (cd_idx Rops c) -> word <> [] ->
  nth_error (cd_models Rops s) 0 = Some m -> holds m ps -> (ps = [] \/ length ps = length (cd_idx Rops c)) -> Forall (fun b => b <> []) (em_data m) ->
  (cd_method Rops c = 3%Z -> cd_window Rops c <> None) ->
  (forall samples priors bits, exists e ok x, asked d samples priors bits e ok x /\ length e = length word) ->
  exists s' e ok x ds st, cd_decode Rops kl c d s word = (s', Ok (e, [], ok, x, ds, st, 0%Z)).
Proof.
  intros Nl Ht Hn N Rg Nw Em K L Nd W3 Ans. destruct (predict_holds c m ps (length word) K L N Rg Nd) as (help & Eh & Hh).
  assert (Lh : length help = length word) by (destruct Hh as [Q _]; rewrite repeat_length in Q; exact Q). assert (I0 : index (cd_models Rops s) 0 = Ok m) by (unfold index; rewrite Em; reflexivity).
  destruct (samples_total c (cd_models Rops s) m ps word help K L Rg Nd I0 Lh Nw W3) as (sm & pr & Es). destruct (Ans (as_floats Rops sm) pr (as_bits Rops sm)) as (e & ok & x & As & Le).
  assert (Ea : cd_aided Rops c d (cd_models Rops s) m word = Ok (e, [], ok, x)).
  { unfold cd_aided. change (F Rops) with R in *. rewrite Eh. cbn [bind]. destruct d as [f|f|f]; [destruct (Nl f eq_refl)| |]; rewrite Es; cbn [bind asked] in *; change (F Rops) with R in *; rewrite As; reflexivity. }
  unfold cd_decode. change (F Rops) with R in *. rewrite (received_take _ _ Rg). unfold cd_label. destruct (Nat.ltb_spec 1 (cd_n Rops c)); [lia|]. cbn [Z.ltb Z.compare Z.to_nat]. change (F Rops) with R in *. rewrite I0. cbn [bind]. rewrite Ea. cbn [bind fst].
  rewrite (take_ok e _ 0%Z) by (rewrite Le; exact Rg). cbn [bind]. unfold cd_update. rewrite Ht. cbn [bind]. rewrite (mask_holds c m ps _ K L). cbn [bind]. eexists _, e, ok, x, _, _. reflexivity.
Qed.
Print Assumptions c65_given.

(** Defect: method 3 needs a window; without one, as soon as the model helps, the call raises TypeError. *)
Theorem c65_no_window_refuted {X} kl c (d : ldpc_decoder Rops (X := X)) s word m ps k : (forall f, d <> LogSpa Rops f) -> cd_method Rops c = 3%Z -> cd_window Rops c = None -> cd_n Rops c <= 1 ->
  NoDup (cd_idx Rops c) -> Forall (fun i => i < length word) (cd_idx Rops c) -> nth_error (cd_models Rops s) 0 = Some m -> holds m ps -> length ps = length (cd_idx Rops c) -> Forall (fun b => b <> []) (em_data m) ->
  structural (cd_threshold Rops c) ps k -> nth k (cd_idx Rops c) 0 <> 0 -> (0 < model_weight c m)%R -> log_ratio (nth k ps 0%R) <> 0%R ->
  snd (cd_decode Rops kl c d s word) = Err TypeError.
Proof.
  intros Nl M W Hn N Rg Em K L Nd St Pk Wt Lr. destruct (predict_holds c m ps (length word) K (or_intror L) N Rg Nd) as (help & Eh & Hh).
  assert (Hk : k < length (cd_idx Rops c)) by (destruct St; lia). assert (I0 : index (cd_models Rops s) 0 = Ok m) by (unfold index; rewrite Em; reflexivity).
  assert (Pw : nth k (cd_idx Rops c) 0 < length word) by (rewrite Forall_forall in Rg; apply Rg; apply nth_In; exact Hk).
  change (F Rops) with R in *.
  assert (Es : cd_samples Rops c (cd_models Rops s) word help = Err TypeError).
  { destruct Hh as (Lh & H1 & _). rewrite repeat_length in Lh. unfold cd_samples. destruct (peak_ex word) as (mx & Emx & _); [intros ->; cbn in Pw; lia|]. destruct (peak_ex help) as (hm & Ehm & Ph); [intros ->; cbn in Lh; lia|].
    rewrite Emx. cbn [bind]. cbv zeta. rewrite Ehm. cbn [bind flt fz Rops]. change (IZR 0) with 0%R. unfold Rltb. destruct (Rlt_dec 0 hm) as [H|H].
    - rewrite M. cbn [Z.eqb Pos.eqb orb bind]. change (F Rops) with R in *. rewrite I0. cbn [bind]. rewrite W. reflexivity.
    - exfalso. specialize (H1 k Hk (conj St (conj Wt (ex_intro _ k (conj St Pk))))). rewrite nth_repeat in H1. destruct Ph as [_ Fa]. rewrite Forall_forall in Fa.
      assert (I : In (Rabs (nth (nth k (cd_idx Rops c) 0) help 0%R)) (map Rabs help)) by (apply in_map; apply nth_In; lia). specialize (Fa _ I). apply H. eapply Rlt_le_trans; [|exact Fa]. apply Rabs_pos_lt. rewrite H1, Rplus_0_l. apply Rmult_integral_contrapositive. split; [lra|exact Lr]. }
  unfold cd_decode. change (F Rops) with R in *. rewrite (received_take _ _ Rg). unfold cd_label. destruct (Nat.ltb_spec 1 (cd_n Rops c)); [lia|]. cbn [Z.ltb Z.compare Z.to_nat]. change (F Rops) with R in *. rewrite I0. cbn [bind]. unfold cd_aided. change (F Rops) with R in *. rewrite Eh. cbn [bind].
  destruct d as [f|f|f]; [destruct (Nl f eq_refl)| |]; rewrite Es; reflexivity.
Qed.
Print Assumptions c65_no_window_refuted.

(** Defect: method 3 overrides the positions of which the model of cluster 0 is sure, whatever the label.  Where the model of the label says
    nothing the bit is overridden by 0. *)
Theorem c65_other_cluster_refuted c w size0 ps0 word help samples priors bits i hm : cd_method Rops c = 3%Z -> cd_window Rops c = Some w ->
  prepared (cd_method Rops c) (cd_degree Rops c) (fun i => exists w, cd_window Rops c = Some w /\ override (cd_idx Rops c) (cd_threshold Rops c) w size0 ps0 i) word help samples priors bits ->
  peak help hm -> (0 < hm)%R -> override (cd_idx Rops c) (cd_threshold Rops c) w size0 ps0 i -> i < length word -> nth i help 0%R = 0%R -> (nth i word 0 < 0)%R ->
  nth i bits 0%Z = 0%Z /\ sign_bit (nth i word 0%R) = 1%Z.
Proof.
  intros M W (mx & hm' & _ & Ph' & _ & _ & _ & _ & P3) Ph H O Hi Hz Hn. rewrite <- (largest_unique _ _ _ Ph Ph') in P3. destruct (P3 H M) as (_ & _ & _ & B). destruct (B i Hi) as [B1 _]. rewrite B1 by eauto. rewrite Hz. unfold sign_bit. split; destruct (Rlt_dec _ _); try reflexivity; lra.
Qed.
Print Assumptions c65_other_cluster_refuted.

(** A given model that is sure that the second of two bits is 1; the weighted decoder is helped by it. *)
Definition ex_sure : cd_conf Rops * cd_state Rops := cd_new Rops [true; true; false] 2 (1 / 2)%R 1%R 5 1 None 3%R 1%R 0%R 0 (Some ([[1 / 2; 1 / 2]; [0; 1]]%R, 2)) 0 3%R.
Lemma ex_sure_holds : holds (EM (FO := Rops) [] [[1 / 2; 1 / 2]; [0; 1]]%R 2 (map (row_entropy Rops 2) [[1 / 2; 1 / 2]; [0; 1]]%R)) [1 / 2; 1]%R.
Proof.
  right. split; [discriminate|]. unfold knows. cbn [em_rows em_cols em_entropy]. split; [reflexivity|]. split.
  - cbn [map]. replace (1 - 1 / 2)%R with (1 / 2)%R by lra. replace (1 - 1)%R with 0%R by lra. reflexivity.
  - cbn [map]. unfold bit_entropy. rewrite !EntropyP.row_entropy_R. replace (1 - 1 / 2)%R with (1 / 2)%R by lra. replace (1 - 1)%R with 0%R by lra.
    rewrite !EntropyP.distribution_normalised; [reflexivity| |]; (split; [repeat (apply Forall_cons; [lra|]); constructor|unfold Rsum; cbn [fold_right]; lra]).
Qed.
Example c65_ex : exists s' e ok ds st, cd_decode Rops (fun _ _ => 0%R) (fst ex_sure) (Wbf Rops (fun _ _ => Ok ([0; 1; 1]%Z, true, tt))) (snd ex_sure) [1; -2; 1]%R = (s', Ok (e, [], ok, tt, ds, st, 0%Z)).
Proof.
  destruct (c65_given (fun _ _ => 0%R) (fst ex_sure) (Wbf Rops (fun l _ => Ok ([0; 1; 1]%Z, true, tt))) (snd ex_sure) [1; -2; 1]%R (EM (FO := Rops) [] [[1 / 2; 1 / 2]; [0; 1]]%R 2 (map (row_entropy Rops 2) [[1 / 2; 1 / 2]; [0; 1]]%R)) [1 / 2; 1]%R) as (s' & e & ok & [] & ds & st & E).
  - discriminate.
  - reflexivity.
  - cbn. lia.
  - cbn. repeat (constructor; [cbn; intuition discriminate|]). constructor.
  - cbn. repeat (constructor; [cbn; lia|]). constructor.
  - discriminate.
  - reflexivity.
  - exact ex_sure_holds.
  - right. reflexivity.
  - constructor.
  - discriminate.
  - intros samples priors bits. exists [0; 1; 1]%Z, true, tt. split; reflexivity.
  - exists s', e, ok, ds, st. exact E.
Qed.

(** Received 1, -2, 1 and help -4 for the second bit, method 0: the help is halved to the magnitude of what was received, and the sum
    1, -4, 1 scaled back to magnitude 2. *)
Example c65_ex_sum : prepared 0 3 (fun _ => False) [1; -2; 1]%R [0; -4; 0]%R [1 / 2; -2; 1 / 2]%R [0; 0; 0]%R [0; 1; 0]%Z.
Proof.
  exists 2%R, 4%R. assert (A : forall x, Rabs x = if Rlt_dec x 0 then (- x)%R else x).
  { intro x. destruct (Rlt_dec x 0); [apply Rabs_left; assumption|apply Rabs_right; lra]. }
  assert (P1 : peak [1; -2; 1]%R 2).
  { unfold peak. cbn [map]. rewrite !A. destruct (Rlt_dec 1 0); [lra|]. destruct (Rlt_dec (-2) 0); [|lra]. split; [right; left; lra|]. repeat (apply Forall_cons; [lra|]). constructor. }
  assert (P2 : peak [0; -4; 0]%R 4).
  { unfold peak. cbn [map]. rewrite !A. destruct (Rlt_dec 0 0); [lra|]. destruct (Rlt_dec (-4) 0); [|lra]. split; [right; left; lra|]. repeat (apply Forall_cons; [lra|]). constructor. }
  assert (P3 : peak [1; -4; 1]%R 4).
  { unfold peak. cbn [map]. rewrite !A. destruct (Rlt_dec 1 0); [lra|]. destruct (Rlt_dec (-4) 0); [|lra]. split; [right; left; lra|]. repeat (apply Forall_cons; [lra|]). constructor. }
  split; [exact P1|]. split; [exact P2|]. split; [reflexivity|]. cbn zeta. split; [intros [Q|Q]; [lra|lia]|]. split; [|split; [intros _ [Q|Q]; lia|intros _ Q; lia]]. intros _ _. split; [reflexivity|]. split.
  - cbn [map]. unfold sign_bit. repeat (destruct (Rlt_dec _ _); try lra). reflexivity.
  - exists [1; -4; 1]%R, 4%R. split; [reflexivity|]. split; [|split; [exact P3|]].
    + intro i. rewrite Rmin_right by lra. destruct i as [|[|[|i]]]; cbn [nth]; try lra. destruct i; lra.
    + cbn [map]. repeat (f_equal; try lra).
Qed.
