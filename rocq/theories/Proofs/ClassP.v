(** Lemmas about ClassifyingEntropyDecoder. *)
From Coq Require Import List ZArith Arith Bool Lia Reals Lra.
From Verif.Model Require Import Py Float InfoTheory Clustering DecoderBase ClassDecoder.
From Verif.Spec Require Import RealOps Info Cluster Stats EmleSpec DecoderSpec WeightedSpec ClassSpec.
From Verif.Proofs Require Import Base RealP InfoP PerfP TurboP ClusterR DecoderP EntropyDecP WeightedP.
Import ListNotations.
Local Close Scope R_scope.

Lemma take_inv {A} (l : list A) idx r d : take l idx = Ok r -> Forall (fun i => i < length l) idx /\ r = map (fun i => nth i l d) idx.
Proof.
  revert r. induction idx as [|i idx IH]; intros r E; cbn in E; [inversion E; split; [constructor|reflexivity]|].
  apply bind_ok in E. destruct E as (x & E1 & E). apply bind_ok in E. destruct E as (xs & E2 & E). inversion E; subst r. destruct (IH xs E2) as [F ->]. unfold index in E1. destruct (nth_error l i) as [y|] eqn:Q; [|discriminate]. inversion E1; subst y.
  apply nth_error_nth_iff with (d := d) in Q. destruct Q as [Q <-]. split; [constructor; assumption|reflexivity].
Qed.

Section Decode.
Context {X : Type}.
Variable kl : list R -> list R -> R.
Variable c : cd_conf Rops.

Lemma label_models s bits s1 r : cd_label Rops kl c s bits = (s1, r) -> cd_models Rops s1 = cd_models Rops s.
Proof.
  unfold cd_label. destruct (Nat.ltb 1 (cd_n Rops c)); [|intro E; inversion E; reflexivity]. destruct (cd_cluster Rops c); [|intro E; inversion E; reflexivity].
  destruct (classify Rops kl (cd_classifier Rops s) bits) as [k q]. intro E; inversion E; reflexivity.
Qed.

Lemma hard_length word : length (hard Rops word) = length word.
Proof. unfold hard. apply map_length. Qed.

Lemma received_take idx word : Forall (fun i => i < length word) idx -> take (hard Rops word) idx = Ok (received idx word).
Proof. intro H. unfold received. rewrite <- hard_sign. apply picked_take. rewrite hard_length. exact H. Qed.

Lemma received_inv idx word bits : take (hard Rops word) idx = Ok bits -> bits = received idx word /\ Forall (fun i => i < length word) idx.
Proof. intro H. apply (take_inv _ _ _ 0%Z) in H. destruct H as [F ->]. rewrite hard_length in F. split; [|exact F]. unfold received, picked. rewrite hard_sign. reflexivity. Qed.

Lemma decode_ok (d : ldpc_decoder Rops (X := X)) s word s' e llr ok x ds st u : cd_decode Rops kl c d s word = (s', Ok (e, llr, ok, x, ds, st, u)) ->
  exists s1, cd_label Rops kl c s (received (cd_idx Rops c) word) = (s1, Ok u) /\ Forall (fun i => i < length word) (cd_idx Rops c) /\
  ((u < 0)%Z -> s' = s1 /\ cd_plain Rops d word = Ok (e, llr, ok, x) /\ ds = ([], 0) /\ st = []) /\
  ((0 <= u)%Z -> exists m m', nth_error (cd_models Rops s) (Z.to_nat u) = Some m /\ cd_aided Rops c d (cd_models Rops s) m word = Ok (e, llr, ok, x) /\
     Forall (fun i => i < length e) (cd_idx Rops c) /\
     cd_update Rops c m (if ok then picked e (cd_idx Rops c) else received (cd_idx Rops c) word) = (m', Ok tt) /\
     s' = CdState Rops (set_nth (cd_models Rops s) (Z.to_nat u) m') (cd_classifier Rops s1) (cd_running Rops s1) /\
     ds = (em_rows m', em_cols m') /\ mask_index (cd_idx Rops c) (low_entropy Rops (cd_threshold Rops c) m') = Ok st).
Proof.
  unfold cd_decode. change (F Rops) with R in *. intro E. destruct (take (hard Rops word) (cd_idx Rops c)) as [bits|y] eqn:Et; [|inversion E].
  apply received_inv in Et. destruct Et as [-> Rg]. destruct (cd_label Rops kl c s (received (cd_idx Rops c) word)) as [s1 lab] eqn:El. pose proof (label_models _ _ _ _ El) as Em.
  destruct lab as [l|y]; [|inversion E]. destruct (Z.ltb_spec l 0) as [Hl|Hl].
  - destruct (cd_plain Rops d word) as [[[[e0 l0] o0] x0]|y] eqn:Ep; cbn [bind] in E; [|inversion E]. inversion E; subst. exists s'. split; [reflexivity|]. split; [exact Rg|]. split; [auto|intro; lia].
  - rewrite Em in E. destruct (index (cd_models Rops s) (Z.to_nat l)) as [m|y] eqn:Ei; cbn [bind] in E; [|inversion E].
    destruct (cd_aided Rops c d (cd_models Rops s) m word) as [[[[e0 l0] o0] x0]|y] eqn:Ea; cbn [bind fst] in E; [|inversion E].
    destruct (take e0 (cd_idx Rops c)) as [mb|y] eqn:Eb; cbn [bind] in E; [|inversion E]. apply (take_inv _ _ _ 0%Z) in Eb. destruct Eb as [Re ->].
    change (map (fun i => nth i e0 0%Z) (cd_idx Rops c)) with (picked e0 (cd_idx Rops c)) in E.
    destruct (cd_update Rops c m (if o0 then picked e0 (cd_idx Rops c) else received (cd_idx Rops c) word)) as [m' [[]|y]] eqn:Eu; cbn [bind] in E; [|inversion E].
    destruct (mask_index (cd_idx Rops c) (low_entropy Rops (cd_threshold Rops c) m')) as [st0|y] eqn:Ek; cbn [bind] in E; [|inversion E]. inversion E; subst.
    exists s1. split; [reflexivity|]. split; [exact Rg|]. split; [intro; lia|]. intros _. exists m, m'. unfold index in Ei. destruct (nth_error (cd_models Rops s) (Z.to_nat u)); inversion Ei; subst. repeat split; auto.
Qed.

(** The state after a call, whatever its outcome. *)
Lemma decode_state (d : ldpc_decoder Rops (X := X)) s word s' out : cd_decode Rops kl c d s word = (s', out) -> Forall (fun i => i < length word) (cd_idx Rops c) ->
  let s1 := fst (cd_label Rops kl c s (received (cd_idx Rops c) word)) in
  cd_classifier Rops s' = cd_classifier Rops s1 /\ cd_running Rops s' = cd_running Rops s1 /\
  (cd_models Rops s' = cd_models Rops s \/
   exists u m m' bits r, snd (cd_label Rops kl c s (received (cd_idx Rops c) word)) = Ok u /\ (0 <= u)%Z /\ nth_error (cd_models Rops s) (Z.to_nat u) = Some m /\ cd_update Rops c m bits = (m', r) /\
   cd_models Rops s' = set_nth (cd_models Rops s) (Z.to_nat u) m').
Proof.
  unfold cd_decode. change (F Rops) with R in *. intros E Rg. cbn zeta. rewrite (received_take _ _ Rg) in E. destruct (cd_label Rops kl c s (received (cd_idx Rops c) word)) as [s1 lab] eqn:El. pose proof (label_models _ _ _ _ El) as Em. cbn [fst snd].
  destruct lab as [l|y]; [|inversion E; subst; auto]. destruct (Z.ltb_spec l 0) as [Hl|Hl]; [inversion E; subst; auto|].
  destruct (index (cd_models Rops s1) (Z.to_nat l)) as [m|y] eqn:Ei; cbn [bind] in E; [|inversion E; subst; auto].
  destruct (cd_aided Rops c d (cd_models Rops s1) m word) as [[[[e0 l0] o0] x0]|y] eqn:Ea; cbn [bind fst] in E; [|inversion E; subst; auto].
  destruct (take e0 (cd_idx Rops c)) as [mb|y] eqn:Eb; cbn [bind] in E; [|inversion E; subst; auto].
  destruct (cd_update Rops c m (if o0 then mb else received (cd_idx Rops c) word)) as [m' r] eqn:Eu. inversion E; subst. cbn [cd_models cd_classifier cd_running]. split; [reflexivity|]. split; [reflexivity|]. right.
  exists l, m, m', (if o0 then mb else received (cd_idx Rops c) word), r. rewrite <- Em. unfold index in Ei. destruct (nth_error (cd_models Rops s1) (Z.to_nat l)); inversion Ei; subst. repeat split; auto.
Qed.
End Decode.

(** ** Prediction *)
Lemma em_size_length data : Forall (fun b : list Z => b <> []) data -> em_size data = length data.
Proof. intro H. unfold em_size, em_empty. destruct H as [|b t Hb Ht]; [reflexivity|]. destruct b; [contradiction|reflexivity]. Qed.

Lemma holds_low m ps thr : holds m ps -> low_entropy Rops thr m = low_mask thr ps.
Proof. intros [[-> E]|[_ K]]; unfold low_entropy; change (F Rops) with R in *; [rewrite E; reflexivity|]. destruct K as (_ & _ & E). rewrite E, map_map. reflexivity. Qed.

Lemma predict_holds c m ps size : holds m ps -> (ps = [] \/ length ps = length (cd_idx Rops c)) -> NoDup (cd_idx Rops c) -> Forall (fun i => i < size) (cd_idx Rops c) ->
  Forall (fun b => b <> []) (em_data m) ->
  exists out, cd_predict Rops c m size = Ok out /\ helped (cd_idx Rops c) (cd_threshold Rops c) ps (model_weight c m) (repeat 0%R size) out.
Proof.
  intros K L N Rg Nd. unfold cd_predict. rewrite (holds_low m ps _ K). set (thr := cd_threshold Rops c).
  assert (Em : mask_index (cd_idx Rops c) (low_mask thr ps) = Ok (sel (cd_idx Rops c) (low_mask thr ps))).
  { destruct L as [->|L]; [cbn; rewrite sel_nil; reflexivity|]. apply mask_index_ok. unfold low_mask. rewrite map_length. exact L. }
  rewrite Em. cbn [bind]. pose proof (any_structural (cd_idx Rops c) thr ps L) as A.
  destruct (any_index (sel (cd_idx Rops c) (low_mask thr ps))) eqn:Ea; cbn [negb].
  2: { eexists. split; [reflexivity|]. apply shifted_none. intros j _ (_ & _ & Q). apply A in Q. discriminate. }
  assert (Ew : (if cd_train Rops c then model_confidence Rops (Z.of_nat (em_size (em_data m))) (cd_center Rops c) (cd_slope Rops c) else fz Rops 1) = model_weight c m).
  { unfold model_weight. rewrite em_size_length by exact Nd. rewrite confidence_R. reflexivity. }
  change (F Rops) with R in *. rewrite Ew. set (w := model_weight c m). cbn [flt fz Rops]. destruct (Rltb 0 w) eqn:E; [apply Rltb_spec in E|apply Rltb_false in E].
  2: { eexists. split; [reflexivity|]. apply shifted_none. intros j _ (_ & Q & _). lra. }
  destruct K as [[-> _]|[Np K]]; [exfalso; destruct (proj1 A eq_refl) as (j & [Q _] & _); cbn in Q; lia|]. destruct L as [->|L]; [contradiction|].
  rewrite (log_ratios_R m ps K). cbn [bind]. rewrite mask_index_ok by (unfold low_mask; rewrite !map_length; reflexivity). cbn [bind]. rewrite <- sel_map, map_map.
  set (r := map (fun p => fmul Rops w (log_ratio p)) ps). set (mask := low_mask thr ps).
  destruct (add_selected Rops (repeat 0%R size) r (cd_idx Rops c) mask 0%R N) as (out & Eo & Lo & H1 & H2 & H3).
  { rewrite repeat_length. exact Rg. } { unfold mask, low_mask. rewrite map_length. exact L. } { unfold r. rewrite map_length. exact L. }
  exists out. split; [exact Eo|]. split; [exact Lo|]. split; [|split; [|exact H3]].
  - intros j Hj (St & _). rewrite H1; [|exact Hj|apply low_mask_nth; exact St]. change (fadd Rops) with Rplus. f_equal. unfold r. rewrite <- L in Hj.
    rewrite (nth_indep _ 0%R (fmul Rops w (log_ratio 0%R))) by (rewrite map_length; exact Hj). rewrite (map_nth (fun p => fmul Rops w (log_ratio p))). reflexivity.
  - intros j Hj On. apply H2; [exact Hj|]. apply not_true_is_false. intro Q. apply On. split; [apply low_mask_nth; exact Q|]. split; [exact E|apply A; reflexivity].
Qed.

Lemma zip_plus_nth (a b : list R) i : length a = length b -> nth i (zip_with Rplus a b) 0%R = (nth i a 0 + nth i b 0)%R.
Proof.
  revert b i. induction a as [|x a IH]; intros [|y b] i L; cbn in L; try discriminate; [destruct i; cbn; lra|]. destruct i; cbn; [reflexivity|]. apply IH. lia.
Qed.

Lemma helped_word idx thr ps w word out : Forall (fun i => i < length word) idx -> helped idx thr ps w (repeat 0%R (length word)) out -> helped idx thr ps w word (zip_with Rplus word out).
Proof.
  intros Rg (L & H1 & H2 & H3). rewrite repeat_length in L. assert (Lz : length word = length out) by lia. assert (Z0 : forall i, nth i (repeat 0%R (length word)) 0%R = 0%R) by (intro i; apply nth_repeat). unfold helped, shifted. split.
  - unfold zip_with. rewrite map_length, combine_length. lia.
  - split; [|split].
    + intros j Hj On. rewrite zip_plus_nth by exact Lz. rewrite (H1 j Hj On), Z0. lra.
    + intros j Hj On. rewrite zip_plus_nth by exact Lz. rewrite (H2 j Hj On), Z0. lra.
    + intros p Hp. rewrite zip_plus_nth by exact Lz. rewrite (H3 p Hp), Z0. lra.
Qed.

Lemma aided_soft {X} c models m ps word mx (f : list R -> res (list Z * list R * bool * X)) : holds m ps -> (ps = [] \/ length ps = length (cd_idx Rops c)) -> NoDup (cd_idx Rops c) ->
  Forall (fun i => i < length word) (cd_idx Rops c) -> Forall (fun b => b <> []) (em_data m) -> largest word mx ->
  exists sum, helped (cd_idx Rops c) (cd_threshold Rops c) ps (model_weight c m) word sum /\
    cd_aided Rops c (LogSpa Rops f) models m word = f (map (limited (cd_clip Rops c * mx)) sum).
Proof.
  intros K L N Rg Nd Mx. destruct (predict_holds c m ps (length word) K L N Rg Nd) as (out & E & H). exists (zip_with Rplus word out). split; [apply helped_word; assumption|].
  unfold cd_aided. change (F Rops) with R in *. rewrite E. cbn [bind]. rewrite (pymax_largest word mx Mx). cbn [bind]. f_equal. apply map_ext. intro x. rewrite fclip_R. unfold limited. cbn [fneg fmul Rops]. rewrite Rmin_comm, Rmax_comm. reflexivity.
Qed.

(** ** Histories *)
Lemma history_snoc {S C O} (step : S -> C -> S * O) calls s x : in_turn step s (calls ++ [x]) =
  let '(s1, outs) := in_turn step s calls in let '(s2, o) := step s1 x in (s2, outs ++ [o]).
Proof.
  revert s. induction calls as [|y t IH]; intro s; cbn [app in_turn]; [destruct (step s x); reflexivity|]. destruct (step s y) as [s1 o1]. rewrite IH. destruct (in_turn step s1 t) as [s2 os]. destruct (step s2 x). reflexivity.
Qed.

(** What the model of cluster [v] knows after being taught the buffers [h]. *)
Definition model_taught (c : cd_conf Rops) (h : list (list Z)) (m : entropy_model Rops) : Prop :=
  let data := kept (cd_window Rops c) h in
  em_data m = data /\ (h = [] -> m = em_new) /\
  (h <> [] -> mixed data /\ knows m (map (fun i => unflipped (cd_flip Rops c) (share data 1 i)) (seq 0 (cd_length Rops c)))).

Lemma kept_nil {A} w : kept w (@nil A) = [].
Proof. destruct w; [|reflexivity]. unfold kept, last_n. apply skipn_nil. Qed.

Lemma update_taught c h m bits m' : cd_train Rops c = true -> 1 <= cd_length Rops c -> Forall (bits_of_length (cd_length Rops c)) (h ++ [bits]) -> model_taught c h m ->
  cd_update Rops c m bits = (m', Ok tt) -> model_taught c (h ++ [bits]) m'.
Proof.
  intros Ht Hn Hb (D & _ & _) E. unfold cd_update in E. rewrite Ht in E.
  destruct (learn_corrected_spec (cd_window Rops c) (cd_length Rops c) (cd_flip Rops c) m h bits Hn Hb D) as [M1 M2].
  assert (Dec : mixed (kept (cd_window Rops c) (h ++ [bits])) \/ ~ mixed (kept (cd_window Rops c) (h ++ [bits]))).
  { unfold mixed. destruct (in_dec Z.eq_dec 0%Z (concat (kept (cd_window Rops c) (h ++ [bits])))); [|right; tauto]. destruct (in_dec Z.eq_dec 1%Z (concat (kept (cd_window Rops c) (h ++ [bits])))); [left; tauto|right; tauto]. }
  destruct Dec as [Mx|Nm].
  - destruct (M1 Mx) as (m2 & E2 & D2 & K2). change (F Rops) with R in *. rewrite E2 in E. inversion E; subst m'. split; [exact D2|]. split; [intro Q; destruct h; discriminate|]. intros _. split; [exact Mx|exact K2].
  - rewrite (M2 Nm) in E. discriminate.
Qed.

Lemma taught_holds c h m : model_taught c h m -> 1 <= cd_length Rops c ->
  holds m (match h with [] => [] | _ => map (fun i => unflipped (cd_flip Rops c) (share (kept (cd_window Rops c) h) 1 i)) (seq 0 (cd_length Rops c)) end).
Proof.
  intros (D & T1 & T2) Hn. destruct h as [|b t]; [left; rewrite (T1 eq_refl); split; reflexivity|]. right. destruct T2 as [_ K]; [discriminate|]. split; [|exact K]. destruct (cd_length Rops c); [lia|]. discriminate.
Qed.

Lemma lessons_snoc {X} idx u words (outs : list (res (cd_answer X))) w o : length words = length outs ->
  lessons idx u (words ++ [w]) (outs ++ [o]) = lessons idx u words outs ++ match o with Ok a => if Z.eqb (label_of a) u then [lesson idx w a] else [] | Err _ => [] end.
Proof.
  intro L. unfold lessons. revert outs L. induction words as [|x words IH]; intros [|y outs] L; cbn in L; try discriminate; [cbn; rewrite app_nil_r; reflexivity|].
  cbn [app combine flat_map]. rewrite IH by lia. rewrite app_assoc. reflexivity.
Qed.

Lemma history_taught {X} kl c s0 (calls : list (ldpc_decoder Rops (X := X) * list R)) s outs n :
  cd_train Rops c = true -> 1 <= cd_length Rops c -> length (cd_idx Rops c) = cd_length Rops c -> cd_models Rops s0 = repeat em_new n ->
  cd_history kl c s0 calls = (s, outs) -> Forall is_ok outs -> Forall (fun o => match o with Ok a => Forall is_bit (estimate_of a) | Err _ => True end) outs ->
  length (cd_models Rops s) = n /\ length outs = length calls /\
  forall v, v < n -> Forall (bits_of_length (cd_length Rops c)) (lessons (cd_idx Rops c) (Z.of_nat v) (map snd calls) outs) /\
    model_taught c (lessons (cd_idx Rops c) (Z.of_nat v) (map snd calls) outs) (nth v (cd_models Rops s) em_new).
Proof.
  intros Ht Hn Hi M0. revert s outs. induction calls as [|[d w] calls IH] using rev_ind; intros s outs E Ok_ Bt.
  - inversion E; subst. rewrite M0, repeat_length. split; [reflexivity|]. split; [reflexivity|]. intros v Hv. cbn [map]. unfold lessons. cbn [combine flat_map]. split; [constructor|].
    rewrite nth_repeat. unfold model_taught. rewrite kept_nil. split; [reflexivity|]. split; [reflexivity|congruence].
  - unfold cd_history in *. rewrite history_snoc in E. destruct (in_turn (fun s call => cd_decode Rops kl c (fst call) s (snd call)) s0 calls) as [s1 os] eqn:E1. cbn [fst snd] in E.
    destruct (cd_decode Rops kl c d s1 w) as [s2 o] eqn:E2. inversion E; subst s2 outs. apply Forall_app in Ok_, Bt. destruct Ok_ as [Oa Ob]. destruct Bt as [Ba Bb]. apply Forall_inv in Ob. apply Forall_inv in Bb.
    destruct (IH s1 os eq_refl Oa Ba) as (Lm & Lo & T). destruct o as [a|]; [|destruct Ob]. change (F Rops) with R in *.
    assert (Lo' : length (os ++ [Ok a]) = length (calls ++ [(d, w)])) by (rewrite !app_length; cbn [length]; f_equal; exact Lo).
    destruct a as [[[[[[e llr] ok] x] ds] st] u]. cbn [estimate_of] in Bb. destruct (decode_ok kl c d s1 w s e llr ok x ds st u E2) as (s3 & El & Rg & Neg & Pos).
    set (ln := picked (if ok then e else map sign_bit w) (cd_idx Rops c)).
    assert (Eln : lesson (cd_idx Rops c) w (e, llr, ok, x, ds, st, u) = ln) by (unfold lesson, success_of, estimate_of, ln, received; destruct ok; reflexivity).
    destruct (Z.lt_ge_cases u 0) as [Hu|Hu].
    + destruct (Neg Hu) as (-> & _). rewrite (label_models _ _ _ _ _ _ El). split; [exact Lm|]. split; [exact Lo'|]. intros v Hv. rewrite map_app. cbn [map snd]. rewrite lessons_snoc by (rewrite map_length; lia). cbn [label_of snd].
      destruct (Z.eqb_spec u (Z.of_nat v)); [lia|]. rewrite app_nil_r. apply T. exact Hv.
    + destruct (Pos Hu) as (m & m' & Em & _ & Re & Eu & -> & _). cbn [cd_models]. split; [rewrite length_set_nth; exact Lm|]. split; [exact Lo'|]. intros v Hv. rewrite map_app. cbn [map snd]. rewrite lessons_snoc by (rewrite map_length; lia). cbn [label_of snd]. rewrite Eln.
      destruct (T v Hv) as [Tb Tm]. rewrite Base.nth_set_nth. destruct (Z.eqb_spec u (Z.of_nat v)) as [Q|Q].
      * subst u. rewrite Nat2Z.id in *. rewrite Nat.eqb_refl. cbn [andb]. destruct (Nat.ltb_spec v (length (cd_models Rops s1))); [|lia].
        assert (Bl : bits_of_length (cd_length Rops c) ln).
        { unfold ln. rewrite <- Hi. apply picked_bits; destruct ok; auto.
          - apply Forall_forall. intros z Hz. apply in_map_iff in Hz. destruct Hz as (y & <- & _). apply sign_is_bit.
          - rewrite map_length. exact Rg. }
        assert (Bn : Forall (bits_of_length (cd_length Rops c)) (lessons (cd_idx Rops c) (Z.of_nat v) (map snd calls) os ++ [ln])) by (apply Forall_app; split; [exact Tb|constructor; [exact Bl|constructor]]).
        split; [exact Bn|]. apply (update_taught c _ m ln m' Ht Hn Bn). 2: { unfold ln, received in *. destruct ok; exact Eu. }
        apply nth_error_nth_iff with (d := em_new) in Em. destruct Em as [_ <-]. exact Tm.
      * rewrite app_nil_r. destruct (Nat.eqb_spec v (Z.to_nat u)); [lia|]. cbn [andb]. split; [exact Tb|exact Tm].
Qed.

(** The classifier and the running index after a history. *)
Lemma history_classifier {X} kl c s0 (calls : list (ldpc_decoder Rops (X := X) * list R)) s outs :
  cd_history kl c s0 calls = (s, outs) -> Forall (fun call => Forall (fun i => i < length (snd call)) (cd_idx Rops c)) calls -> 1 < cd_n Rops c ->
  (cd_cluster Rops c = true -> cd_classifier Rops s = after Rops kl (cd_classifier Rops s0) (map (fun call => received (cd_idx Rops c) (snd call)) calls)) /\
  (cd_cluster Rops c = false -> cd_running Rops s0 = (-1)%Z -> cd_running Rops s = match calls with [] => (-1)%Z | _ => ((Z.of_nat (length calls) - 1) mod Z.of_nat (cd_n Rops c))%Z end).
Proof.
  intros E Rg Hn. revert s outs E. induction calls as [|[d w] calls IH] using rev_ind; intros s outs E; [inversion E; subst; split; auto|].
  apply Forall_app in Rg. destruct Rg as [Rg Rw]. apply Forall_inv in Rw. cbn [snd] in Rw. specialize (IH Rg).
  unfold cd_history in *. rewrite history_snoc in E. destruct (in_turn (fun s call => cd_decode Rops kl c (fst call) s (snd call)) s0 calls) as [s1 os] eqn:E1. cbn [fst snd] in E.
  destruct (cd_decode Rops kl c d s1 w) as [s2 o] eqn:E2. inversion E; subst s2 outs. destruct (IH s1 os eq_refl) as [I1 I2]. destruct (decode_state kl c d s1 w s o E2 Rw) as (S1 & S2 & _).
  unfold cd_label in S1, S2. destruct (Nat.ltb_spec 1 (cd_n Rops c)); [|lia]. split; intro Hc; rewrite Hc in *.
  - assert (Q : cd_classifier Rops s = fst (classify Rops kl (cd_classifier Rops s1) (received (cd_idx Rops c) w))).
    { rewrite S1. destruct (classify Rops kl (cd_classifier Rops s1) (received (cd_idx Rops c) w)) as [k r]. reflexivity. }
    rewrite Q, I1 by reflexivity. rewrite map_app. cbn [map snd]. unfold after. rewrite fold_left_app. reflexivity.
  - intro R0. rewrite S2. cbn [fst cd_running]. rewrite I2 by auto. rewrite app_length. cbn [length]. destruct calls as [|y q]; [reflexivity|]. cbn [app]. set (k := length (y :: q)). rewrite Zplus_mod_idemp_l. f_equal. lia.
Qed.

Lemma history_models_length {X} kl c s0 (calls : list (ldpc_decoder Rops (X := X) * list R)) s outs : cd_history kl c s0 calls = (s, outs) -> Forall (fun call => Forall (fun i => i < length (snd call)) (cd_idx Rops c)) calls ->
  length (cd_models Rops s) = length (cd_models Rops s0).
Proof.
  intros E Rg. revert s outs E. induction calls as [|[d w] calls IH] using rev_ind; intros s outs E; [inversion E; subst; auto|].
  apply Forall_app in Rg. destruct Rg as [Rg Rw]. apply Forall_inv in Rw. cbn [snd] in Rw. specialize (IH Rg).
  unfold cd_history in *. rewrite history_snoc in E. destruct (in_turn (fun s call => cd_decode Rops kl c (fst call) s (snd call)) s0 calls) as [s1 os] eqn:E1. cbn [fst snd] in E.
  destruct (cd_decode Rops kl c d s1 w) as [s2 o] eqn:E2. inversion E; subst s2 outs. rewrite <- (IH s1 os eq_refl). destruct (decode_state kl c d s1 w s o E2 Rw) as (_ & _ & [->|(u & m & m' & b & r & _ & _ & _ & _ & ->)]); [reflexivity|apply length_set_nth].
Qed.

(** Without training no model changes. *)
Lemma history_untrained {X} kl c s0 (calls : list (ldpc_decoder Rops (X := X) * list R)) s outs : cd_train Rops c = false ->
  cd_history kl c s0 calls = (s, outs) -> Forall (fun call => Forall (fun i => i < length (snd call)) (cd_idx Rops c)) calls -> cd_models Rops s = cd_models Rops s0.
Proof.
  intro Ht. revert s outs. induction calls as [|[d w] calls IH] using rev_ind; intros s outs E Rg; [inversion E; reflexivity|].
  apply Forall_app in Rg. destruct Rg as [Rg Rw]. apply Forall_inv in Rw. cbn [snd] in Rw.
  unfold cd_history in *. rewrite history_snoc in E. destruct (in_turn (fun s call => cd_decode Rops kl c (fst call) s (snd call)) s0 calls) as [s1 os] eqn:E1. cbn [fst snd] in E.
  destruct (cd_decode Rops kl c d s1 w) as [s2 o] eqn:E2. inversion E; subst s2 outs. rewrite <- (IH s1 os eq_refl Rg).
  destruct (decode_state kl c d s1 w s o E2 Rw) as (_ & _ & [->|(u & m & m' & b & r & _ & _ & Em & Eu & ->)]); [reflexivity|]. unfold cd_update in Eu. rewrite Ht in Eu. inversion Eu; subst m'. clear -Em.
  revert Em. generalize (cd_models Rops s1) (Z.to_nat u). intros l i. revert i. induction l as [|y l IH]; intros [|i] H; cbn in *; try congruence. rewrite (IH i H). reflexivity.
Qed.

(** ** One call with a soft decoder *)
Lemma mask_holds c m ps thr : holds m ps -> ps = [] \/ length ps = length (cd_idx Rops c) -> mask_index (cd_idx Rops c) (low_entropy Rops thr m) = Ok (sel (cd_idx Rops c) (low_mask thr ps)).
Proof.
  intros K L. rewrite (holds_low m ps thr K). destruct L as [->|L]; [cbn; rewrite sel_nil; reflexivity|]. apply mask_index_ok. unfold low_mask. rewrite map_length. exact L.
Qed.

Lemma taught_data c h m : 1 <= cd_length Rops c -> Forall (bits_of_length (cd_length Rops c)) h -> model_taught c h m -> Forall (fun b => b <> []) (em_data m).
Proof.
  intros Hn Hb (D & _). rewrite D. apply Forall_forall. intros b Hk Q. subst b. apply kept_incl in Hk. rewrite Forall_forall in Hb. destruct (Hb [] Hk) as [L _]. cbn in L. lia.
Qed.

Lemma soft_step {X} kl c (f : list R -> res (list Z * list R * bool * X)) s word s1 u h m mx :
  cd_train Rops c = true -> 1 <= cd_length Rops c -> length (cd_idx Rops c) = cd_length Rops c -> NoDup (cd_idx Rops c) -> Forall (fun i => i < length word) (cd_idx Rops c) -> largest word mx ->
  cd_label Rops kl c s (received (cd_idx Rops c) word) = (s1, Ok (Z.of_nat u)) -> nth_error (cd_models Rops s) u = Some m -> Forall (bits_of_length (cd_length Rops c)) h -> model_taught c h m ->
  (forall w, length w = length word -> exists e llr ok x, f w = Ok (e, llr, ok, x) /\ length e = length word /\ Forall is_bit e) ->
  exists (e : list Z) (llr : list R) (ok : bool) (x : X), let ln := picked (if ok then e else map sign_bit word) (cd_idx Rops c) in let data := kept (cd_window Rops c) (h ++ [ln]) in
    (exists ps sum, holds m ps /\ helped (cd_idx Rops c) (cd_threshold Rops c) ps (model_weight c m) word sum /\ f (map (limited (cd_clip Rops c * mx)) sum) = Ok (e, llr, ok, x)) /\
    bits_of_length (cd_length Rops c) ln /\
    (mixed data -> exists m' ds st, cd_decode Rops kl c (LogSpa Rops f) s word = (CdState Rops (set_nth (cd_models Rops s) u m') (cd_classifier Rops s1) (cd_running Rops s1), Ok (e, llr, ok, x, ds, st, Z.of_nat u)) /\ model_taught c (h ++ [ln]) m') /\
    (~ mixed data -> exists m', cd_decode Rops kl c (LogSpa Rops f) s word = (CdState Rops (set_nth (cd_models Rops s) u m') (cd_classifier Rops s1) (cd_running Rops s1), Err IndexError) /\ em_data m' = data).
Proof.
  intros Ht Hn Hi N Rg Mx El Em Hb T Rel.
  set (ps := match h with [] => @nil R | _ => map (fun i => unflipped (cd_flip Rops c) (share (kept (cd_window Rops c) h) 1 i)) (seq 0 (cd_length Rops c)) end).
  assert (Lp : ps = [] \/ length ps = length (cd_idx Rops c)) by (unfold ps; destruct h; [left; reflexivity|right; rewrite map_length, seq_length; lia]).
  destruct (aided_soft c (cd_models Rops s) m ps word mx f (taught_holds c h m T Hn) Lp N Rg (taught_data c h m Hn Hb T) Mx) as (sum & Hs & Ea).
  destruct (Rel (map (limited (cd_clip Rops c * mx)) sum)) as (e & llr & ok & x & Ef & Le & Be); [rewrite map_length; apply Hs|]. rewrite Ef in Ea.
  exists e, llr, ok, x. cbn zeta. split; [exists ps, sum; split; [exact (taught_holds c h m T Hn)|split; [exact Hs|exact Ef]]|]. set (ln := picked (if ok then e else map sign_bit word) (cd_idx Rops c)).
  assert (Bl : bits_of_length (cd_length Rops c) ln).
  { unfold ln. rewrite <- Hi. apply picked_bits; destruct ok; auto.
    - apply Forall_forall. intros z Hz. apply in_map_iff in Hz. destruct Hz as (y & <- & _). apply sign_is_bit.
    - rewrite Le. exact Rg.
    - rewrite map_length. exact Rg. }
  split; [exact Bl|].
  assert (Bn : Forall (bits_of_length (cd_length Rops c)) (h ++ [ln])) by (apply Forall_app; split; [exact Hb|constructor; [exact Bl|constructor]]).
  destruct T as (D & T1 & T2). destruct (learn_corrected_spec (cd_window Rops c) (cd_length Rops c) (cd_flip Rops c) m h ln Hn Bn D) as [M1 M2].
  assert (Eln : (if ok then picked e (cd_idx Rops c) else received (cd_idx Rops c) word) = ln) by (unfold ln, received; destruct ok; reflexivity).
  unfold cd_decode. change (F Rops) with R in *. rewrite (received_take _ _ Rg). rewrite El. destruct (Z.ltb_spec (Z.of_nat u) 0); [lia|]. rewrite (label_models _ _ _ _ _ _ El). unfold index. rewrite Nat2Z.id, Em. cbn [bind].
  change (F Rops) with R in *. rewrite Ea. cbn [bind fst]. rewrite (picked_take e (cd_idx Rops c)) by (rewrite Le; exact Rg). cbn [bind]. rewrite Eln. unfold cd_update. rewrite Ht. split.
  - intro Q. destruct (M1 Q) as (m2 & E2 & D2 & K2). change (F Rops) with R in *. rewrite E2. cbn [bind].
    assert (H2 : holds m2 (map (fun i => unflipped (cd_flip Rops c) (share (kept (cd_window Rops c) (h ++ [ln])) 1 i)) (seq 0 (cd_length Rops c)))) by (right; split; [destruct (cd_length Rops c); [lia|discriminate]|exact K2]).
    rewrite (mask_holds c m2 _ (cd_threshold Rops c) H2) by (right; rewrite map_length, seq_length; lia). cbn [bind]. eexists m2, _, _. split; [reflexivity|]. split; [exact D2|]. split; [intro Z0; destruct h; discriminate|]. intros _. split; [exact Q|exact K2].
  - intro Q. rewrite (M2 Q). cbn [bind]. eexists. split; [reflexivity|reflexivity].
Qed.
