(** Lemmas about the models of bits of the decoders in double precision. *)
From Coq Require Import List NArith ZArith Reals Bool Lia Lra.
From Flocq Require Import Core IEEE754.BinarySingleNaN.
From Verif.Model Require Import Py Float InfoTheory Clustering Emle DecoderBase ClassDecoder.
From Verif.Spec Require Import RealOps Info Cluster IeeeOps EmleSpec DecoderSpec IeeeEmleSpec.
From Verif.Proofs Require Import Base InfoP ClusterP EmleP TurboP DecoderP EntropyDecP IeeeP IeeeInfoP IeeeHellP IeeeFreqP IeeeEmleP.
Import ListNotations.
Open Scope R_scope.

Lemma model_confidence_spec (l : libm) size (center slope : b64) : good_exp l -> fin center -> Rabs (val center) <= bpow radix2 52 -> fin slope -> Rabs (val slope) <= bpow radix2 900 ->
  (Z.abs size <= 2 ^ 52)%Z ->
  let w := model_confidence (Bops l) size center slope in
  fin w /\ 0 <= val w <= 1 /\ ((size <= 1)%Z -> val w = 0) /\
  (0 <= val slope -> (2 <= size)%Z -> val center <= IZR size -> / 2 <= val w) /\ (0 <= val slope -> IZR size <= val center -> val w <= / 2).
Proof.
  intros G Fc Bc Fs Bs Hs w. destruct (z_spec 0 ltac:(lia)) as [F0 V0]. unfold w, model_confidence. destruct (Z.leb_spec size 1) as [L|L].
  - change (fz (Bops l) 0) with (b64_z 0). split; [exact F0|]. rewrite V0. repeat split; intros; try lra; try lia.
  - destruct (z_spec size ltac:(lia)) as [Fz Vz]. apply Rabs_le_inv in Bc.
    assert (Sz : 0 <= IZR size <= bpow radix2 52) by (change (bpow radix2 52) with (IZR (2 ^ 52)); split; apply IZR_le; lia).
    assert (E53 : bpow radix2 53 = 2 * bpow radix2 52) by (change 53%Z with (1 + 52)%Z; rewrite bpow_plus; reflexivity).
    assert (Bb : bpow radix2 53 <= big) by (apply bpow_le; lia).
    destruct (sub_spec (b64_z size) center Fz Fc) as [Fd Vd]; [rewrite Vz; apply Rabs_le; lra|]. rewrite Vz in Vd.
    destruct (opp_spec (b64_sub (b64_z size) center) Fd) as [Fo Vo]. set (o := Bopp (b64_sub (b64_z size) center)) in *.
    assert (F53 : fmt (bpow radix2 53)) by (apply generic_format_bpow; cbn; lia).
    assert (Bo : Rabs (val o) <= bpow radix2 53).
    { rewrite Vo, Rabs_Ropp, Vd. apply Rabs_le. split; [apply rnd_ge; [apply generic_format_opp, F53|lra]|apply rnd_le'; [exact F53|lra]]. }
    destruct (mul_spec o slope Fo Fs) as [Fa Va].
    { rewrite Rabs_mult. apply Rle_trans with (bpow radix2 53 * bpow radix2 900); [apply Rmult_le_compat; auto using Rabs_pos|]. rewrite <- bpow_plus. apply bpow_le. lia. }
    destruct (logistic_exp l (b64_mul o slope) G Fa) as (W1 & W2 & W3 & W4).
    change (fdiv (Bops l) (fz (Bops l) 1) (fadd (Bops l) (fz (Bops l) 1) (Float.fexp (Bops l) (fmul (Bops l) (fneg (Bops l) (fsub (Bops l) (fz (Bops l) size) center)) slope))))
      with (logistic (l_exp l (b64_mul o slope))).
    split; [exact W1|]. split; [exact W2|]. split; [lia|]. rewrite Va, Vo, Vd in W3, W4. split.
    + intros S2 _ C. apply W3, rnd_le'; [apply fmt_0|]. assert (0 <= rnd (IZR size - val center)) by (apply rnd_ge; [apply fmt_0|lra]). nra.
    + intros S2 C. apply W4, rnd_ge; [apply fmt_0|]. assert (rnd (IZR size - val center) <= 0) by (apply rnd_le'; [apply fmt_0|lra]). nra.
Qed.

(** ** Learning *)
Lemma fold_pick {A} (P : A -> Prop) (f : A -> A -> A) t x : (forall a b, f a b = a \/ f a b = b) -> P x -> Forall P t -> P (fold_left f t x).
Proof. intros H. revert x. induction t as [|y t IH]; intros x Px Ft; [exact Px|]. inversion Ft; subst. cbn [fold_left]. apply IH; [|assumption]. destruct (H x y) as [-> | -> ]; assumption. Qed.
Lemma check_64 (l : libm) (ps : list b64) : ps <> [] -> Forall (fun p => fin p /\ 0 <= val p <= 1) ps -> check_probability (Bops l) ps = Ok tt.
Proof.
  intros N H. destruct ps as [|x t]; [congruence|]. inversion H as [|? ? Hx Ht]; subst. unfold check_probability. cbn [pymax pymin bind].
  destruct (z_spec 0 ltac:(lia)) as [F0 V0]. destruct one as [F1 V1].
  assert (A : fin (fold_left (fun m y => if Bltb m y then y else m) t x) /\ 0 <= val (fold_left (fun m y => if Bltb m y then y else m) t x) <= 1)
    by (apply (fold_pick (fun p => fin p /\ 0 <= val p <= 1)); auto; intros a b; destruct (Bltb a b); auto).
  assert (B : fin (fold_left (fun m y => if Bltb y m then y else m) t x) /\ 0 <= val (fold_left (fun m y => if Bltb y m then y else m) t x) <= 1)
    by (apply (fold_pick (fun p => fin p /\ 0 <= val p <= 1)); auto; intros a b; destruct (Bltb b a); auto).
  destruct A as [A1 A2], B as [B1 B2].
  set (mx := fold_left (fun m y => if Bltb m y then y else m) t x) in *. set (mn := fold_left (fun m y => if Bltb y m then y else m) t x) in *.
  change (flt (Bops l)) with (@Bltb 53 1024). change (fz (Bops l) 1) with (b64_z 1). change (fz (Bops l) 0) with (b64_z 0).
  match goal with |- (if Bltb _ ?a then _ else _) = _ => change a with mx end.
  destruct (Bltb (b64_z 1) mx) eqn:E; [apply ltb_spec in E; [rewrite V1 in E; exfalso; lra|assumption|exact A1]|].
  match goal with |- (if Bltb ?a _ then _ else _) = _ => change a with mn end.
  destruct (Bltb mn (b64_z 0)) eqn:E'; [apply ltb_spec in E'; [rewrite V0 in E'; exfalso; lra|exact B1|assumption]|]. reflexivity.
Qed.
Lemma data_prob_64 (l : libm) n data : Forall (fun b => length b = n) data ->
  data_prob (Bops l) n data = Ok (map (fun i => map (fun v => quot (Z.of_nat (votes data v i)) (Z.of_nat (length data))) (unique (concat (data_rows n data)))) (seq 0 n),
    length (unique (concat (data_rows n data)))).
Proof.
  intro H. unfold data_prob. rewrite prob_mat. cbn [bind fst snd]. f_equal. f_equal. unfold data_rows at 2. rewrite map_map. apply map_ext_in. intros i Hi. apply in_seq in Hi.
  unfold divide. rewrite map_map. apply map_ext. intro v. rewrite (occurrences_votes n) by (auto; lia). reflexivity.
Qed.
Lemma learn_corrected_64 (l : libm) w n f m h bits : good_log l -> flip_rate f -> (1 <= n)%nat -> Forall (bits_of_length n) (h ++ [bits]) -> (Z.of_nat (length (h ++ [bits])) <= 2 ^ 53)%Z ->
  em_data m = kept w h ->
  let data := kept w (h ++ [bits]) in
  (mixed data -> exists m', learn_corrected (Bops l) w n f m bits = (m', Ok tt) /\ model_of f n data m') /\
  (~ mixed data -> learn_corrected (Bops l) w n f m bits = (EM data (em_rows m) (em_cols m) (em_entropy m), Err IndexError)).
Proof.
  intros G [Ff Rf] Hn H B E. cbn zeta. unfold learn_corrected. assert (Hb : bits_of_length n bits) by (rewrite Forall_forall in H; apply H, in_or_app; right; left; reflexivity).
  rewrite (proj1 Hb), Nat.eqb_refl. cbn [negb]. rewrite E.
  assert (Hl : Forall (fun b : list Z => length b = n) h). { apply Forall_app in H. apply bits_lengths, H. }
  rewrite (append_buffer_kept w h bits n) by auto. set (data := kept w (h ++ [bits])).
  assert (Hd : Forall (bits_of_length n) data). { apply Forall_forall. intros b Hi. rewrite Forall_forall in H. apply H, (kept_incl w), Hi. }
  assert (Ld : (length data <= length (h ++ [bits]))%nat) by (unfold data; rewrite kept_length; destruct w; lia).
  pose proof (data_prob_64 l n data (bits_lengths _ _ Hd)) as P. change (F (Bops l)) with b64 in *. rewrite P. cbn [bind fst snd]. split.
  - intro M. assert (Nd : (0 < length data)%nat) by (destruct data; [destruct M as [[] _]|cbn; lia]).
    rewrite (unique_mixed n) by auto. cbn [length]. unfold column. cbn [Nat.ltb Nat.leb]. rewrite !map_map. cbn [map nth].
    set (ps := map (fun i => estimate f (quot (Z.of_nat (votes data 1 i)) (Z.of_nat (length data)))) (seq 0 n)).
    assert (Ec : map (fun i => corrected (Bops l) f (quot (Z.of_nat (votes data 1 i)) (Z.of_nat (length data)))) (seq 0 n) = ps) by reflexivity.
    change (F (Bops l)) with b64 in *. rewrite Ec.
    assert (Kn : forall i, knows_bit f (votes data 1 i) (length data) (estimate f (quot (Z.of_nat (votes data 1 i)) (Z.of_nat (length data))))
      (row_entropy (Bops l) 2 [b64_sub (b64_z 1) (estimate f (quot (Z.of_nat (votes data 1 i)) (Z.of_nat (length data)))); estimate f (quot (Z.of_nat (votes data 1 i)) (Z.of_nat (length data)))])).
    { intro i. apply know_bit; auto; [apply votes_le|lia]. }
    pose proof (check_64 l ps) as Ck. change (F (Bops l)) with b64 in *.
    rewrite Ck; [|unfold ps; destruct n; [lia|discriminate]|apply Forall_forall; intros x Hx; apply in_map_iff in Hx; destruct Hx as (i & <- & _); destruct (Kn i) as (K1 & K2 & _); auto].
    cbn [bind entropy]. eexists. split; [reflexivity|]. split; [reflexivity|]. split; [reflexivity|]. cbn [em_rows em_entropy].
    exists ps, (map (fun p => row_entropy (Bops l) 2 [b64_sub (b64_z 1) p; p]) ps).
    split; [unfold ps; rewrite map_length, seq_length; reflexivity|]. split; [rewrite map_length; unfold ps; rewrite map_length, seq_length; reflexivity|].
    split; [unfold ps; rewrite map_map; reflexivity|]. split; [unfold ps; rewrite !map_map; reflexivity|].
    intros i p hh Ep Eh. rewrite nth_error_map, Ep in Eh. injection Eh as <-. unfold ps in Ep. rewrite nth_error_map in Ep. destruct (nth_error (seq 0 n) i) as [j|] eqn:Ej; [|discriminate Ep].
    assert (j = i). { assert (i < n)%nat by (rewrite <- (seq_length n 0); apply nth_error_Some; congruence). rewrite (nth_error_nth' _ 0%nat) in Ej by (rewrite seq_length; lia). rewrite seq_nth in Ej by lia. now injection Ej. }
    subst j. cbn [option_map] in Ep. injection Ep as <-. apply Kn.
  - intro M. destruct data as [|b t] eqn:Ed.
    + assert (E0 : data_rows n [] = repeat [] n). { unfold data_rows. cbn [map]. rewrite map_const_R, seq_length. reflexivity. }
      rewrite E0. assert (E1 : concat (repeat (@nil Z) n) = []) by (clear; induction n; [reflexivity|cbn; auto]). rewrite E1. reflexivity.
    + destruct (unique_constant n (b :: t) Hd ltac:(discriminate) Hn M) as (v & _ & _ & ->). reflexivity.
Qed.

(** ** The opinion of a model *)
Definition ratio (l : libm) (p : b64) : b64 := l_log l (b64_div (b64_add (feps (Bops l)) (b64_sub (b64_z 1) p)) (b64_add p (feps (Bops l)))).
Lemma ratio_p (l : libm) p : good_log l -> fin p -> 0 <= val p <= 1 ->
  fin (ratio l p) /\ Rabs (val (ratio l p)) <= 1000 /\ (/ 2 <= val p -> val (ratio l p) <= 0) /\ (val p <= / 2 -> 0 <= val (ratio l p)) /\
  (val p = 1 -> val (ratio l p) <= - / 2) /\ (val p = 0 -> / 2 <= val (ratio l p)).
Proof.
  intros G Fp Rp. destruct (rest_spec p Fp Rp) as (Fr & Vr & Rr & Hr & Lr & _). destruct (padded' l _ Fr Rr) as (FA & VA & RA). destruct (padded l p Fp Rp) as (FB & VB & RB).
  destruct (ratio_of l _ _ _ _ G FA FB VA VB RA RB) as (H1 & H2 & H3 & H4 & H5 & H6). fold (ratio l p) in *. split; [exact H1|]. split; [exact H2|].
  split; [intro Hp; specialize (Hr Hp); apply H3; lra|]. split; [intro Hp; specialize (Lr Hp); apply H4; lra|]. split; intro E.
  - apply H5; [|exact E]. rewrite Vr, E, Rminus_diag_eq by reflexivity. apply rnd_0.
  - apply H6; [|exact E]. rewrite Vr, E, Rminus_0_r. apply rnd_1.
Qed.
Lemma log_ratios_64 (l : libm) (m : entropy_model (Bops l)) (ps : list b64) : em_cols m = 2%nat -> em_rows m = map (fun p => [b64_sub (b64_z 1) p; p]) ps -> log_ratios (Bops l) m = Ok (map (ratio l) ps).
Proof.
  intros C Rw. unfold log_ratios, column. rewrite C. change (F (Bops l)) with b64 in *. rewrite Rw. cbn [Nat.ltb Nat.leb bind]. rewrite !map_map. cbn [nth].
  rewrite broadcast_same by (now rewrite !map_length). f_equal. unfold zip_with. clear. induction ps as [|p ps IH]; [reflexivity|]. cbn [map combine]. rewrite IH. reflexivity.
Qed.
Lemma any_64 idx mask j : length mask = length idx -> nth j mask false = true -> nth j idx 0%nat <> 0%nat -> any_index (sel idx mask) = true.
Proof.
  intros L E N. unfold any_index. apply existsb_exists. exists (nth j idx 0%nat). split; [|destruct (Nat.eqb_spec (nth j idx 0%nat) 0); [contradiction|reflexivity]].
  apply (sel_in idx mask _ 0%nat L). exists j. split; [|split; [exact E|reflexivity]].
  destruct (Nat.lt_ge_cases j (length idx)) as [H|H]; [exact H|]. rewrite nth_overflow in N by exact H. congruence.
Qed.
Lemma predict_model_64 (l : libm) (c : cd_conf (Bops l)) f data m size : good_exp l -> good_log l -> flip_rate f ->
  fin (cd_center _ c) -> Rabs (val (cd_center _ c)) <= bpow radix2 52 -> fin (cd_slope _ c) -> Rabs (val (cd_slope _ c)) <= bpow radix2 900 ->
  model_of f (length (cd_idx _ c)) data m -> Forall (fun b => length b = length (cd_idx _ c)) data -> (1 <= length (cd_idx _ c))%nat -> (Z.of_nat (length data) <= 2 ^ 52)%Z ->
  NoDup (cd_idx _ c) -> Forall (fun i => (i < size)%nat) (cd_idx _ c) ->
  exists out : list b64, cd_predict (Bops l) c m size = Ok out /\ length out = size /\
    (forall q, (q < size)%nat -> ~ In q (cd_idx _ c) -> exists y, nth_error out q = Some y /\ fin y /\ val y = 0) /\
    forall j, (j < length (cd_idx _ c))%nat -> exists y, nth_error out (nth j (cd_idx _ c) 0%nat) = Some y /\ fin y /\ Rabs (val y) <= 1000 /\
      ((2 * votes data 1 j <= length data)%nat -> 0 <= val y) /\ ((length data <= 2 * votes data 1 j)%nat -> val y <= 0) /\
      (fin (cd_threshold _ c) -> 0 < val (cd_threshold _ c) -> nth j (cd_idx _ c) 0%nat <> 0%nat ->
       (cd_train _ c = true -> 0 <= val (cd_slope _ c) /\ (2 <= length data)%nat /\ val (cd_center _ c) <= INR (length data)) ->
        (votes data 1 j = 0%nat -> / 4 <= val y) /\ (votes data 1 j = length data -> val y <= - / 4)).
Proof.
  intros Ge Gl Hf Fc Bc Fs Bs (Ed & Ec & ps & hs & Lp & Lh & Er & Ee & K) Hd Hn Bd N Rg. set (idx := cd_idx _ c) in *.
  destruct (z_spec 0 ltac:(lia)) as [F0 V0]. destruct one as [F1 V1].
  set (mask := low_entropy (Bops l) (cd_threshold _ c) m). assert (Em : mask = map (fun h => Bltb h (cd_threshold _ c)) hs) by (unfold mask, low_entropy; change (F (Bops l)) with b64 in *; rewrite Ee; reflexivity).
  assert (Lm : length mask = length idx) by (rewrite Em, map_length; exact Lh).
  assert (Kj : forall j, (j < length idx)%nat -> exists p h, nth_error ps j = Some p /\ nth_error hs j = Some h /\ knows_bit f (votes data 1 j) (length data) p h /\ nth j mask false = Bltb h (cd_threshold _ c)).
  { intros j Hj. destruct (nth_error ps j) as [p|] eqn:Ep; [|apply nth_error_None in Ep; lia]. destruct (nth_error hs j) as [h|] eqn:Eh; [|apply nth_error_None in Eh; lia].
    exists p, h. split; [reflexivity|]. split; [reflexivity|]. split; [apply (K j); assumption|]. rewrite Em. apply nth_error_nth. exact (map_nth_error (fun h : b64 => Bltb h (cd_threshold _ c)) j hs Eh). }
  assert (Const : forall j, (j < length idx)%nat -> fin (cd_threshold _ c) -> 0 < val (cd_threshold _ c) -> votes data 1 j = 0%nat \/ votes data 1 j = length data -> nth j mask false = true).
  { intros j Hj Ft Pt V. destruct (Kj j Hj) as (p & h & _ & _ & Kb & ->). destruct Kb as (_ & _ & K0 & K1 & _ & _ & _ & Kf & _ & Kz).
    apply ltb_spec; auto. assert (val h = 0); [|lra]. apply Kz. destruct V as [V|V]; [left|right; auto]. apply K0. rewrite V. unfold Rdiv. cbn [INR]. rewrite Rmult_0_l, rnd_0. destruct Hf as [_ Hf]. lra. }
  assert (Esz : em_size (em_data m) = length data).
  { rewrite Ed. unfold em_size, em_empty. destruct data as [|b t]; [reflexivity|]. inversion Hd as [|? ? Lb _]; subst. destruct b; [cbn in Lb; lia|reflexivity]. }
  set (w := if cd_train _ c then model_confidence (Bops l) (Z.of_nat (em_size (em_data m))) (cd_center _ c) (cd_slope _ c) else b64_z 1).
  destruct (model_confidence_spec l (Z.of_nat (length data)) (cd_center _ c) (cd_slope _ c) Ge Fc Bc Fs Bs ltac:(lia)) as (C1 & C2 & _ & C3 & _). cbv zeta in *.
  assert (W : fin w /\ 0 <= val w <= 1 /\ ((cd_train _ c = true -> 0 <= val (cd_slope _ c) /\ (2 <= length data)%nat /\ val (cd_center _ c) <= INR (length data)) -> / 2 <= val w)).
  { unfold w. rewrite Esz. destruct (cd_train _ c).
    - split; [exact C1|]. split; [exact C2|]. intro H. destruct (H eq_refl) as (A & B & C). apply C3; [exact A|lia|]. rewrite <- INR_IZR_INZ. exact C.
    - split; [exact F1|]. rewrite V1. split; [lra|]. intros _. lra. }
  destruct W as (Fw & Rw & Hw).
  assert (Zeros : (forall j, (j < length idx)%nat -> nth j idx 0%nat <> 0%nat -> fin (cd_threshold _ c) -> 0 < val (cd_threshold _ c) ->
       (cd_train _ c = true -> 0 <= val (cd_slope _ c) /\ (2 <= length data)%nat /\ val (cd_center _ c) <= INR (length data)) -> ~ (votes data 1 j = 0%nat \/ votes data 1 j = length data)) ->
    cd_predict (Bops l) c m size = Ok (repeat (b64_z 0) size) -> exists out : list b64, cd_predict (Bops l) c m size = Ok out /\ length out = size /\
    (forall q, (q < size)%nat -> ~ In q idx -> exists y, nth_error out q = Some y /\ fin y /\ val y = 0) /\
    forall j, (j < length idx)%nat -> exists y, nth_error out (nth j idx 0%nat) = Some y /\ fin y /\ Rabs (val y) <= 1000 /\
      ((2 * votes data 1 j <= length data)%nat -> 0 <= val y) /\ ((length data <= 2 * votes data 1 j)%nat -> val y <= 0) /\
      (fin (cd_threshold _ c) -> 0 < val (cd_threshold _ c) -> nth j idx 0%nat <> 0%nat ->
       (cd_train _ c = true -> 0 <= val (cd_slope _ c) /\ (2 <= length data)%nat /\ val (cd_center _ c) <= INR (length data)) ->
        (votes data 1 j = 0%nat -> / 4 <= val y) /\ (votes data 1 j = length data -> val y <= - / 4))).
  { intros No E. exists (repeat (b64_z 0) size). split; [exact E|]. split; [apply repeat_length|].
    assert (Z : forall q, (q < size)%nat -> nth_error (repeat (b64_z 0) size) q = Some (b64_z 0)) by (intros q Hq; rewrite (nth_error_nth' _ (b64_z 0)) by (rewrite repeat_length; exact Hq); rewrite nth_repeat; reflexivity).
    split; [intros q Hq _; exists (b64_z 0); auto|]. intros j Hj. exists (b64_z 0). rewrite V0, Rabs_R0. split; [apply Z; rewrite Forall_forall in Rg; apply Rg, nth_In; exact Hj|].
    split; [exact F0|]. split; [lra|]. split; [intro; lra|]. split; [intro; lra|]. intros A1 A2 A3 A4. specialize (No j Hj A3 A1 A2 A4). split; intro; exfalso; auto. }
  unfold cd_predict in Zeros |- *. fold idx in Zeros |- *. fold mask in Zeros |- *. rewrite mask_index_ok in Zeros |- * by exact Lm. cbn [bind] in Zeros |- *.
  destruct (any_index (sel idx mask)) eqn:Ea; cbn [negb] in Zeros |- *.
  2:{ apply Zeros; [|reflexivity]. intros j Hj Nz A1 A2 _ V. specialize (Const j Hj A1 A2 V). rewrite (any_64 idx mask j Lm Const Nz) in Ea. discriminate Ea. }
  change (fz (Bops l) 1) with (b64_z 1) in Zeros |- *. fold w in Zeros |- *. change (flt (Bops l) (fz (Bops l) 0) w) with (Bltb (b64_z 0) w) in Zeros |- *.
  destruct (Bltb (b64_z 0) w) eqn:Ew.
  2:{ apply Zeros; [|reflexivity]. intros j Hj Nz A1 A2 A4 V. specialize (Hw A4). assert (X : Bltb (b64_z 0) w = true) by (apply ltb_spec; auto; rewrite V0; lra). congruence. }
  clear Zeros. rewrite (log_ratios_64 l m ps Ec Er). cbn [bind]. rewrite mask_index_ok by (rewrite map_length; lia). cbn [bind]. rewrite <- (sel_map (fmul (Bops l) w)).
  set (r := map (fmul (Bops l) w) (map (ratio l) ps)). change (fz (Bops l) 0) with (b64_z 0).
  destruct (add_selected (Bops l) (repeat (b64_z 0) size) r idx mask (b64_z 0) N) as (out & Eo & Lo & H1 & H2 & H3).
  { rewrite repeat_length. exact Rg. } { exact Lm. } { unfold r. rewrite !map_length. exact Lp. }
  exists out. split; [exact Eo|]. change (F (Bops l)) with b64 in *. rewrite repeat_length in Lo. split; [exact Lo|].
  split. { intros q Hq Nq. exists (b64_z 0). split; [|split; [exact F0|exact V0]]. rewrite (nth_error_nth' _ (b64_z 0)) by lia. f_equal. rewrite (H3 q Nq). apply nth_repeat. }
  intros j Hj. assert (Hs : (nth j idx 0 < size)%nat) by (rewrite Forall_forall in Rg; apply Rg, nth_In; exact Hj).
  destruct (Kj j Hj) as (p & h & Ep & _ & Kb & Ej). destruct Kb as (K1 & K2 & K3 & K4 & K5 & K6 & _). destruct (ratio_p l p Gl K1 K2) as (M1 & M2 & M3 & M4 & M5 & M6).
  destruct (shift_spec (b64_z 0) w (ratio l p) F0 ltac:(rewrite V0, Rabs_R0; apply bpow_ge_0) Fw Rw M1 M2) as (S1 & _ & S3 & S4 & S5 & S6 & S7). cbv zeta in *. rewrite V0 in S3, S4, S5, S6.
  assert (F4 : fmt (/ 4)) by (change (/ 4) with (bpow radix2 (-2)); apply generic_format_bpow; cbn; lia).
  rewrite Rplus_0_l, (rnd_id _ F4) in S5. replace (0 - / 4) with (- / 4) in S6 by ring. rewrite (rnd_id _ (generic_format_opp _ _ _ F4)) in S6.
  destruct (nth j mask false) eqn:Eb.
  - exists (b64_add (b64_z 0) (b64_mul w (ratio l p))). split.
    + rewrite (nth_error_nth' _ (b64_z 0)) by lia. f_equal. rewrite (H1 j Hj Eb), nth_repeat. change (fadd (Bops l)) with b64_add. f_equal.
      apply nth_error_nth. unfold r. exact (map_nth_error (fmul (Bops l) w) j _ (map_nth_error (ratio l) j ps Ep)).
    + split; [exact S1|]. split; [apply S7, V0|]. split; [auto|]. split; [auto|]. intros A1 A2 A3 A4. specialize (Hw A4). split; intro V.
      * apply S5; [exact Hw|]. apply M6, K3. rewrite V. unfold Rdiv. cbn [INR]. rewrite Rmult_0_l, rnd_0. destruct Hf as [_ Hf]. lra.
      * apply S6; [exact Hw|]. apply M5, K4, V.
  - exists (b64_z 0). split; [rewrite (nth_error_nth' _ (b64_z 0)) by lia; f_equal; rewrite (H2 j Hj Eb); apply nth_repeat|].
    split; [exact F0|]. rewrite V0, Rabs_R0. split; [lra|]. split; [intro; lra|]. split; [intro; lra|]. intros A1 A2 _ _. split; intro V; exfalso.
    + rewrite (Const j Hj A1 A2 (or_introl V)) in Eb. discriminate Eb.
    + rewrite (Const j Hj A1 A2 (or_intror V)) in Eb. discriminate Eb.
Qed.
