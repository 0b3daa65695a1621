(** C88: simulations with several decoders. *)
From Coq Require Import List Arith ZArith Bool Lia ZifyBool ZifyNat Reals Lra QArith.
From Verif.Model Require Import Py Float InfoTheory Clustering BitOps DecoderBase Simulation SimVariants.
From Verif.Spec Require Import RealOps SimulationSpec SimVariantsSpec.
From Verif.Proofs Require Import Base SimulationP SimVariantsP.
Import ListNotations.
Close Scope R_scope.
Close Scope Q_scope.

(** The decoders do not disturb each other: a run with several gives each the table that it has in a run alone, on the same received words. *)
Theorem c88_alone : forall St C (channel : nat -> list Z -> res (list Z * C)) encoded (ds : list (@machine St C)) ss, length ss = length ds -> ds <> [] ->
  forall rx ts, many_loop ds channel encoded ss = Ok (rx, ts) <->
    Forall2 (fun dm t => many_loop [fst dm] channel encoded [snd dm] = Ok (rx, [t])) (combine ds ss) ts.
Proof. intros. apply many_alone; assumption. Qed.
Print Assumptions c88_alone.

(** Binary symmetric channel with any decoders; each decoder is given the channel model's values of the received word and the drawn positions. *)
Theorem c88_bsc : forall FO St columns after (ds : list (@machine St _)) llr nn k no_errors errors encoded ss rx las ms,
  encoded <> [] -> Forall (word nn) encoded -> length errors = length encoded -> Forall (draw nn no_errors) errors ->
  length rx = length encoded -> (forall i, i < length encoded -> received (nth i encoded []) (nth i errors []) (nth i rx [])) ->
  ds <> [] -> length ss = length ds -> length columns = length ds -> length las = length ds ->
  Forall2 (fun dm la => feeds (fst dm) (snd dm) (combine (map llr rx) errors) la) (combine ds ss) las ->
  Forall2 (fun m la => proper_answers nn m la) ms las ->
  exists ts, Forall2 (tabled encoded) las ts /\
   (forall e, after ts = Err e -> simulate_many FO columns after ds llr nn k no_errors errors encoded ss = Err e) /\
   (after ts = Ok tt -> columns <> map S ms -> simulate_many FO columns after ds llr nn k no_errors errors encoded ss = Err ValueError) /\
   (after ts = Ok tt -> columns = map S ms ->
    exists r, simulate_many FO columns after ds llr nn k no_errors errors encoded ss = Ok r /\
     rp_raw_ber FO r = fdiv FO (fz FO (Z.of_nat no_errors)) (fz FO (Z.of_nat nn)) /\
     length (rp_data FO r) = length encoded /\
     (forall i, i < length encoded -> nth_error (rp_data FO r) i =
        Some (DataRow (nth i encoded []) (nth i rx []) (ErrIdx (nth i errors []))
                (length (filter (fun p => Nat.ltb p k) (differences (nth i encoded []) (nth i rx []))))
                (length (filter (fun p => negb (Nat.ltb p k)) (differences (nth i encoded []) (nth i rx [])))))) /\
     Forall2 (measured FO nn encoded) las (rp_tables FO r)).
Proof.
  intros FO St columns after ds llr nn k no_errors errors encoded ss rx las ms Hn W Le De Lr R Hd Ls Lc Ll Fd Pa.
  assert (Dr : forall i, i < length encoded -> draw nn no_errors (nth i errors [])) by (intros i Hi; rewrite Forall_forall in De; apply De, nth_In; lia).
  assert (Wi : forall i, i < length encoded -> word nn (nth i encoded [])) by (intros i Hi; rewrite Forall_forall in W; apply W, nth_In; exact Hi).
  assert (L : many_loop ds (fun i w => do! row <- index errors i in do! c <- flip_at w row in Ok (c, (llr c, row))) encoded ss = Ok (rx, map (rows encoded) las)).
  { apply (many_tables _ nn) with (cs := combine (map llr rx) errors); auto.
    - rewrite combine_length, map_length. lia.
    - intros i Hi [d1 d2]. unfold index. rewrite (nth_error_nth' errors []) by lia. cbn [bind]. destruct (flip_received nn no_errors _ _ (Wi i Hi) (Dr i Hi)) as (r & E & Rr).
      rewrite E. cbn [bind]. assert (U : r = nth i rx []).
      { destruct Rr as [[L1 B1] R1], (R i Hi) as [[L2 B2] R2]. destruct (Wi i Hi) as [Lw Bw]. apply (nth_ext _ _ 0%Z 0%Z); [congruence|]. intros p Hp. rewrite L1 in Hp. specialize (R1 p Hp). specialize (R2 p Hp).
        assert (X1 : bit (nth p r 0%Z)) by (rewrite Forall_forall in B1; apply B1, nth_In; lia). assert (X2 : bit (nth p (nth i rx []) 0%Z)) by (rewrite Forall_forall in B2; apply B2, nth_In; lia).
        assert (X3 : bit (nth p (nth i encoded []) 0%Z)) by (rewrite Forall_forall in Bw; apply Bw, nth_In; exact Hp). unfold bit in *. destruct (in_dec Nat.eq_dec p (nth i errors [])) as [I|I]; [apply R1 in I as I1; apply R2 in I; lia|].
        destruct (Z.eq_dec (nth p r 0%Z) (nth p (nth i encoded []) 0%Z)) as [E1|E1]; [|tauto]. destruct (Z.eq_dec (nth p (nth i rx []) 0%Z) (nth p (nth i encoded []) 0%Z)) as [E2|E2]; [congruence|tauto]. }
      subst r. rewrite combine_nth by (rewrite map_length; lia). rewrite (nth_indep _ d1 (llr [])) by (rewrite map_length; lia). rewrite map_nth, (nth_indep errors d2 []) by lia. reflexivity.
    - clear -Fd Pa. revert ms Pa. induction Fd as [|dm la l las H Fd IH]; intros ms Pa; [constructor|]. inversion Pa as [|m ? ms' ? P1 P2]; subst. constructor; [|apply (IH ms'); exact P2]. split; [exact H|].
      eapply Forall_impl; [|exact P1]. intros ? [? ?]; assumption. }
  assert (F2 : Forall2 (fun m la => length la = length encoded /\ Forall (fun a => a_items a = m) la) ms las).
  { assert (Lla : Forall (fun la : list answer => length la = length encoded) las).
    { clear -Fd Lr Le. induction Fd as [|dm la l las H Fd IH]; constructor; auto. apply feeds_len in H. rewrite combine_length, map_length in H. lia. }
    clear -Lla Pa. induction Pa as [|m la ms las P1 Pa IH]; inversion Lla; subst; constructor; auto. split; [assumption|]. eapply Forall_impl; [|exact P1]. intros ? [? ?]; assumption. }
  set (data := map (fun er => match er with (en, r, e) =>
                       DataRow en r (ErrIdx e) (count_if (fun i => Nat.ltb i k) e) (count_if (fun i => negb (Nat.ltb i k)) e) end) (combine (combine encoded rx) errors)).
  set (raw := fdiv FO (fz FO (Z.of_nat no_errors)) (fz FO (Z.of_nat nn))).
  assert (E : simulate_many FO columns after ds llr nn k no_errors errors encoded ss = do! _ <- after (map (rows encoded) las) in report_of FO columns raw data encoded (map (rows encoded) las)).
  { unfold simulate_many. destruct encoded as [|w0 e0]; [contradiction|]. rewrite L. reflexivity. }
  destruct (rest_run FO nn columns after raw data encoded las ms Hn W ltac:(congruence) F2) as (ts & T1 & -> & T2 & T3 & T4). rewrite <- E in T2, T3, T4.
  exists (map (rows encoded) las). split; [exact T1|]. split; [exact T2|]. split; [exact T3|]. intros A1 A2. destruct (T4 A1 A2) as (r & E1 & E2 & E3 & E4). exists r. split; [exact E1|]. split; [exact E2|].
  rewrite E3. split; [unfold data; rewrite map_length, !combine_length; lia|]. split; [|exact E4].
  intros i Hi. unfold data. rewrite nth_error_map. rewrite (combine_nth' _ _ i (nth i encoded [], nth i rx []) (nth i errors [])).
  - cbn [option_map]. rewrite !(row_counts nn no_errors (nth i encoded []) (nth i errors []) (nth i rx [])) by auto. reflexivity.
  - apply combine_nth'; apply nth_error_nth'; lia.
  - apply nth_error_nth'. lia.
Qed.
Print Assumptions c88_bsc.

(** Gaussian noise with any decoders; each is given the noisy values and what the channel model makes of them. *)
Theorem c88_gauss : forall FO St counts columns after (ds : list (@machine St _)) llr nn noise encoded ss values rx las ms,
  encoded <> [] -> Forall (word nn) encoded -> length noise = length encoded -> Forall (fun x => length x = nn) noise ->
  length values = length encoded -> length rx = length encoded ->
  (forall i, i < length encoded -> gaussian FO nn (nth i encoded []) (nth i noise []) (nth i values []) (nth i rx [])) ->
  ds <> [] -> length ss = length ds -> length columns = length ds -> length las = length ds ->
  Forall2 (fun dm la => feeds (fst dm) (snd dm) (map (fun y => (y, llr y)) values) la) (combine ds ss) las ->
  Forall2 (fun m la => proper_answers nn m la) ms las ->
  exists ts, Forall2 (tabled encoded) las ts /\
   (forall e, after ts = Err e -> simulate_gauss FO counts columns after ds llr nn noise encoded ss = Err e) /\
   (after ts = Ok tt -> columns <> map S ms -> simulate_gauss FO counts columns after ds llr nn noise encoded ss = Err ValueError) /\
   (after ts = Ok tt -> columns = map S ms ->
    exists r, simulate_gauss FO counts columns after ds llr nn noise encoded ss = Ok r /\
     rp_raw_ber FO r = fdiv FO (fdiv FO (fz FO (Z.of_nat (total (map (fun i => length (differences (nth i encoded []) (nth i rx []))) (seq 0 (length encoded))))))
                                        (fz FO (Z.of_nat nn))) (fz FO (Z.of_nat (length encoded))) /\
     length (rp_data FO r) = length encoded /\
     (forall i, i < length encoded -> exists mask, mask = map (fun p => negb (nth p (nth i encoded []) 0 =? nth p (nth i rx []) 0)%Z) (seq 0 nn) /\
        nth_error (rp_data FO r) i = Some (DataRow (nth i encoded []) (nth i rx []) (ErrMask mask) (fst (counts mask)) (snd (counts mask)))) /\
     Forall2 (measured FO nn encoded) las (rp_tables FO r)).
Proof.
  intros FO St counts columns after ds llr nn noise encoded ss values rx las ms Hn W Lx Wx Lv Lr R Hd Ls Lc Ll Fd Pa.
  assert (Wi : forall i, i < length encoded -> word nn (nth i encoded [])) by (intros i Hi; rewrite Forall_forall in W; apply W, nth_In; exact Hi).
  assert (Xi : forall i, i < length encoded -> length (nth i noise []) = nn) by (intros i Hi; rewrite Forall_forall in Wx; apply Wx, nth_In; lia).
  assert (L : many_loop ds (fun i w => do! x <- index noise i in let y := noisy_word FO x w in Ok (hard FO y, (y, llr y))) encoded ss = Ok (rx, map (rows encoded) las)).
  { apply (many_tables _ nn) with (cs := map (fun y => (y, llr y)) values); auto.
    - rewrite map_length. exact Lv.
    - intros i Hi d1. unfold index. rewrite (nth_error_nth' noise []) by lia. cbn [bind]. cbv zeta. destruct (gaussian_values FO nn _ _ _ _ (Wi i Hi) (Xi i Hi) (R i Hi)) as [-> ->].
      rewrite (nth_indep _ d1 ((fun y => (y, llr y)) [])) by (rewrite map_length; lia). rewrite (map_nth (fun y => (y, llr y))). reflexivity.
    - clear -Fd Pa. revert ms Pa. induction Fd as [|dm la l las H Fd IH]; intros ms Pa; [constructor|]. inversion Pa as [|m ? ms' ? P1 P2]; subst. constructor; [|apply (IH ms'); exact P2]. split; [exact H|].
      eapply Forall_impl; [|exact P1]. intros ? [? ?]; assumption. }
  assert (F2 : Forall2 (fun m la => length la = length encoded /\ Forall (fun a => a_items a = m) la) ms las).
  { assert (Lla : Forall (fun la : list answer => length la = length encoded) las).
    { clear -Fd Lv. induction Fd as [|dm la l las H Fd IH]; constructor; auto. apply feeds_len in H. rewrite map_length in H. lia. }
    clear -Lla Pa. induction Pa as [|m la ms las P1 Pa IH]; inversion Lla; subst; constructor; auto. split; [assumption|]. eapply Forall_impl; [|exact P1]. intros ? [? ?]; assumption. }
  assert (Mi : forall i, i < length encoded -> nth_error (zip_with mask_row encoded rx) i = Some (mask_row (nth i encoded []) (nth i rx []))).
  { intros i Hi. unfold zip_with. rewrite nth_error_map. rewrite (combine_nth' _ _ i (nth i encoded []) (nth i rx [])) by (apply nth_error_nth'; lia). reflexivity. }
  set (msk := zip_with mask_row encoded rx) in *. assert (Lm : length msk = length encoded) by (unfold msk, zip_with; rewrite map_length, combine_length; lia).
  set (data := map (fun er => match er with (en, r, e) => DataRow en r (ErrMask e) (fst (counts e)) (snd (counts e)) end) (combine (combine encoded rx) msk)).
  set (raw := fdiv FO (fdiv FO (fz FO (Z.of_nat (sum_nat (map (count_if (fun b => b)) msk)))) (fz FO (Z.of_nat nn))) (fz FO (Z.of_nat (length encoded)))).
  assert (E : simulate_gauss FO counts columns after ds llr nn noise encoded ss = do! _ <- after (map (rows encoded) las) in report_of FO columns raw data encoded (map (rows encoded) las)).
  { unfold simulate_gauss. cbv zeta. cbv zeta in L. rewrite L. reflexivity. }
  destruct (rest_run FO nn columns after raw data encoded las ms Hn W ltac:(congruence) F2) as (ts & T1 & -> & T2 & T3 & T4). rewrite <- E in T2, T3, T4.
  exists (map (rows encoded) las). split; [exact T1|]. split; [exact T2|]. split; [exact T3|]. intros A1 A2. destruct (T4 A1 A2) as (r & E1 & E2 & E3 & E4). exists r. split; [exact E1|]. rewrite E2, E3. split; [|split; [|split; [|exact E4]]].
  - unfold raw. assert (M : map (count_if (fun b => b)) msk = map (fun i => length (differences (nth i encoded []) (nth i rx []))) (seq 0 (length encoded))).
    { apply (nth_error_ext' _ _). intros i. destruct (Nat.lt_ge_cases i (length encoded)) as [Hi|Hi].
      - rewrite !nth_error_map, Mi by exact Hi. rewrite (nth_error_nth' (seq 0 (length encoded)) 0) by (rewrite seq_length; exact Hi). rewrite seq_nth by exact Hi. cbn [option_map plus].
        destruct (mask_counts nn 0 (nth i encoded []) (nth i rx []) (Wi i Hi) (proj1 (proj2 (R i Hi)))) as (_ & _ & ->). reflexivity.
      - rewrite (proj2 (nth_error_None _ _)), (proj2 (nth_error_None _ _)); [reflexivity|rewrite map_length, seq_length; lia|rewrite map_length; lia]. }
    rewrite M. reflexivity.
  - unfold data. rewrite map_length, !combine_length. lia.
  - intros i Hi. exists (mask_row (nth i encoded []) (nth i rx [])). split; [apply mask_row_map; [apply Wi; exact Hi|apply (R i Hi)]|].
    unfold data. rewrite nth_error_map. rewrite (combine_nth' _ _ i (nth i encoded [], nth i rx []) (mask_row (nth i encoded []) (nth i rx []))); [reflexivity| |apply Mi; exact Hi].
    apply combine_nth'; apply nth_error_nth'; lia.
Qed.
Print Assumptions c88_gauss.

(** The columns of error counts with Gaussian noise.  Sliced masks count the errors of the information and of the parity bits; compared masks (the
    script for the classifying entropy decoder) give the length of the word and zero, whatever the errors. *)
Theorem c88_counts : forall nn k w r, word nn w -> word nn r ->
  sliced_counts k (map (fun p => negb (nth p w 0 =? nth p r 0)%Z) (seq 0 nn)) =
    (length (filter (fun p => Nat.ltb p k) (differences w r)), length (filter (fun p => negb (Nat.ltb p k)) (differences w r))) /\
  (2 <= k -> compared_counts k (map (fun p => negb (nth p w 0 =? nth p r 0)%Z) (seq 0 nn)) = (nn, 0)).
Proof.
  intros nn k w r Ww Wr. rewrite <- (mask_row_map nn) by assumption. split.
  - unfold sliced_counts. destruct (mask_counts nn k w r Ww Wr) as (-> & -> & _). reflexivity.
  - intros Hk. rewrite compared_all by exact Hk. rewrite (mask_row_map nn) by assumption. rewrite map_length, seq_length. reflexivity.
Qed.
Print Assumptions c88_counts.

(** The channel model for Gaussian noise multiplies by a positive number: it keeps the sign and the order of the values. *)
Theorem c88_llr : forall (sigma : R) (y : list R), sigma <> 0%R ->
  length (awgn_llr Rops sigma y) = length y /\
  (forall p, p < length y -> (nth p (awgn_llr Rops sigma y) 0 = 2 * nth p y 0 / sigma ^ 2)%R) /\
  (forall p, p < length y -> (nth p (awgn_llr Rops sigma y) 0 < 0 <-> nth p y 0 < 0)%R).
Proof.
  intros sigma y Hs. assert (Q : (0 < sigma * sigma)%R) by nra. assert (V : forall p, p < length y -> (nth p (awgn_llr Rops sigma y) 0 = 2 * nth p y 0 / (sigma * sigma))%R).
  { intros p Hp. unfold awgn_llr. set (g := fun v => fdiv Rops (fmul Rops (fz Rops 2) v) (fmul Rops sigma sigma)). rewrite (nth_indep _ 0%R (g 0%R)) by (rewrite map_length; exact Hp). rewrite map_nth. reflexivity. }
  split; [apply map_length|]. split.
  - intros p Hp. rewrite V by exact Hp. f_equal. f_equal. ring.
  - intros p Hp. rewrite V by exact Hp. set (v := nth p y 0%R). split.
    + intros H. apply Rmult_lt_compat_r with (r := (sigma * sigma)%R) in H; [|exact Q]. unfold Rdiv in H. rewrite Rmult_assoc, Rinv_l in H by lra. lra.
    + intros H. unfold Rdiv. assert (I : (0 < / (sigma * sigma))%R) by (apply Rinv_0_lt_compat; exact Q). nra.
Qed.
Print Assumptions c88_llr.

(** Logged recovery rates: with the pure decoder as guard there is a rate exactly when some word was not decoded, and no error. *)
Theorem c88_recovery : forall (n base success : Z),
  recovery_rate Rops n base base success =
    (if (base <? n)%Z then Ok (Some (IZR (success - base) / IZR (n - base))%R) else Ok None) /\
  ((base < n)%Z -> (success <= n)%Z -> (IZR (success - base) / IZR (n - base) <= 1)%R /\ ((IZR (success - base) / IZR (n - base) = 1)%R <-> success = n)).
Proof.
  intros n base success. split.
  - unfold recovery_rate. destruct (Z.ltb_spec 0 (n - base)), (Z.ltb_spec base n); try lia; [|reflexivity]. destruct (Z.eqb_spec (n - base) 0); [lia|reflexivity].
  - intros H1 H2. assert (D : (0 < IZR (n - base))%R) by (apply IZR_lt; lia). assert (L : (IZR (success - base) <= IZR (n - base))%R) by (apply IZR_le; lia). split.
    + apply Rmult_le_reg_r with (1 := D). unfold Rdiv. rewrite Rmult_assoc, Rinv_l by lra. lra.
    + split; [|intros ->; field; lra]. intros H. assert (E : (IZR (success - base) = IZR (n - base))%R).
      { transitivity (IZR (success - base) / IZR (n - base) * IZR (n - base))%R; [field; lra|rewrite H; ring]. }
      apply eq_IZR in E. lia.
Qed.
Print Assumptions c88_recovery.

(** Comparing with a pre-trained decoder: the step is lost exactly when the pure decoder decodes every word and the pre-trained one does not. *)
Theorem c88_pretrained : forall FO n l e p, pretrained_logs FO n [l; e; p] =
  if ((successes l =? n) && (successes p <? n))%Z then Err ZeroDivision else Ok tt.
Proof.
  intros FO n l e p. unfold pretrained_logs, index. cbn [nth_error bind]. unfold recovery_rate.
  destruct (Z.eqb_spec (successes l) n), (Z.ltb_spec (successes p) n), (Z.ltb_spec 0 (n - successes l)), (Z.ltb_spec 0 (n - successes p)), (Z.eqb_spec (n - successes l) 0); try lia; cbn [bind andb]; try reflexivity.
Qed.
Print Assumptions c88_pretrained.

(** The other scripts lose no step to their logs. *)
Theorem c88_logs : forall FO n l e ts, recovery_logs FO n (l :: e :: ts) = Ok tt.
Proof.
  intros FO n l e ts. unfold recovery_logs, index. cbn [nth_error bind]. unfold recovery_rate. destruct (Z.ltb_spec 0 (n - successes l)); [|reflexivity]. destruct (Z.eqb_spec (n - successes l) 0); [lia|reflexivity].
Qed.
Print Assumptions c88_logs.

(** A word counts as decoded when no bit of the answer is wrong: a table has as many successes as words exactly if this holds for all. *)
Theorem c88_successes : forall t : list (answer * Z), successes t = Z.of_nat (length (filter (fun n => Z.eqb n 0) (map snd t))) /\
  (successes t = Z.of_nat (length t) <-> Forall (fun r => snd r = 0%Z) t) /\ (successes t = 0%Z <-> Forall (fun r => snd r <> 0%Z) t).
Proof.
  intros t. assert (E : successes t = Z.of_nat (length (filter (fun n => Z.eqb n 0) (map snd t)))).
  { unfold successes, count_if. f_equal. induction t as [|[a n] t IH]; [reflexivity|]. unfold sum_nat in *. cbn [map filter snd fold_right fold_left]. cbn [map filter snd fold_right fold_left] in IH. rewrite IH. destruct (Z.eqb n 0); reflexivity. }
  split; [exact E|]. rewrite E. clear E.
  assert (B : forall t : list (answer * Z), length (filter (fun n => Z.eqb n 0) (map snd t)) <= length t).
  { clear. induction t as [|[a n] t IH]; [auto|]. cbn [map filter snd length]. destruct (Z.eqb n 0); cbn [length]; lia. }
  split; induction t as [|[a n] t IH]; try (split; [constructor|reflexivity]); cbn [map filter snd length]; specialize (B t); destruct (Z.eqb_spec n 0) as [->|Hn]; cbn [length].
  - split; [intros H; constructor; [reflexivity|apply IH; lia]|intros H; inversion H; subst; apply IH in H3; lia].
  - split; [lia|intros H; inversion H; contradiction].
  - split; [lia|intros H; inversion H as [|? ? K]; cbn in K; lia].
  - split; [intros H; constructor; [exact Hn|apply IH; lia]|intros H; inversion H; subst; apply IH in H3; lia].
Qed.
Print Assumptions c88_successes.

(** The averaged simulation draws the positions once, [big] for each word, and a step takes the first [m]: a draw of [m] positions, or of [big] if [m]
    is larger; the errors of a step are errors of every later step. *)
Theorem c88_nested : forall nn big error_idx m, Forall (draw nn big) error_idx ->
  length (nested_errors error_idx m) = length error_idx /\
  Forall (draw nn (Nat.min m big)) (nested_errors error_idx m) /\
  forall m', m <= m' -> forall i, i < length error_idx -> incl (nth i (nested_errors error_idx m) []) (nth i (nested_errors error_idx m') []).
Proof.
  intros nn big error_idx m H. unfold nested_errors. split; [apply map_length|]. split.
  - apply Forall_forall. intros r Hr. apply in_map_iff in Hr as (row & <- & Hr). apply draw_firstn. rewrite Forall_forall in H. apply H. exact Hr.
  - intros m' Hm i Hi. rewrite !nth_firstns.
    intros p Hp. replace m with (Nat.min m m') in Hp by lia. rewrite <- firstn_firstn in Hp. rewrite <- (firstn_skipn m (firstn m' (nth i error_idx []))). apply in_or_app. left. exact Hp.
Qed.
Print Assumptions c88_nested.

(** Multiplied data: 2^times copies in a row. *)
Theorem c88_multiplied : forall A times (l : list A), multiplied times l = concat (repeat l (2 ^ times)) /\ length (multiplied times l) = 2 ^ times * length l.
Proof.
  intros A times l. rewrite multiplied_copies. split; [reflexivity|]. generalize (2 ^ times). intros n. induction n as [|n IH]; [reflexivity|]. cbn [repeat concat Nat.mul]. rewrite app_length, IH. reflexivity.
Qed.
Print Assumptions c88_multiplied.

(** Examples: words of four bits; a decoder that repeats the signs of its input, and one that gives its previous input. *)
Definition c88_llr1 (w : list Z) : list Q := map (fun b => if (b =? 1)%Z then (-1)%Q else 1%Q) w.
Definition c88_signs {X} (s : list Z) (c : list Q * X) : res (answer * list Z) := Ok (Answer (hard Qops (fst c)) false 6, s).
Definition c88_late {X} (s : list Z) (c : list Q * X) : res (answer * list Z) := Ok (Answer s true 9, hard Qops (fst c)).
Definition c88_view (r : res (report Qops)) : option (Q * list data_row * list (list (answer * Z) * Q * Q)) :=
  match r with Ok st => Some (Qred (rp_raw_ber Qops st), rp_data Qops st, map (fun t => (t_rows Qops t, Qred (t_rate Qops t), Qred (t_ber Qops t))) (rp_tables Qops st)) | Err _ => None end.
Definition c88_err (r : res (report Qops)) : option exn := match r with Ok _ => None | Err e => Some e end.
Definition c88_sent : list (list Z) := [[1; 0; 1; 0]%Z; [1; 1; 1; 1]%Z].

Example c88_ex_bsc :
  c88_view (simulate_many Qops [7; 10; 10] (pretrained_logs Qops 2) [c88_signs; c88_late; c88_late] c88_llr1 4 2 2 [[1; 3]; [0; 1]] c88_sent [[]; [1; 0; 1; 0]%Z; [0; 0; 0; 0]%Z]) =
  Some (1 # 2,
    [(DataRow [1; 0; 1; 0]%Z [1; 1; 1; 1]%Z (ErrIdx [1; 3]) 1 1)%nat; (DataRow [1; 1; 1; 1]%Z [0; 0; 1; 1]%Z (ErrIdx [0; 1]) 2 0)%nat],
    [([(Answer [1; 1; 1; 1]%Z false 6%nat, 2%Z); (Answer [0; 0; 1; 1]%Z false 6%nat, 2%Z)], 0, 1 # 2);
     ([(Answer [1; 0; 1; 0]%Z true 9%nat, 0%Z); (Answer [1; 1; 1; 1]%Z true 9%nat, 0%Z)], 1, 0);
     ([(Answer [0; 0; 0; 0]%Z true 9%nat, 2%Z); (Answer [1; 1; 1; 1]%Z true 9%nat, 0%Z)], 1 # 2, 1 # 4)])%Q.
Proof. vm_compute. reflexivity. Qed.
(** The first decoder is right, the third is not: the comparison with the pre-trained decoder loses the step, the other logs do not. *)
Example c88_ex_lost :
  c88_err (simulate_many Qops [7; 10; 10] (pretrained_logs Qops 2) [c88_signs; c88_late; c88_late] c88_llr1 4 2 0 [[]; []] c88_sent [[]; [0; 0; 0; 0]%Z; [0; 0; 0; 0]%Z]) = Some ZeroDivision /\
  c88_err (simulate_many Qops [7; 10; 10] (recovery_logs Qops 2) [c88_signs; c88_late; c88_late] c88_llr1 4 2 0 [[]; []] c88_sent [[]; [0; 0; 0; 0]%Z; [0; 0; 0; 0]%Z]) = None /\
  c88_err (simulate_many Qops [7; 10; 9] (recovery_logs Qops 2) [c88_signs; c88_late; c88_late] c88_llr1 4 2 0 [[]; []] c88_sent [[]; [0; 0; 0; 0]%Z; [0; 0; 0; 0]%Z]) = Some ValueError.
Proof. vm_compute. repeat split. Qed.
Example c88_ex_gauss :
  c88_view (simulate_gauss Qops (compared_counts 2) [7; 10] (recovery_logs Qops 2) [c88_signs; c88_late] (awgn_llr Qops (1 # 2)%Q) 4
     [[0; -(3 # 2); 1 # 2; -2]; [0; 0; 0; 3]]%Q c88_sent [[]; [1; 0; 1; 1]%Z]) =
  Some (3 # 8,
    [(DataRow [1; 0; 1; 0]%Z [1; 1; 1; 1]%Z (ErrMask [false; true; false; true]) 4 0)%nat; (DataRow [1; 1; 1; 1]%Z [1; 1; 1; 0]%Z (ErrMask [false; false; false; true]) 4 0)%nat],
    [([(Answer [1; 1; 1; 1]%Z false 6%nat, 2%Z); (Answer [1; 1; 1; 0]%Z false 6%nat, 1%Z)], 0, 3 # 8);
     ([(Answer [1; 0; 1; 1]%Z true 9%nat, 1%Z); (Answer [1; 1; 1; 1]%Z true 9%nat, 0%Z)], 1 # 2, 1 # 8)])%Q.
Proof. vm_compute. reflexivity. Qed.
Example c88_ex_counts : sliced_counts 2 [false; true; false; true] = (1, 1) /\ compared_counts 2 [false; true; false; true] = (4, 0) /\ compared_counts 1 [false; true; false; true] = (2, 2).
Proof. repeat split. Qed.
Example c88_ex_nested : nested_errors [[5; 2; 7]; [1; 0; 6]] 2 = [[5; 2]; [1; 0]] /\ nested_errors [[5; 2; 7]; [1; 0; 6]] 4 = [[5; 2; 7]; [1; 0; 6]] /\ Forall (draw 8 3) [[5; 2; 7]; [1; 0; 6]].
Proof. split; [reflexivity|]. split; [reflexivity|]. repeat (apply Forall_cons || apply Forall_nil); (split; [repeat constructor; cbn; intuition lia|split; [reflexivity|intros p Hp; cbn in Hp; lia]]). Qed.
Example c88_ex_multiplied : multiplied 2 [1; 2] = [1; 2; 1; 2; 1; 2; 1; 2].
Proof. reflexivity. Qed.
Example c88_ex_gaussian : gaussian Qops 2 [1; 0]%Z [1 # 2; -(3 # 2)]%Q [-(1 # 2); -(1 # 2)]%Q [1; 1]%Z.
Proof.
  split; [reflexivity|]. split; [split; [reflexivity|repeat (apply Forall_cons || apply Forall_nil); right; reflexivity]|]. intros [|[|p]] Hp; [| |lia]; (split; [vm_compute; reflexivity|]); (split; [reflexivity|]); intros _; reflexivity.
Qed.
