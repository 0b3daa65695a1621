(** Lemmas on the simulations with several decoders. *)
From Coq Require Import List Arith ZArith Bool Lia.
From Verif.Model Require Import Py Float InfoTheory Clustering BitOps DecoderBase Simulation SimVariants.
From Verif.Spec Require Import SimulationSpec SimVariantsSpec.
From Verif.Proofs Require Import Base SimulationP.
Import ListNotations.

Lemma forall2_impl {A B} (P Q : A -> B -> Prop) l m : (forall a b, P a b -> Q a b) -> Forall2 P l m -> Forall2 Q l m.
Proof. intros H. induction 1; constructor; auto. Qed.

Section ManyP.
Context {St C : Type}.
Notation machine := (@machine St C).

Lemma decode_cons (d : machine) ds enc c s ss r : length ss = length ds ->
  (decode_all (d :: ds) enc c (s :: ss) = Ok r <-> exists row rows s' ss', r = (row :: rows, s' :: ss') /\ decode_all [d] enc c [s] = Ok ([row], [s']) /\ decode_all ds enc c ss = Ok (rows, ss')).
Proof.
  intros L. cbn [decode_all]. split.
  - intros H. destruct (d s c) as [[a s']|e]; [|discriminate]. cbn [bind] in *. destruct (hamming_distance _ _ 8) as [h|e]; [|discriminate]. cbn [bind] in *.
    destruct (decode_all ds enc c ss) as [[rows ss']|e]; [|discriminate]. cbn [bind] in H. injection H as <-. do 4 eexists. split; [reflexivity|]. split; reflexivity.
  - intros (row & rows & s' & ss' & -> & H1 & H2). destruct (d s c) as [[a s1]|e]; [|discriminate]. cbn [bind] in *. destruct (hamming_distance _ _ 8) as [h|e]; [|discriminate]. cbn [bind] in *.
    injection H1 as <- <-. rewrite H2. reflexivity.
Qed.
Lemma decode_lengths : forall (ds : list machine) enc c ss rows ss', length ss = length ds -> decode_all ds enc c ss = Ok (rows, ss') -> length rows = length ds /\ length ss' = length ds.
Proof.
  induction ds as [|d ds IH]; intros enc c [|s ss] rows ss' L H; try discriminate; [injection H as <- <-; auto|].
  apply decode_cons in H; [|cbn in L; lia]. destruct H as (row & rows1 & s' & ss1 & E & _ & H). injection E as -> ->. cbn in L. destruct (IH enc c ss rows1 ss1) as [H1 H2]; [lia|exact H|]. cbn. lia.
Qed.

Variable channel : nat -> list Z -> res (list Z * C).

Notation run ds := (fold_res (word_step ds channel)).

Lemma run_cons (d : machine) ds : forall words rx t ts s ss r, length ss = length ds -> length ts = length ds ->
  (run (d :: ds) words (rx, t :: ts, s :: ss) = Ok r <->
   exists rx' t' ts' s' ss', r = (rx', t' :: ts', s' :: ss') /\ run [d] words (rx, [t], [s]) = Ok (rx', [t'], [s']) /\ run ds words (rx, ts, ss) = Ok (rx', ts', ss')).
Proof.
  induction words as [|iw words IH]; intros rx t ts s ss r Ls Lt.
  - cbn [fold_res]. split; [intros H; injection H as <-; do 5 eexists; repeat split|]. intros (rx' & t' & ts' & s' & ss' & -> & H1 & H2). injection H1 as <- <- <-. injection H2 as <- <-. reflexivity.
  - cbn [fold_res]. unfold word_step at 1 3 5. destruct (channel (fst iw) (snd iw)) as [[co c]|e]; cbn [bind]; [|split; [discriminate|intros (? & ? & ? & ? & ? & _ & H & _); discriminate]].
    destruct (decode_all (d :: ds) (snd iw) c (s :: ss)) as [[rows0 ss0]|e] eqn:E.
    + apply decode_cons in E; [|exact Ls]. destruct E as (row & rows & s' & ss' & E & E1 & E2). injection E as -> ->. rewrite E1, E2. cbn [bind]. unfold zip_with. cbn [combine map fst snd].
      destruct (decode_lengths ds (snd iw) c ss rows ss' Ls E2) as [L1 L2]. apply IH; [lia|rewrite map_length, combine_length; lia].
    + cbn [bind]. split; [discriminate|]. intros (rx' & t' & ts' & s' & ss' & _ & H1 & H2).
      destruct (decode_all [d] (snd iw) c [s]) as [[r1 s1]|e1] eqn:E1; [|discriminate]. destruct (decode_all ds (snd iw) c ss) as [[r2 s2]|e2] eqn:E2; [|discriminate]. exfalso.
      destruct (decode_lengths [d] (snd iw) c [s] r1 s1 eq_refl E1) as [L1 L2]. destruct r1 as [|row [|]]; try discriminate. destruct s1 as [|s1 [|]]; try discriminate.
      assert (X : decode_all (d :: ds) (snd iw) c (s :: ss) = Ok (row :: r2, s1 :: s2)) by (apply decode_cons; [exact Ls|]; do 4 eexists; split; [reflexivity|]; split; [exact E1|exact E2]). congruence.
Qed.

Lemma run_lengths : forall words (ds : list machine) rx ts ss rx' ts' ss', length ss = length ds -> length ts = length ds -> run ds words (rx, ts, ss) = Ok (rx', ts', ss') -> length ts' = length ds /\ length ss' = length ds.
Proof.
  induction words as [|iw words IH]; intros ds rx ts ss rx' ts' ss' Ls Lt H; cbn [fold_res] in H; [injection H as <- <- <-; auto|].
  unfold word_step at 1 in H. destruct (channel (fst iw) (snd iw)) as [[co c]|e]; [|discriminate]. cbn [bind] in H. destruct (decode_all ds (snd iw) c ss) as [[rows ss1]|e] eqn:E; [|discriminate]. cbn [bind] in H.
  destruct (decode_lengths _ _ _ _ _ _ Ls E) as [L1 L2]. eapply IH in H; [exact H|exact L2|]. unfold zip_with. rewrite map_length, combine_length. lia.
Qed.

Lemma run_received : forall words (ds : list machine) rx ts ss rx' ts' ss', run ds words (rx, ts, ss) = Ok (rx', ts', ss') -> forall (d : machine) t s rx2 ts2 ss2, run [d] words (rx, [t], [s]) = Ok (rx2, ts2, ss2) -> rx2 = rx'.
Proof.
  induction words as [|iw words IH]; intros ds rx ts ss rx' ts' ss' H d t s rx2 ts2 ss2 H2; cbn [fold_res] in *; [congruence|].
  unfold word_step at 1 in H. unfold word_step at 1 in H2. destruct (channel (fst iw) (snd iw)) as [[co c]|e]; [|discriminate]. cbn [bind] in *. destruct (decode_all ds (snd iw) c ss) as [[rows ss1]|e] eqn:E; [|discriminate]. cbn [bind] in H.
  destruct (decode_all [d] (snd iw) c [s]) as [[r1 s1]|e1] eqn:E1; [|discriminate]. cbn [bind] in H2. destruct (decode_lengths [d] (snd iw) c [s] r1 s1 eq_refl E1) as [L1 L2]. destruct r1 as [|row [|]]; try discriminate. destruct s1 as [|s1 [|]]; try discriminate.
  exact (IH ds _ _ _ _ _ _ H d _ _ _ _ _ H2).
Qed.

Lemma many_alone encoded : forall (ds : list machine) ss, length ss = length ds -> ds <> [] ->
  forall rx ts, many_loop ds channel encoded ss = Ok (rx, ts) <-> Forall2 (fun dm t => many_loop [fst dm] channel encoded [snd dm] = Ok (rx, [t])) (combine ds ss) ts.
Proof.
  unfold many_loop. set (words := combine (seq 0 (length encoded)) encoded).
  assert (One : forall (d : machine) s rx t, (do! (rx, ts, _) <- run [d] words ([], map (fun _ => []) [d], [s]) in Ok (rx, ts)) = Ok (rx, [t]) <-> exists s', run [d] words ([], [[]], [s]) = Ok (rx, [t], [s'])).
  { intros d s rx t. cbn [map]. split.
    - destruct (run [d] words ([], [[]], [s])) as [[[rx' ts'] ss']|e] eqn:E; [|discriminate]. cbn [bind]. intros H. injection H as -> ->. destruct (run_lengths words [d] [] [[]] [s] _ _ _ eq_refl eq_refl E) as [_ L]. destruct ss' as [|s' [|]]; try discriminate. exists s'. reflexivity.
    - intros (s' & E). rewrite E. reflexivity. }
  assert (Two : forall (ds : list machine) ss rx ts, length ss = length ds -> ds <> [] -> (exists ss', run ds words ([], map (fun _ => []) ds, ss) = Ok (rx, ts, ss')) <-> Forall2 (fun dm t => exists s', run [fst dm] words ([], [[]], [snd dm]) = Ok (rx, [t], [s'])) (combine ds ss) ts).
  { induction ds as [|d ds IH]; intros [|s ss] rx ts L Hn; try discriminate; [contradiction|]. cbn in L. assert (Ls : length ss = length ds) by lia. cbn [map combine]. assert (Lt : length (map (fun _ : machine => @nil (answer * Z)) ds) = length ds) by apply map_length.
    destruct ds as [|d2 ds].
    - destruct ss; [|discriminate]. cbn [combine map]. split.
      + intros (ss' & H). destruct (run_lengths words [d] [] [[]] [s] _ _ _ eq_refl eq_refl H) as [L1 L2]. destruct ts as [|t [|]]; try discriminate. destruct ss' as [|s' [|]]; try discriminate. constructor; [|constructor]. exists s'. exact H.
      + intros H. inversion H as [|? t ? ts' (s' & E) H2]; subst. inversion H2; subst. exists [s']. exact E.
    - assert (Hn2 : d2 :: ds <> []) by discriminate. split.
      + intros (ss' & H). apply run_cons in H; auto. destruct H as (rx' & t' & ts' & s' & ss1 & E & H1 & H2). injection E as -> -> ->. constructor; [exists s'; exact H1|]. apply IH; auto. exists ss1. exact H2.
      + intros H. inversion H as [|? t ? ts' (s' & E) H2]; subst. apply IH in H2; auto. destruct H2 as (ss1 & H2). exists (s' :: ss1). apply run_cons; auto. do 5 eexists. split; [reflexivity|]. split; [exact E|exact H2]. }
  intros ds ss L Hn rx ts. split.
  - intros H. assert (X : exists ss', run ds words ([], map (fun _ => []) ds, ss) = Ok (rx, ts, ss')) by (destruct (run ds words ([], map (fun _ => []) ds, ss)) as [[[rx' ts'] ss']|e]; [|discriminate]; cbn [bind] in H; injection H as -> ->; eauto).
    apply Two in X; auto. eapply forall2_impl; [|exact X]. intros [d s] t H1. apply One. exact H1.
  - intros H. assert (X : Forall2 (fun dm t => exists s', run [fst dm] words ([], [[]], [snd dm]) = Ok (rx, [t], [s'])) (combine ds ss) ts) by (eapply forall2_impl; [|exact H]; intros [d s] t H1; apply One; exact H1).
    apply Two in X; auto. destruct X as (ss' & E). rewrite E. reflexivity.
Qed.

(** One decoder alone. *)
Lemma run_one n (d : machine) : forall encoded off rx0 cs la s t rx1,
  Forall (word n) encoded -> length rx1 = length encoded -> length cs = length encoded ->
  (forall i, i < length encoded -> forall d1, channel (off + i) (nth i encoded []) = Ok (nth i rx1 [], nth i cs d1)) ->
  feeds d s cs la -> Forall (fun a => word n (a_estimate a)) la ->
  exists s', run [d] (combine (seq off (length encoded)) encoded) (rx0, [t], [s]) = Ok (rx0 ++ rx1, [t ++ rows encoded la], [s']).
Proof.
  induction encoded as [|w encoded IH]; intros off rx0 cs la s t rx1 W Lr Lc Ch Fd Wl.
  - destruct rx1; [|discriminate]. destruct cs; [|discriminate]. inversion Fd; subst. exists s. cbn. rewrite !app_nil_r. reflexivity.
  - destruct rx1 as [|r rx1]; [discriminate|]. destruct cs as [|c cs]; [discriminate|]. inversion Fd as [|? ? a s' ? la' Ed Fd']; subst. inversion W as [|? ? W1 W2]; subst. inversion Wl as [|? ? A1 A2]; subst.
    cbn [length seq combine fold_res]. unfold word_step at 1. cbn [fst snd]. pose proof (Ch 0 ltac:(cbn; lia) c) as C0. rewrite Nat.add_0_r in C0. cbn [nth] in C0. rewrite C0. cbn [bind decode_all]. rewrite Ed. cbn [bind].
    rewrite (hamming_words n) by assumption. cbn [bind]. unfold zip_with. cbn [combine map fst snd].
    destruct (IH (S off) (rx0 ++ [r]) cs la' s' (t ++ [(a, Z.of_nat (length (differences (a_estimate a) w)))]) rx1) as (s2 & E); auto.
    + intros i Hi d1. pose proof (Ch (S i) ltac:(cbn; lia) d1) as Ci. cbn [nth] in Ci. replace (S off + i) with (off + S i) by lia. exact Ci.
    + exists s2. rewrite E. rewrite rows_cons, <- !app_assoc. reflexivity.
Qed.

Lemma many_tables n encoded (ds : list machine) ss cs las rx1 : ds <> [] -> length ss = length ds ->
  Forall (word n) encoded -> length rx1 = length encoded -> length cs = length encoded ->
  (forall i, i < length encoded -> forall d1, channel i (nth i encoded []) = Ok (nth i rx1 [], nth i cs d1)) ->
  Forall2 (fun dm la => feeds (fst dm) (snd dm) cs la /\ Forall (fun a => word n (a_estimate a)) la) (combine ds ss) las ->
  many_loop ds channel encoded ss = Ok (rx1, map (rows encoded) las).
Proof.
  intros Hn L W Lr Lc Ch Fd. apply many_alone; auto. clear Hn L. induction Fd as [|[d s] la l las [Fd Wl] H IH]; cbn [map]; constructor; [|exact IH]. cbn [fst snd] in *.
  destruct (run_one n d encoded 0 [] cs la s [] rx1 W Lr Lc Ch Fd Wl) as (s' & E). unfold many_loop. cbn [map]. rewrite E. reflexivity.
Qed.
End ManyP.

Lemma feeds_len {St I A} (dec : St -> I -> res (A * St)) : forall xs s aa, feeds dec s xs aa -> length aa = length xs.
Proof. induction xs as [|x xs IH]; intros s aa H; inversion H; subst; cbn; auto. f_equal. eapply IH. eassumption. Qed.

Lemma report_run FO n columns raw data encoded las ms : encoded <> [] -> Forall (word n) encoded -> length columns = length las ->
  Forall2 (fun m la => length la = length encoded /\ Forall (fun a => a_items a = m) la) ms las ->
  report_of FO columns raw data encoded (map (rows encoded) las) =
  if list_eq_dec Nat.eq_dec columns (map S ms)
  then Ok (Report FO raw data (map (fun la => Table FO (rows encoded la)
        (fdiv FO (fz FO (Z.of_nat (zeros (wrong encoded la)))) (fz FO (Z.of_nat (length encoded))))
        (fdiv FO (fz FO (Z.of_nat (total (wrong encoded la)))) (fz FO (Z.of_nat (length encoded * n))))) las))
  else Err ValueError.
Proof.
  intros Hn W Lc F2. destruct encoded as [|w0 enc]; [contradiction|]. assert (L0 : length w0 = n) by (inversion W as [|? ? [H _] ?]; exact H). unfold report_of. cbn [index nth_error bind].
  set (encoded := w0 :: enc) in *.
  assert (E : forallb (fun ct => frame_ok (fst ct) (snd ct)) (combine columns (map (rows encoded) las)) = if list_eq_dec Nat.eq_dec columns (map S ms) then true else false).
  { clear -Hn Lc F2. revert columns Lc. induction F2 as [|m la ms las [H1 H2] F2 IH]; intros [|c columns] Lc; try discriminate.
    - cbn. destruct (list_eq_dec Nat.eq_dec [] []); congruence.
    - cbn [map combine forallb fst snd]. rewrite (IH columns) by (cbn in Lc; lia). rewrite (widths c m) by (apply rows_width || apply rows_nil; assumption).
      destruct (Nat.eqb_spec (S m) c) as [<- |N], (list_eq_dec Nat.eq_dec columns (map S ms)) as [-> |N2]; cbn [andb]; destruct (list_eq_dec Nat.eq_dec _ _) as [E|N3]; try reflexivity; congruence. }
  rewrite E. destruct (list_eq_dec Nat.eq_dec columns (map S ms)); [|reflexivity]. f_equal. f_equal. rewrite map_map. apply map_ext_in. intros la Hla.
  assert (Lla : length la = length encoded) by (clear -F2 Hla; induction F2 as [|m la' ms las [H1 _] F2 IH]; [destruct Hla|]; destruct Hla as [<- |Hla]; auto).
  f_equal; [unfold success_rate; rewrite success_count by exact Lla; reflexivity|]. unfold bit_error_rate. rewrite map_snd_rows by exact Lla. rewrite sum_of_nat, L0. reflexivity.
Qed.

(** Gaussian noise. *)
Lemma gaussian_values FO n w noise values r : word n w -> length noise = n -> gaussian FO n w noise values r -> noisy_word FO noise w = values /\ hard FO values = r.
Proof.
  intros [Lw _] Ln (Lv & [Lr Br] & Hp). split.
  - apply (nth_ext _ _ (fz FO 0) (fz FO 0)).
    + unfold noisy_word, zip_with. rewrite map_length, combine_length. lia.
    + intros p H. unfold noisy_word, zip_with in *. rewrite map_length, combine_length in H. destruct (Hp p ltac:(lia)) as [-> _].
      rewrite (nth_indep _ _ ((fun q => fadd FO (fz FO (1 - 2 * fst q)) (snd q)) (0%Z, fz FO 0))) by (rewrite map_length, combine_length; lia).
      rewrite (map_nth (fun q => fadd FO (fz FO (1 - 2 * fst q)) (snd q))), combine_nth by congruence. reflexivity.
  - apply (nth_ext _ _ 0%Z 0%Z).
    + unfold hard. rewrite map_length. congruence.
    + intros p H. unfold hard in *. rewrite map_length in H. destruct (Hp p ltac:(lia)) as [_ Hb].
      rewrite (nth_indep _ _ ((fun x => if flt FO x (fz FO 0) then 1%Z else 0%Z) (fz FO 0))) by (rewrite map_length; lia).
      rewrite (map_nth (fun x => if flt FO x (fz FO 0) then 1%Z else 0%Z)). assert (B : bit (nth p r 0%Z)) by (rewrite Forall_forall in Br; apply Br, nth_In; lia).
      destruct (flt FO (nth p values (fz FO 0)) (fz FO 0)).
      * symmetry. apply Hb. reflexivity.
      * destruct B as [-> |B]; [reflexivity|]. apply Hb in B. discriminate.
Qed.

Lemma tabled_rows encoded la : length la = length encoded -> tabled encoded la (rows encoded la).
Proof. intros L. split; [apply map_fst_rows|apply map_snd_rows]; exact L. Qed.

Lemma tabled_all encoded las : Forall (fun la => length la = length encoded) las -> Forall2 (tabled encoded) las (map (rows encoded) las).
Proof. induction 1; cbn [map]; constructor; auto. apply tabled_rows. assumption. Qed.

(** The rest of a step, once the tables are known. *)
Lemma rest_run FO n columns (after : list (list (answer * Z)) -> res unit) raw data encoded las ms : encoded <> [] -> Forall (word n) encoded -> length columns = length las ->
  Forall2 (fun m la => length la = length encoded /\ Forall (fun a => a_items a = m) la) ms las ->
  exists ts, Forall2 (tabled encoded) las ts /\ ts = map (rows encoded) las /\
   (forall e, after ts = Err e -> (do! _ <- after ts in report_of FO columns raw data encoded ts) = Err e) /\
   (after ts = Ok tt -> columns <> map S ms -> (do! _ <- after ts in report_of FO columns raw data encoded ts) = Err ValueError) /\
   (after ts = Ok tt -> columns = map S ms -> exists r, (do! _ <- after ts in report_of FO columns raw data encoded ts) = Ok r /\
      rp_raw_ber FO r = raw /\ rp_data FO r = data /\ Forall2 (measured FO n encoded) las (rp_tables FO r)).
Proof.
  intros Hn W Lc F2. pose proof (report_run FO n columns raw data encoded las ms Hn W Lc F2) as R. exists (map (rows encoded) las).
  assert (Ls : Forall (fun la => length la = length encoded) las) by (clear -F2; induction F2 as [|m la ms las [H1 _] F2 IH]; constructor; auto).
  split; [apply tabled_all; exact Ls|]. split; [reflexivity|]. split; [intros e ->; reflexivity|]. split.
  - intros -> Hc. cbn [bind]. rewrite R. destruct (list_eq_dec Nat.eq_dec columns (map S ms)); [contradiction|reflexivity].
  - intros -> Hc. cbn [bind]. rewrite R. destruct (list_eq_dec Nat.eq_dec columns (map S ms)); [|contradiction]. eexists. split; [reflexivity|]. cbn [rp_raw_ber rp_data rp_tables]. split; [reflexivity|]. split; [reflexivity|].
    clear -Ls. induction Ls as [|la las L Ls IH]; cbn [map]; constructor; auto. split; [apply tabled_rows; exact L|]. split; reflexivity.
Qed.

Lemma nth_error_ext' {A} (l m : list A) : (forall i, nth_error l i = nth_error m i) -> l = m.
Proof. revert m. induction l as [|x l IH]; intros [|y m] H; [reflexivity|specialize (H 0); discriminate|specialize (H 0); discriminate|]. f_equal; [specialize (H 0); cbn in H; congruence|]. apply IH. intros i. apply (H (S i)). Qed.

Lemma compared_all k e : 2 <= k -> compared_counts k e = (length e, 0).
Proof.
  intros Hk. unfold compared_counts, count_if. f_equal; induction e as [|b e IH]; try reflexivity; cbn [map sum_nat fold_right]; unfold sum_nat in IH; rewrite IH; destruct b.
  - replace (Nat.ltb 1 k) with true by (symmetry; apply Nat.ltb_lt; lia). reflexivity.
  - replace (Nat.ltb 0 k) with true by (symmetry; apply Nat.ltb_lt; lia). reflexivity.
  - replace (Nat.ltb 1 k) with true by (symmetry; apply Nat.ltb_lt; lia). reflexivity.
  - replace (Nat.ltb 0 k) with true by (symmetry; apply Nat.ltb_lt; lia). reflexivity.
Qed.

Lemma multiplied_copies {A} : forall m (l : list A), multiplied m l = concat (repeat l (2 ^ m)).
Proof.
  induction m as [|m IH]; intros l; [cbn; rewrite app_nil_r; reflexivity|]. cbn [multiplied]. rewrite IH. replace (2 ^ S m) with (2 ^ m + 2 ^ m) by (cbn [Nat.pow]; lia). generalize (2 ^ m). intros n.
  induction n as [|n IHn]; [reflexivity|]. cbn [repeat concat]. rewrite IHn. replace (S n + S n) with (S (S (n + n))) by lia. cbn [repeat concat]. rewrite <- app_assoc. reflexivity.
Qed.

Lemma draw_firstn n big row m : draw n big row -> draw n (Nat.min m big) (firstn m row).
Proof.
  intros (Nd & L & B). split; [|split].
  - rewrite <- (firstn_skipn m row) in Nd. revert Nd. generalize (skipn m row). generalize (firstn m row). clear. induction l as [|x l IH]; intros l2 H; [constructor|]. inversion H as [|? ? H1 H2]; subst. constructor; [intros I; apply H1, in_or_app; auto|apply (IH l2); exact H2].
  - rewrite firstn_length, L. reflexivity.
  - intros p Hp. apply B. rewrite <- (firstn_skipn m row). apply in_or_app. auto.
Qed.

Lemma nth_firstns {A} m (l : list (list A)) i : nth i (map (firstn m) l) [] = firstn m (nth i l []).
Proof. revert i. induction l as [|x l IH]; intros [|i]; cbn [map nth]; auto; rewrite firstn_nil; reflexivity. Qed.
