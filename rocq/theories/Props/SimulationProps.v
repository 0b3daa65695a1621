(** C79: what a simulation step measures. *)
From Coq Require Import List Arith NArith ZArith Bool Lia ZifyBool ZifyNat Reals Lra QArith.
From Verif.Model Require Import Py Float InfoTheory Clustering BitOps DecoderBase Simulation.
From Verif.Spec Require Import RealOps SimulationSpec.
From Verif.Proofs Require Import Base SimulationP.
Import ListNotations.
Close Scope R_scope.
Close Scope Q_scope.

(** The received words: for each word and each draw exactly one word that differs at the drawn positions. *)
Theorem c79_received : forall n m w row, word n w -> draw n m row ->
  exists r, flip_at w row = Ok r /\ received w row r /\ length (differences w r) = m /\ forall r', received w row r' -> r' = r.
Proof.
  intros n m w row W D. destruct (flip_received n m w row W D) as (r & E & R). exists r. split; [exact E|]. split; [exact R|]. split.
  - pose proof (row_counts n m w row r (fun _ => true) W D R) as C. destruct D as (_ & L & _). rewrite count_if_filter in C.
    assert (T : forall A (l : list A), filter (fun _ => true) l = l) by (intros A l; induction l as [|x l IH]; [reflexivity|cbn; rewrite IH; reflexivity]).
    rewrite !T in C. congruence.
  - intros r' R'. destruct R as [[Lr Br] R], R' as [[Lr' Br'] R']. apply (nth_ext _ _ 0%Z 0%Z); [congruence|]. intros p Hp. rewrite Lr' in Hp. specialize (R p Hp). specialize (R' p Hp).
    assert (B1 : bit (nth p r 0%Z)) by (rewrite Forall_forall in Br; apply Br, nth_In; lia). assert (B2 : bit (nth p r' 0%Z)) by (rewrite Forall_forall in Br'; apply Br', nth_In; lia).
    destruct W as [Lw Bw]. assert (B3 : bit (nth p w 0%Z)) by (rewrite Forall_forall in Bw; apply Bw, nth_In; exact Hp).
    destruct (in_dec Nat.eq_dec p row) as [I|I].
    + apply R' in I as I'. apply R in I. unfold bit in *. lia.
    + destruct (Z.eq_dec (nth p r 0%Z) (nth p w 0%Z)) as [E1|E1]; [|tauto]. destruct (Z.eq_dec (nth p r' 0%Z) (nth p w 0%Z)) as [E2|E2]; [congruence|tauto].
Qed.
Print Assumptions c79_received.

(** Binary symmetric channel. *)
Theorem c79_bsc : forall FO S ldpc (aided : S -> _) llr nn k no_errors errors encoded rx la aa s ml ma,
  encoded <> [] -> Forall (word nn) encoded -> length errors = length encoded -> Forall (draw nn no_errors) errors ->
  length rx = length encoded -> (forall i, i < length encoded -> received (nth i encoded []) (nth i errors []) (nth i rx [])) ->
  Forall2 (fun r a => ldpc (llr r) = Ok a) rx la -> feeds aided s (map llr rx) aa -> proper_answers nn ml la -> proper_answers nn ma aa ->
  (ml <> 6 \/ ma <> 9 -> simulate_bsc FO ldpc aided llr nn k no_errors errors encoded s = Err ValueError) /\
  (ml = 6 -> ma = 9 ->
   exists st, simulate_bsc FO ldpc aided llr nn k no_errors errors encoded s = Ok st /\
    st_raw_ber FO st = fdiv FO (fz FO (Z.of_nat no_errors)) (fz FO (Z.of_nat nn)) /\
    length (st_data FO st) = length encoded /\
    (forall i, i < length encoded -> nth_error (st_data FO st) i =
       Some (DataRow (nth i encoded []) (nth i rx []) (ErrIdx (nth i errors []))
               (length (filter (fun p => Nat.ltb p k) (differences (nth i encoded []) (nth i rx []))))
               (length (filter (fun p => negb (Nat.ltb p k)) (differences (nth i encoded []) (nth i rx [])))))) /\
    map fst (st_ldpc FO st) = la /\ map snd (st_ldpc FO st) = map Z.of_nat (wrong encoded la) /\
    map fst (st_aided FO st) = aa /\ map snd (st_aided FO st) = map Z.of_nat (wrong encoded aa) /\
    st_ldpc_rate FO st = fdiv FO (fz FO (Z.of_nat (zeros (wrong encoded la)))) (fz FO (Z.of_nat (length encoded))) /\
    st_ldpc_ber FO st = fdiv FO (fz FO (Z.of_nat (total (wrong encoded la)))) (fz FO (Z.of_nat (length encoded * nn))) /\
    st_aided_rate FO st = fdiv FO (fz FO (Z.of_nat (zeros (wrong encoded aa)))) (fz FO (Z.of_nat (length encoded))) /\
    st_aided_ber FO st = fdiv FO (fz FO (Z.of_nat (total (wrong encoded aa)))) (fz FO (Z.of_nat (length encoded * nn)))).
Proof.
  intros FO S ldpc aided llr nn k no_errors errors encoded rx la aa s ml ma Hn W Le De Lr R Fl Fa Pl Pa.
  assert (Ll : length la = length encoded) by (rewrite <- Lr; clear -Fl; induction Fl; cbn; congruence).
  assert (La : length aa = length encoded) by (rewrite (feeds_length FO aided _ _ _ Fa), map_length; exact Lr).
  assert (Dr : forall i, i < length encoded -> draw nn no_errors (nth i errors [])) by (intros i Hi; rewrite Forall_forall in De; apply De, nth_In; lia).
  assert (Wi : forall i, i < length encoded -> word nn (nth i encoded [])) by (intros i Hi; rewrite Forall_forall in W; apply W, nth_In; exact Hi).
  assert (L : sim_loop FO ldpc aided (fun i w => do! row <- index errors i in do! c <- flip_at w row in Ok (c, llr c)) encoded s = Ok (rx, rows encoded la, rows encoded aa)).
  { apply (sim_loop_run FO ldpc aided nn) with (llrs := map llr rx); auto.
    - rewrite map_length. exact Lr.
    - intros i Hi. unfold index. rewrite (nth_error_nth' errors []) by lia. cbn [bind]. destruct (c79_received nn no_errors _ _ (Wi i Hi) (Dr i Hi)) as (r & E & _ & _ & U).
      rewrite E. cbn [bind]. rewrite <- (U _ (R i Hi)). f_equal. f_equal. rewrite (nth_indep _ [] (llr [])) by (rewrite map_length; lia). rewrite map_nth. reflexivity.
    - clear -Fl. induction Fl; constructor; auto.
    - eapply Forall_impl; [|exact Pl]. intros ? [? ?]; assumption.
    - eapply Forall_impl; [|exact Pa]. intros ? [? ?]; assumption. }
  set (data := map (fun er => match er with (en, r, e) =>
                       DataRow en r (ErrIdx e) (count_if (fun i => Nat.ltb i k) e) (count_if (fun i => negb (Nat.ltb i k)) e) end) (combine (combine encoded rx) errors)).
  assert (E : simulate_bsc FO ldpc aided llr nn k no_errors errors encoded s =
              summary FO 7 (fdiv FO (fz FO (Z.of_nat no_errors)) (fz FO (Z.of_nat nn))) data encoded (rows encoded la) (rows encoded aa)).
  { unfold simulate_bsc. destruct encoded as [|w0 e0]; [contradiction|]. rewrite L. reflexivity. }
  rewrite (summary_run FO nn) with (ml := ml) (ma := ma) in E; auto; try (eapply Forall_impl; [|eassumption]; intros ? [? ?]; assumption).
  split.
  - intros Hm. rewrite E. destruct (Nat.eqb_spec ma 9), (Nat.eqb_spec (Datatypes.S ml) 7); try reflexivity. lia.
  - intros -> ->. cbn [Nat.eqb andb] in E. eexists. split; [exact E|]. cbn [st_raw_ber st_data st_ldpc st_aided st_ldpc_rate st_ldpc_ber st_aided_rate st_aided_ber].
    split; [reflexivity|]. split; [unfold data; rewrite map_length, !combine_length; lia|]. split.
    + intros i Hi. unfold data. rewrite nth_error_map. rewrite (combine_nth' _ _ i (nth i encoded [], nth i rx []) (nth i errors [])).
      * cbn [option_map]. rewrite !(row_counts nn no_errors (nth i encoded []) (nth i errors []) (nth i rx [])) by auto. reflexivity.
      * apply combine_nth'; apply nth_error_nth'; lia.
      * apply nth_error_nth'. lia.
    + rewrite !map_fst_rows, !map_snd_rows by assumption. repeat split.
Qed.
Print Assumptions c79_bsc.

(** Gaussian noise: the values are 1 - 2 bit + noise; the word counted as received is 1 where they are negative. *)
Theorem c79_awgn : forall FO S ldpc (aided : S -> _) nn k noise encoded values rx la aa s ml ma,
  encoded <> [] -> Forall (word nn) encoded -> length noise = length encoded -> Forall (fun x => length x = nn) noise ->
  length values = length encoded -> length rx = length encoded ->
  (forall i, i < length encoded -> length (nth i values []) = nn /\ word nn (nth i rx []) /\
     forall p, p < nn -> nth p (nth i values []) (fz FO 0) = fadd FO (fz FO (1 - 2 * nth p (nth i encoded []) 0%Z)) (nth p (nth i noise []) (fz FO 0)) /\
                         (nth p (nth i rx []) 0%Z = 1%Z <-> flt FO (nth p (nth i values []) (fz FO 0)) (fz FO 0) = true)) ->
  Forall2 (fun y a => ldpc y = Ok a) values la -> feeds aided s values aa -> proper_answers nn ml la -> proper_answers nn ma aa ->
  (ml <> 5 \/ ma <> 9 -> simulate_awgn FO ldpc aided nn k noise encoded s = Err ValueError) /\
  (ml = 5 -> ma = 9 ->
   exists st, simulate_awgn FO ldpc aided nn k noise encoded s = Ok st /\
    st_raw_ber FO st = fdiv FO (fdiv FO (fz FO (Z.of_nat (total (map (fun i => length (differences (nth i encoded []) (nth i rx []))) (seq 0 (length encoded))))))
                                        (fz FO (Z.of_nat nn))) (fz FO (Z.of_nat (length encoded))) /\
    length (st_data FO st) = length encoded /\
    (forall i, i < length encoded -> nth_error (st_data FO st) i =
       Some (DataRow (nth i encoded []) (nth i rx [])
               (ErrMask (map (fun p => negb (nth p (nth i encoded []) 0 =? nth p (nth i rx []) 0)%Z) (seq 0 nn)))
               (length (filter (fun p => Nat.ltb p k) (differences (nth i encoded []) (nth i rx []))))
               (length (filter (fun p => negb (Nat.ltb p k)) (differences (nth i encoded []) (nth i rx [])))))) /\
    map fst (st_ldpc FO st) = la /\ map snd (st_ldpc FO st) = map Z.of_nat (wrong encoded la) /\
    map fst (st_aided FO st) = aa /\ map snd (st_aided FO st) = map Z.of_nat (wrong encoded aa) /\
    st_ldpc_rate FO st = fdiv FO (fz FO (Z.of_nat (zeros (wrong encoded la)))) (fz FO (Z.of_nat (length encoded))) /\
    st_ldpc_ber FO st = fdiv FO (fz FO (Z.of_nat (total (wrong encoded la)))) (fz FO (Z.of_nat (length encoded * nn))) /\
    st_aided_rate FO st = fdiv FO (fz FO (Z.of_nat (zeros (wrong encoded aa)))) (fz FO (Z.of_nat (length encoded))) /\
    st_aided_ber FO st = fdiv FO (fz FO (Z.of_nat (total (wrong encoded aa)))) (fz FO (Z.of_nat (length encoded * nn)))).
Proof.
  intros FO S ldpc aided nn k noise encoded values rx la aa s ml ma Hn W Lx Wx Lv Lr R Fl Fa Pl Pa.
  assert (Ll : length la = length encoded) by (rewrite <- Lv; symmetry; clear -Fl; induction Fl; cbn; congruence).
  assert (La : length aa = length encoded) by (rewrite (feeds_length FO aided _ _ _ Fa); exact Lv).
  assert (Wi : forall i, i < length encoded -> word nn (nth i encoded [])) by (intros i Hi; rewrite Forall_forall in W; apply W, nth_In; exact Hi).
  assert (Xi : forall i, i < length encoded -> length (nth i noise []) = nn) by (intros i Hi; rewrite Forall_forall in Wx; apply Wx, nth_In; lia).
  assert (Vi : forall i, i < length encoded -> noisy_word FO (nth i noise []) (nth i encoded []) = nth i values [] /\ hard FO (nth i values []) = nth i rx []).
  { intros i Hi. destruct (R i Hi) as (Lvi & Wr & Hp). destruct (Wi i Hi) as [Lw _]. specialize (Xi i Hi). split.
    - apply (nth_ext _ _ (fz FO 0) (fz FO 0)).
      + unfold noisy_word, zip_with. rewrite map_length, combine_length. lia.
      + intros p H. unfold noisy_word, zip_with in *. rewrite map_length, combine_length in H. destruct (Hp p ltac:(lia)) as [-> _].
        rewrite (nth_indep _ _ ((fun q => fadd FO (fz FO (1 - 2 * fst q)) (snd q)) (0%Z, fz FO 0))) by (rewrite map_length, combine_length; lia).
        rewrite (map_nth (fun q => fadd FO (fz FO (1 - 2 * fst q)) (snd q))), combine_nth by congruence. reflexivity.
    - destruct Wr as [Lr' Br]. apply (nth_ext _ _ 0%Z 0%Z).
      + unfold hard. rewrite map_length. congruence.
      + intros p H. unfold hard in *. rewrite map_length in H. destruct (Hp p ltac:(lia)) as [_ Hb].
        rewrite (nth_indep _ _ ((fun x => if flt FO x (fz FO 0) then 1%Z else 0%Z) (fz FO 0))) by (rewrite map_length; lia).
        rewrite (map_nth (fun x => if flt FO x (fz FO 0) then 1%Z else 0%Z)). assert (B : bit (nth p (nth i rx []) 0%Z)) by (rewrite Forall_forall in Br; apply Br, nth_In; lia).
        destruct (flt FO (nth p (nth i values []) (fz FO 0)) (fz FO 0)).
        * symmetry. apply Hb. reflexivity.
        * destruct B as [-> |B]; [reflexivity|]. apply Hb in B. discriminate. }
  assert (L : sim_loop FO ldpc aided (fun i w => do! x <- index noise i in let y := noisy_word FO x w in Ok (hard FO y, y)) encoded s = Ok (rx, rows encoded la, rows encoded aa)).
  { apply (sim_loop_run FO ldpc aided nn) with (llrs := values); auto.
    - intros i Hi. unfold index. rewrite (nth_error_nth' noise []) by lia. cbn [bind]. cbv zeta. destruct (Vi i Hi) as [-> ->]. reflexivity.
    - eapply Forall_impl; [|exact Pl]. intros ? [? ?]; assumption.
    - eapply Forall_impl; [|exact Pa]. intros ? [? ?]; assumption. }
  assert (E : simulate_awgn FO ldpc aided nn k noise encoded s =
    summary FO 6 (fdiv FO (fdiv FO (fz FO (Z.of_nat (sum_nat (map (count_if (fun b => b)) (zip_with mask_row encoded rx))))) (fz FO (Z.of_nat nn))) (fz FO (Z.of_nat (length encoded))))
      (map (fun er => match er with (en, r, e) =>
                     DataRow en r (ErrMask e) (count_if (fun b => b) (firstn k e)) (count_if (fun b => b) (skipn k e)) end)
                  (combine (combine encoded rx) (zip_with mask_row encoded rx))) encoded (rows encoded la) (rows encoded aa)).
  { unfold simulate_awgn. cbv zeta. cbv zeta in L. rewrite L. reflexivity. }
  assert (Mi : forall i, i < length encoded -> nth_error (zip_with mask_row encoded rx) i = Some (mask_row (nth i encoded []) (nth i rx []))).
  { intros i Hi. unfold zip_with. rewrite nth_error_map. rewrite (combine_nth' _ _ i (nth i encoded []) (nth i rx [])) by (apply nth_error_nth'; lia). reflexivity. }
  rewrite (summary_run FO nn) with (ml := ml) (ma := ma) in E; auto; try (eapply Forall_impl; [|eassumption]; intros ? [? ?]; assumption).
  split.
  - intros Hm. rewrite E. destruct (Nat.eqb_spec ma 9), (Nat.eqb_spec (Datatypes.S ml) 6); try reflexivity. lia.
  - intros -> ->. cbn [Nat.eqb andb] in E. eexists. split; [exact E|]. cbn [st_raw_ber st_data st_ldpc st_aided st_ldpc_rate st_ldpc_ber st_aided_rate st_aided_ber].
    split; [|split; [|split]].
    + assert (E0 : map (count_if (fun b => b)) (zip_with mask_row encoded rx) = map (fun i => length (differences (nth i encoded []) (nth i rx []))) (seq 0 (length encoded)));
        [|rewrite E0; reflexivity]. apply (nth_ext _ _ 0 0).
      * rewrite !map_length, seq_length. unfold zip_with. rewrite map_length, combine_length. lia.
      * intros i Hi. rewrite map_length in Hi. unfold zip_with in Hi. rewrite map_length, combine_length in Hi. apply Nat.min_glb_lt_iff in Hi. destruct Hi as [Hi _].
        assert (E1 : nth_error (map (count_if (fun b => b)) (zip_with mask_row encoded rx)) i = Some (length (differences (nth i encoded []) (nth i rx [])))).
        { rewrite nth_error_map, Mi by exact Hi. cbn [option_map]. f_equal. apply (mask_counts nn 0); [apply Wi; exact Hi|apply R; exact Hi]. }
        rewrite (nth_error_nth _ _ _ E1). symmetry. apply nth_error_nth. rewrite nth_error_map, (nth_error_nth' (seq 0 (length encoded)) 0) by (rewrite seq_length; exact Hi).
        rewrite seq_nth by exact Hi. reflexivity.
    + rewrite map_length, !combine_length. unfold zip_with. rewrite map_length, combine_length. lia.
    + intros i Hi. rewrite nth_error_map. rewrite (combine_nth' _ _ i (nth i encoded [], nth i rx []) (mask_row (nth i encoded []) (nth i rx []))).
      * cbn [option_map]. destruct (R i Hi) as (_ & Wr & _). destruct (mask_counts nn k _ _ (Wi i Hi) Wr) as (-> & -> & _). rewrite (mask_row_map nn) by auto. reflexivity.
      * apply combine_nth'; apply nth_error_nth'; lia.
      * apply Mi. exact Hi.
    + rewrite !map_fst_rows, !map_snd_rows by assumption. repeat split.
Qed.
Print Assumptions c79_awgn.

(** The rates are rates: between 0 and 1, success 1 exactly when no bit is wrong, and each failed word has at least one wrong bit. *)
Theorem c79_rates : forall nn sent l m, sent <> [] -> 0 < nn -> length l = length sent -> Forall (word nn) sent -> proper_answers nn m l ->
  let rate := (INR (zeros (wrong sent l)) / INR (length sent))%R in
  let ber := (INR (total (wrong sent l)) / INR (length sent * nn))%R in
  (0 <= rate <= 1)%R /\ (0 <= ber <= 1)%R /\ (1 - rate <= INR nn * ber)%R /\ (ber <= 1 - rate)%R /\ (rate = 1%R <-> ber = 0%R) /\ (ber = 0%R <-> map a_estimate l = sent).
Proof.
  intros nn sent l m Hn H0 L Ws Pl rate ber. assert (Wl : Forall (fun a => word nn (a_estimate a)) l) by (eapply Forall_impl; [|exact Pl]; intros ? [? ?]; assumption).
  assert (Lw : length (wrong sent l) = length sent) by (unfold wrong; rewrite map_length, combine_length; lia).
  destruct (total_zeros nn (wrong sent l) (wrong_bound nn sent l Wl)) as (B1 & B2 & B3 & B4 & B5). rewrite Lw in *.
  assert (Hp : 0 < length sent) by (destruct sent; [contradiction|cbn; lia]).
  pose proof (wrong_zero nn sent l L Ws Wl) as Z0.
  assert (P1 : (0 < INR (length sent))%R) by (apply lt_0_INR; exact Hp). assert (P2 : (0 < INR nn)%R) by (apply lt_0_INR; exact H0).
  assert (P3 : (0 < INR (length sent * nn))%R) by (apply lt_0_INR; lia).
  assert (C1 : (INR (zeros (wrong sent l)) <= INR (length sent))%R) by (apply le_INR; exact B1).
  assert (C2 : (INR (total (wrong sent l)) <= INR (length sent * nn))%R) by (apply le_INR; exact B2).
  assert (C3 : (INR (length sent) <= INR (total (wrong sent l)) + INR (zeros (wrong sent l)))%R) by (rewrite <- plus_INR; apply le_INR; lia).
  assert (C4 : (INR (total (wrong sent l)) + INR nn * INR (zeros (wrong sent l)) <= INR nn * INR (length sent))%R) by (rewrite <- !mult_INR, <- plus_INR; apply le_INR; exact B5).
  assert (N1 := pos_INR (zeros (wrong sent l))). assert (N2 := pos_INR (total (wrong sent l))).
  assert (R1 : (rate * INR (length sent) = INR (zeros (wrong sent l)))%R) by (unfold rate; field; lra).
  assert (R2 : (ber * INR (length sent * nn) = INR (total (wrong sent l)))%R) by (unfold ber; field; lra).
  rewrite mult_INR in *. assert (P4 : (0 < INR (length sent) * INR nn)%R) by nra.
  assert (Z1 : ber = 0%R <-> total (wrong sent l) = 0).
  { split; intros E; [apply INR_eq; rewrite E in R2; cbn [INR]; lra|]. rewrite E in R2. cbn [INR] in R2. apply (Rmult_eq_reg_r (INR (length sent) * INR nn)%R); lra. }
  assert (Z2 : rate = 1%R <-> zeros (wrong sent l) = length sent).
  { split; intros E; [apply INR_eq; rewrite E in R1; lra|]. rewrite E in R1. apply (Rmult_eq_reg_r (INR (length sent))); lra. }
  split; [split; [apply (Rmult_le_reg_r (INR (length sent))); lra|apply (Rmult_le_reg_r (INR (length sent))); lra]|].
  split; [split; [apply (Rmult_le_reg_r (INR (length sent) * INR nn)); lra|apply (Rmult_le_reg_r (INR (length sent) * INR nn)); lra]|].
  split; [apply (Rmult_le_reg_r (INR (length sent))); nra|].
  split; [apply (Rmult_le_reg_r (INR (length sent) * INR nn)); nra|].
  split; [rewrite Z1, Z2; tauto|rewrite Z1; exact Z0].
Qed.
Print Assumptions c79_rates.

(** Without any word nothing is returned. *)
Theorem c79_empty : forall FO S ldpc (aided : S -> _) llr nn k no_errors errors noise s,
  simulate_bsc FO ldpc aided llr nn k no_errors errors [] s = Err ValueError /\ simulate_awgn FO ldpc aided nn k noise [] s = Err IndexError.
Proof. intros. split; reflexivity. Qed.
Print Assumptions c79_empty.

(** No LDPC decoder works with both channels: the tables expect tuples of 6 items over the binary symmetric channel and of 5 with Gaussian noise. *)
Theorem c79_channels_refuted : exists encoded errors noise values (ans : nat -> answer) s,
  Forall (word 4) encoded /\ Forall (draw 4 1) errors /\ length errors = length encoded /\ length noise = length encoded /\
  forall m, a_items (ans m) = m ->
  let bsc := simulate_bsc Qops (fun _ => Ok (ans m)) (fun (s : unit) _ => Ok (ans 9, s)) (fun _ => values) 4 2 1 errors encoded s in
  let awgn := simulate_awgn Qops (fun _ => Ok (ans m)) (fun (s : unit) _ => Ok (ans 9, s)) 4 2 noise encoded s in
  (m = 6 -> (exists st, bsc = Ok st) /\ awgn = Err ValueError) /\ (m = 5 -> bsc = Err ValueError /\ exists st, awgn = Ok st) /\
  (m <> 5 -> m <> 6 -> bsc = Err ValueError /\ awgn = Err ValueError).
Proof.
  exists [[1; 0; 1; 0]%Z], [[3]], [[0; 0; 0; 0]%Q], [1; 1; 1; 1]%Q, (fun m => Answer [1; 0; 1; 0]%Z true m), tt.
  split; [constructor; [|constructor]; split; [reflexivity|]; repeat (apply Forall_cons; [unfold bit; auto|]); apply Forall_nil|].
  split; [constructor; [|constructor]; split; [repeat constructor; intros []|split; [reflexivity|intros p [<- |[]]; lia]]|].
  split; [reflexivity|]. split; [reflexivity|]. intros m _ bsc awgn.
  set (out := fun r : res (step Qops) => match r with Ok _ => None | Err e => Some e end).
  assert (V : forall r e, out r = Some e -> r = Err e) by (intros [st|e'] e H; [discriminate|injection H as ->; reflexivity]).
  assert (V' : forall r, out r = None -> exists st, r = Ok st) by (intros [st|e'] H; [exists st; reflexivity|discriminate]).
  assert (B : out bsc = if Nat.eqb m 6 then None else Some ValueError).
  { unfold bsc, out. clear. destruct m as [|[|[|[|[|[|[|m]]]]]]]; vm_compute; reflexivity. }
  assert (A : out awgn = if Nat.eqb m 5 then None else Some ValueError).
  { unfold awgn, out. clear. destruct m as [|[|[|[|[|[|[|m]]]]]]]; vm_compute; reflexivity. }
  clearbody bsc awgn. split; [|split].
  - intros ->. split; [apply V', B|apply V, A].
  - intros ->. split; [apply V, B|apply V', A].
  - intros H5 H6. destruct (Nat.eqb_spec m 6); [contradiction|]. destruct (Nat.eqb_spec m 5); [contradiction|]. split; apply V; assumption.
Qed.
Print Assumptions c79_channels_refuted.

(** Two words of four bits, two of them information; the plain decoder repeats what it receives; the aided one learns to answer the last word. *)
Definition ex_view (r : res (step Qops)) :=
  match r with
  | Ok st => Some (st_raw_ber Qops st, st_data Qops st, st_ldpc Qops st, st_aided Qops st, (st_ldpc_rate Qops st, st_ldpc_ber Qops st, st_aided_rate Qops st, st_aided_ber Qops st) : Q * Q * Q * Q)
  | Err _ => None
  end.
Definition ex_llr (w : list Z) : list Q := map (fun b => inject_Z (1 - 2 * b)) w.
Definition ex_hard (l : list Q) : list Z := hard Qops l.
Definition ex_aided (s : list Z) (l : list Q) : res (answer * list Z) := Ok (Answer s true 9, ex_hard l).
Example c79_ex_bsc :
  ex_view (simulate_bsc Qops (fun l => Ok (Answer (ex_hard l) false 6)) ex_aided ex_llr 4 2 2 [[1; 3]; [0; 1]] [[1; 0; 1; 0]%Z; [1; 1; 1; 1]%Z] [1; 0; 1; 0]%Z) =
  Some (1 # 2,
    [(DataRow [1; 0; 1; 0]%Z [1; 1; 1; 1]%Z (ErrIdx [1; 3]) 1 1)%nat; (DataRow [1; 1; 1; 1]%Z [0; 0; 1; 1]%Z (ErrIdx [0; 1]) 2 0)%nat],
    [(Answer [1; 1; 1; 1]%Z false 6%nat, 2%Z); (Answer [0; 0; 1; 1]%Z false 6%nat, 2%Z)],
    [(Answer [1; 0; 1; 0]%Z true 9%nat, 0%Z); (Answer [1; 1; 1; 1]%Z true 9%nat, 0%Z)], (0, 1 # 2, 1, 0))%Q.
Proof. vm_compute. reflexivity. Qed.
Example c79_ex_draw : draw 4 2 [1; 3] /\ received [1; 0; 1; 0]%Z [1; 3] [1; 1; 1; 1]%Z.
Proof.
  split; [split; [repeat constructor; cbn; intuition lia|split; [reflexivity|intros p [<- |[<- |[]]]; lia]]|].
  split; [split; [reflexivity|]; repeat (apply Forall_cons; [unfold bit; auto|]); apply Forall_nil|]. intros p Hp. cbn in Hp. destruct p as [|[|[|[|p]]]]; cbn; intuition (try congruence; lia).
Qed.
Example c79_ex_awgn :
  ex_view (simulate_awgn Qops (fun l => Ok (Answer (ex_hard l) false 5)) ex_aided 4 2 [[0; -(3 # 2); 1 # 2; -2]; [0; 0; 0; 3]]%Q [[1; 0; 1; 0]%Z; [1; 1; 1; 1]%Z] [1; 0; 1; 1]%Z) =
  Some (3 # 8,
    [(DataRow [1; 0; 1; 0]%Z [1; 1; 1; 1]%Z (ErrMask [false; true; false; true]) 1 1)%nat; (DataRow [1; 1; 1; 1]%Z [1; 1; 1; 0]%Z (ErrMask [false; false; false; true]) 0 1)%nat],
    [(Answer [1; 1; 1; 1]%Z false 5%nat, 2%Z); (Answer [1; 1; 1; 0]%Z false 5%nat, 1%Z)],
    [(Answer [1; 0; 1; 1]%Z true 9%nat, 1%Z); (Answer [1; 1; 1; 1]%Z true 9%nat, 0%Z)], (0, 3 # 8, 1 # 2, 1 # 8))%Q.
Proof. vm_compute. reflexivity. Qed.
