(** C80: what a run on experimental data reports. *)
From Coq Require Import List Arith NArith ZArith Bool Lia ZifyBool ZifyNat QArith.
From Verif.Model Require Import Py Float InfoTheory Clustering BitOps DecoderBase Simulation.
From Verif.Spec Require Import RealOps SimulationSpec.
From Verif.Proofs Require Import Base SimulationP ExperimentP.
Import ListNotations.
Close Scope Q_scope.

Theorem c80_run : forall FO S ldpc (aided : S -> _) n k tx rx la aa s ml ma,
  0 < n -> tx <> [] -> Forall (sent_row n) tx -> length rx = length tx -> Forall (fun r => length r = n) rx ->
  Forall2 (fun r a => ldpc r = Ok a) rx la -> feeds aided s rx aa -> proper_answers n ml la -> proper_answers n ma aa ->
  (ml <> 6 \/ ma <> 9 -> run_experiment FO ldpc aided n k tx rx s = Err ValueError) /\
  (ml = 6 -> ma = 9 -> known_words tx = 0 -> run_experiment FO ldpc aided n k tx rx s = Err ZeroDivision) /\
  (ml = 6 -> ma = 9 -> known_words tx <> 0 ->
   exists ex, run_experiment FO ldpc aided n k tx rx s = Ok ex /\
    length (ex_data FO ex) = length tx /\
    (forall i, i < length tx ->
       let t := nth i tx [] in let r := nth i rx [] in let d := differences t (hard FO r) in
       nth_error (ex_data FO ex) i = Some
         (if is_known t
          then ExpRow FO t r (map (fun p => if (nth p t 0 =? nth p (hard FO r) 0)%Z then 0%Z else 1%Z) (seq 0 n))
                 (Z.of_nat (length (filter (fun p => Nat.ltb p k) d))) (Z.of_nat (length (filter (fun p => negb (Nat.ltb p k)) d)))
                 (fdiv FO (fz FO (Z.of_nat (length d))) (fz FO (Z.of_nat n)))
          else ExpRow FO t r (repeat 2%Z n) (-1) (-1) (fz FO (-1)))) /\
    map fst (ex_ldpc FO ex) = la /\ map snd (ex_ldpc FO ex) = judged tx la /\
    map fst (ex_aided FO ex) = aa /\ map snd (ex_aided FO ex) = judged tx aa /\
    ex_ldpc_rate FO ex = fdiv FO (fz FO (Z.of_nat (claims la))) (fz FO (Z.of_nat (length tx))) /\
    ex_aided_rate FO ex = fdiv FO (fz FO (Z.of_nat (claims aa))) (fz FO (Z.of_nat (length tx))) /\
    ex_ldpc_ber FO ex = fdiv FO (fz FO (Z.of_nat (known_wrong tx la))) (fz FO (Z.of_nat (n * known_words tx))) /\
    ex_aided_ber FO ex = fdiv FO (fz FO (Z.of_nat (known_wrong tx aa))) (fz FO (Z.of_nat (n * known_words tx)))).
Proof.
  intros FO S ldpc aided n k tx rx la aa s ml ma Hn Ht Wt Lr Wr Fl Fa Pl Pa.
  assert (Wl : Forall (fun a => word n (a_estimate a)) la) by (eapply Forall_impl; [|exact Pl]; intros ? [? ?]; assumption).
  assert (Wa : Forall (fun a => word n (a_estimate a)) aa) by (eapply Forall_impl; [|exact Pa]; intros ? [? ?]; assumption).
  assert (Ml : Forall (fun a => a_items a = ml) la) by (eapply Forall_impl; [|exact Pl]; intros ? [? ?]; assumption).
  assert (Ma : Forall (fun a => a_items a = ma) aa) by (eapply Forall_impl; [|exact Pa]; intros ? [? ?]; assumption).
  assert (Ll : length la = length tx) by (rewrite <- Lr; symmetry; clear -Fl; induction Fl; cbn; congruence).
  assert (La : length aa = length tx) by (rewrite (feeds_length FO aided _ _ _ Fa); exact Lr).
  destruct (exp_loop FO ldpc aided n Hn tx [] rx la aa s [] [] [] Wt Lr Fl Fa Wl Wa) as [s' E]. cbn [app length] in E.
  assert (Jw : forall c l m, length l = length tx -> Forall (fun a => a_items a = m) l -> frame_ok c (jrows tx l) = Nat.eqb (Datatypes.S m) c).
  { intros c l m L M. apply widths.
    - intros N. apply (f_equal (fun z => length (map fst z))) in N. rewrite jrows_fst in N by exact L. cbn in N. destruct tx; [contradiction|cbn in L; lia].
    - apply Forall_forall. intros x Hx. apply (in_map fst) in Hx. rewrite jrows_fst in Hx by exact L. rewrite Forall_forall in M. apply M. exact Hx. }
  set (bad := fun row : list Z => match row with [] => false | x :: _ => (x =? 2)%Z end).
  assert (G : count_if (fun row => negb (bad row)) tx = known_words tx).
  { rewrite count_if_filter. unfold known_words. clear -Wt Hn. induction Wt as [|t tx H _ IH]; [reflexivity|]. cbn [filter]. unfold bad at 1. rewrite (known_bad n t Hn H), negb_involutive.
    destruct (is_known t); cbn [length]; rewrite IH; reflexivity. }
  assert (X : run_experiment FO ldpc aided n k tx rx s =
    if negb (Nat.eqb (Datatypes.S ma) 10) then Err ValueError else if negb (Nat.eqb (Datatypes.S ml) 7) then Err ValueError else
    if Nat.eqb (known_words tx) 0 then Err ZeroDivision else
    Ok (Experiment FO (map (fun x => match x with (t, r, e) =>
                ExpRow FO t r e (if bad t then (-1)%Z else sum_z (firstn k e)) (if bad t then (-1)%Z else sum_z (skipn k e))
                       (if bad t then fz FO (-1) else fdiv FO (fz FO (sum_z e)) (fz FO (Z.of_nat n))) end)
              (combine (combine tx rx) (zip_with (error_entries FO) tx rx))) (jrows tx la) (jrows tx aa)
      (fdiv FO (fz FO (Z.of_nat (claims la))) (fz FO (Z.of_nat (length tx)))) (fdiv FO (fz FO (Z.of_nat (claims aa))) (fz FO (Z.of_nat (length tx))))
      (fdiv FO (fz FO (Z.of_nat (known_wrong tx la))) (fz FO (Z.of_nat (n * known_words tx)))) (fdiv FO (fz FO (Z.of_nat (known_wrong tx aa))) (fz FO (Z.of_nat (n * known_words tx)))))).
  { unfold run_experiment. change (fun st ir => _) with (exp_step FO ldpc aided tx). rewrite E. cbn [bind]. cbv zeta. rewrite !(Jw _ la ml), !(Jw _ aa ma) by assumption.
    destruct (negb (Nat.eqb (Datatypes.S ma) 10)); [reflexivity|]. destruct (negb (Nat.eqb (Datatypes.S ml) 7)); [reflexivity|].
    change (fun row => negb match row with [] => false | x :: _ => (x =? 2)%Z end) with (fun row => negb (bad row)). rewrite G.
    unfold claimed_rate, known_ber. rewrite !jrows_claims, !jrows_known by assumption. rewrite Lr. destruct (Nat.eqb_spec (length tx) 0) as [Z0|_]; [destruct tx; [contradiction|discriminate]|]. cbn [bind].
    destruct (Nat.eqb_spec (known_words tx) 0) as [Zk|Zk].
    - rewrite Zk, Nat.mul_0_r. reflexivity.
    - destruct (Nat.eqb_spec (n * known_words tx) 0); [lia|]. reflexivity. }
  split; [|split].
  - intros Hm. rewrite X. destruct (Nat.eqb_spec (Datatypes.S ma) 10); [|reflexivity]. destruct (Nat.eqb_spec (Datatypes.S ml) 7); [lia|]. reflexivity.
  - intros -> -> K. rewrite X, K. reflexivity.
  - intros -> -> K. rewrite X. destruct (Nat.eqb_spec (known_words tx) 0) as [|_]; [contradiction|]. cbn [Nat.eqb negb]. eexists. split; [reflexivity|].
    cbn [ex_data ex_ldpc ex_aided ex_ldpc_rate ex_aided_rate ex_ldpc_ber ex_aided_ber]. split; [|split].
    + rewrite map_length, !combine_length. unfold zip_with. rewrite map_length, combine_length. lia.
    + intros i Hi. set (t := nth i tx []). set (r := nth i rx []). set (d := differences t (hard FO r)). assert (Er : nth_error rx i = Some r) by (apply nth_error_nth'; lia). assert (Et : nth_error tx i = Some t) by (apply nth_error_nth'; exact Hi).
      rewrite nth_error_map. rewrite (combine_nth' _ _ i (t, r) (error_entries FO t r)).
      2: apply combine_nth'; assumption.
      2: unfold zip_with; rewrite nth_error_map, (combine_nth' _ _ i t r) by assumption; reflexivity.
      cbn [option_map]. f_equal. rewrite Forall_forall in Wt, Wr. specialize (Wt t (nth_error_In _ _ Et)). specialize (Wr r (nth_error_In _ _ Er)).
      unfold bad. rewrite (known_bad n t Hn Wt). unfold error_entries. destruct (is_known t) eqn:Kt; cbn [negb].
      * assert (Ww : word n t) by (eapply sent_known; eassumption). pose proof (hard_word FO n r Wr) as Wh.
        destruct (mask_counts n k t (hard FO r) Ww Wh) as (M1 & M2 & M3). rewrite skipn_map', firstn_map, !sum_mask, M1, M2, M3. fold d. f_equal.
        rewrite (mask_row_map n) by assumption. rewrite map_map. apply map_ext. intros p. destruct (nth p t 0 =? nth p (hard FO r) 0)%Z; reflexivity.
      * f_equal. rewrite <- Wr. clear. induction r as [|x r IH]; [reflexivity|]. cbn [map length repeat]. rewrite IH. reflexivity.
    + rewrite !jrows_fst, !jrows_snd by assumption. repeat split.
Qed.
Print Assumptions c80_run.

(** A view of a run that can be computed. *)
Definition ex_view (r : res (experiment Qops)) :=
  match r with
  | Ok ex => Some (map (fun x => (er_errors Qops x, er_info Qops x, er_parity Qops x, er_ber Qops x : Q)) (ex_data Qops ex), map snd (ex_ldpc Qops ex), map snd (ex_aided Qops ex),
                   (ex_ldpc_rate Qops ex, ex_aided_rate Qops ex, ex_ldpc_ber Qops ex, ex_aided_ber Qops ex) : Q * Q * Q * Q)
  | Err _ => None
  end.
Definition ex_fails (r : res (experiment Qops)) := match r with Ok _ => None | Err e => Some e end.
Definition ex_plain (l : list Q) : res answer := Ok (Answer (hard Qops l) false 6).
Definition ex_last (s : list Z) (l : list Q) : res (answer * list Z) := Ok (Answer s true 9, hard Qops l).

(** One known word with two errors in the information, one unknown. *)
Example c80_ex :
  ex_view (run_experiment Qops ex_plain ex_last 4 2 [[1; 0; 1; 0]; [2; 2; 2; 2]]%Z [[1; -2; -3; 4]; [-1; 1; 1; 1]]%Q [1; 0; 1; 1]%Z) =
  Some ([([1; 1; 0; 0]%Z, 2%Z, 0%Z, (1 # 2)%Q); ([2; 2; 2; 2]%Z, (-1)%Z, (-1)%Z, (-1 # 1)%Q)], [2; -1]%Z, [1; -1]%Z, (0, 1, 1 # 2, 1 # 4)%Q).
Proof. vm_compute. reflexivity. Qed.
Example c80_ex_hyps : Forall (sent_row 4) [[1; 0; 1; 0]; [2; 2; 2; 2]]%Z /\ known_words [[1; 0; 1; 0]; [2; 2; 2; 2]]%Z = 1.
Proof.
  split; [|reflexivity]. constructor; [left; split; [reflexivity|]; repeat (apply Forall_cons; [unfold bit; auto|]); apply Forall_nil|]. constructor; [right; split; reflexivity|constructor].
Qed.
Example c80_ex_none : ex_fails (run_experiment Qops ex_plain ex_last 4 2 [[2; 2; 2; 2]]%Z [[1; -2; -3; 4]]%Q [1; 0; 1; 1]%Z) = Some ZeroDivision.
Proof. vm_compute. reflexivity. Qed.

(** The success rates are what the decoders claim: 1 although all bits are wrong (the simulations count words without wrong bits instead). *)
Definition ex_ones (m : nat) : answer := Answer [1; 1; 1; 1]%Z true m.
Theorem c80_claims_refuted : exists ex,
  run_experiment Qops (fun _ => Ok (ex_ones 6)) (fun (s : unit) _ => Ok (ex_ones 9, s)) 4 2 [[0; 0; 0; 0]]%Z [[1; 1; 1; 1]]%Q tt = Ok ex /\
  ex_ldpc_rate Qops ex = 1%Q /\ ex_aided_rate Qops ex = 1%Q /\ ex_ldpc_ber Qops ex = 1%Q /\ ex_aided_ber Qops ex = 1%Q.
Proof.
  assert (V : ex_view (run_experiment Qops (fun _ => Ok (ex_ones 6)) (fun (s : unit) _ => Ok (ex_ones 9, s)) 4 2 [[0; 0; 0; 0]]%Z [[1; 1; 1; 1]]%Q tt) =
              Some ([([0; 0; 0; 0]%Z, 0%Z, 0%Z, 0%Q)], [4]%Z, [4]%Z, (1, 1, 1, 1)%Q)) by (vm_compute; reflexivity).
  destruct (run_experiment Qops _ _ 4 2 _ _ tt) as [ex|e]; [|discriminate V]. exists ex. split; [reflexivity|]. injection V as _ _ _ H1 H2 H3 H4. auto.
Qed.
Print Assumptions c80_claims_refuted.

(** A row that starts with a value above 2 is not compared with the answer but counted as known: with one such row beside a known one the error rate halves. *)
Theorem c80_count_refuted : exists ex,
  run_experiment Qops (fun _ => Ok (ex_ones 6)) (fun (s : unit) _ => Ok (ex_ones 9, s)) 4 2 [[0; 0; 0; 0]; [3; 0; 0; 0]]%Z [[1; 1; 1; 1]; [1; 1; 1; 1]]%Q tt = Ok ex /\
  map snd (ex_ldpc Qops ex) = [4; -1]%Z /\ ex_ldpc_ber Qops ex = (1 # 2)%Q.
Proof.
  assert (V : ex_view (run_experiment Qops (fun _ => Ok (ex_ones 6)) (fun (s : unit) _ => Ok (ex_ones 9, s)) 4 2 [[0; 0; 0; 0]; [3; 0; 0; 0]]%Z [[1; 1; 1; 1]; [1; 1; 1; 1]]%Q tt) =
              Some ([([0; 0; 0; 0]%Z, 0%Z, 0%Z, 0%Q); ([2; 2; 2; 2]%Z, 4%Z, 4%Z, 2%Q)], [4; -1]%Z, [4; -1]%Z, (1, 1, 1 # 2, 1 # 2)%Q)) by (vm_compute; reflexivity).
  destruct (run_experiment Qops _ _ 4 2 _ _ tt) as [ex|e]; [|discriminate V]. exists ex. split; [reflexivity|]. injection V as _ H1 _ _ _ H3 _. auto.
Qed.
Print Assumptions c80_count_refuted.
