(** Runs which share results/log.log and overlap. *)
From Coq Require Import String List Bool Arith Lia.
From Verif Require Import Model.Py Model.Saving Model.SaveTable Spec.SavingSpec Proofs.SavingNames Proofs.SavingWorld Proofs.SavingFrame Proofs.SavingResults Proofs.SavingFates Proofs.SavingLogs Proofs.SavingAlone.
Import ListNotations.
Local Open Scope list_scope.

Lemma shares_idx : forall sc, in_table sc -> shares_log sc -> exists idx, nth_error (sc_pre sc) idx = Some (SOpenLog AtResults).
Proof.
  intros sc T SH. destruct (log_kind _ T) as [(_ & _ & _ & _ & O & _)|(N & _)].
  - apply existsb_exists in O as (s & I & IO). destruct s as [[]| | | | | |]; try discriminate IO. apply In_nth_error in I. exact I.
  - assert (X : existsb is_open_results (stmts sc) = true) by (apply existsb_exists; exists (SOpenLog AtResults); split; [exact SH|reflexivity]). congruence.
Qed.

(** One statement of a run whose log is open. *)
Section Step.
  Variable rs : list run.
  Variable i : nat.
  Variable r : run.
  Variable outs : list outcome.
  Variable w : world.
  Variable p : proc.
  Variable o : outcome.
  Variable w' : world.
  Variable p' : proc.
  Hypothesis SA : sane w.
  Hypothesis K : kept r w p.
  Hypothesis P : PL rs i r outs w p.
  Hypothesis SH : shares_log (r_script r).
  Hypothesis H : p_handle p <> None.
  Hypothesis ST : step_proc i o w p = (w', p').

  Lemma table : in_table (r_script r).
  Proof using P. destruct P as ((T & _) & _). exact T. Qed.

  Let w1 := said w (p_handle p) (map (Line i) (o_lines o)).
  Let p1 := spoken (o_lines o) p.

  Lemma not_open : forall s, active r outs w p -> nth_error (stmts (r_script r)) (length outs) = Some s -> is_open s = false.
  Proof using P H.
    intros s A E. destruct s as [pl| | | | | |]; try reflexivity. destruct P as (_ & _ & _ & _ & P5 & _). destruct (P5 A) as [P6 _].
    apply P6 in H. pose proof (table_at _ _ _ table E) as [TA _]. congruence.
  Qed.

  Lemma slog_said : w_files w1 slog = w_files w slog.
  Proof using. unfold w1. rewrite said_files. reflexivity. Qed.

  Lemma sane_said : sane w1.
  Proof using SA. apply said_sane. exact SA. Qed.

  Lemma last_is_move : nth_error (stmts (r_script r)) (length (stmts (r_script r)) - 1) = Some SMove.
  Proof using P SH. destruct (shares_idx _ table SH) as [idx O]. exact (last_move r idx table O). Qed.

  Lemma stmt_fine : forall s, nth_error (stmts (r_script r)) (length outs) = Some s -> stmt_ok s.
  Proof using P. intros s E. pose proof (stmts_ok _ table) as Q. rewrite Forall_forall in Q. exact (Q _ (nth_error_In _ _ E)). Qed.

  Lemma handling_not : forall l e, ~ handling l e = Running [].
  Proof using. intros [|] e; discriminate. Qed.

  Lemma handle_kept : p_handle p' <> None.
  Proof using All.
    destruct P as ((T & [A|[_ F]] & _) & _).
    - destruct (active_next _ _ _ _ T A) as (g & s & _ & E2 & SQ & _). destruct (step_running _ _ _ _ _ _ _ _ _ SQ ST) as (w2 & h & e & X & R).
      assert (HH : h <> None).
      { destruct (exec_names _ _ _ _ _ _ _ _ sane_said (stmt_fine _ E2) X) as (_ & _ & _ & _ & [->|(pl & j & _ & _ & -> & _)] & _); [exact H|discriminate]. }
      destruct e as [e|]; [destruct (g && catchable e)|]; destruct R as [_ ->]; assumption.
    - destruct F as [F|[F|(l & e & F & FM)]].
      + destruct (step_over _ _ _ _ _ _ (or_introl F) ST) as [_ ->]. exact H.
      + destruct (step_over _ _ _ _ _ _ (or_intror F) ST) as [_ ->]. exact H.
      + destruct P as (_ & _ & _ & _ & _ & P6). destruct (P6 _ _ F) as [-> _].
        destruct (step_handling _ _ _ _ _ _ _ _ _ F ST) as (h & e' & X & ->). cbn.
        destruct (exec_names _ _ _ _ _ _ _ _ sane_said (Logic.I : stmt_ok SMove) X) as (_ & _ & _ & _ & [->|(pl & j & _ & _ & -> & _)] & _); [exact H|discriminate].
  Qed.

  Lemma step_log :
    (w_files w' slog = w_files w slog /\ (completed p' <-> completed p)) \/
    ((exists j, w_files w slog = Some j) /\ w_files w' slog = None /\ ~ completed p).
  Proof using All.
    destruct P as ((T & [A|[_ F]] & _) & _).
    - destruct (active_next _ _ _ _ T A) as (g & s & _ & E2 & SQ & _ & MV & _). destruct (step_running _ _ _ _ _ _ _ _ _ SQ ST) as (w2 & h & e & X & R).
      assert (NC : ~ completed p) by (unfold completed; rewrite SQ; discriminate).
      destruct (exec_names _ _ _ _ _ _ _ _ sane_said (stmt_fine _ E2) X) as (_ & _ & N3 & _ & _ & N6).
      destruct (is_move s) eqn:IM.
      + assert (s = SMove) by (destruct s; try discriminate IM; reflexivity). subst s. destruct (N3 eq_refl) as [[-> NE]|(-> & j & J & ->)].
        * left. destruct e as [e|]; [|congruence]. destruct (g && catchable e); destruct R as [-> ->].
          -- rewrite said_files. split; [apply slog_said|]. split; intro C; [destruct (handling_not _ _ C)|destruct (NC C)].
          -- split; [apply slog_said|]. split; intro C; [discriminate C|destruct (NC C)].
        * destruct R as [-> ->]. right. rewrite <- slog_said. split; [exists j; exact J|]. split; [|exact NC]. rewrite move_files. reflexivity.
      + left. assert (NM : s <> SMove) by (intros ->; discriminate IM). specialize (N6 NM (not_open _ A E2)). rewrite slog_said in N6.
        assert (LN : length (skipn (S (length outs)) (flagged (r_script r))) <> 0).
        { rewrite skipn_length, flagged_length. intro Z. destruct A as (_ & A2 & _).
          assert (Y : length outs = length (stmts (r_script r)) - 1) by lia. pose proof last_is_move as LM. rewrite <- Y in LM. congruence. }
        destruct e as [e|]; [destruct (g && catchable e)|]; destruct R as [-> ->]; rewrite ?said_files; (split; [exact N6|]);
          (split; intro C; [|destruct (NC C)]).
        * destruct (handling_not _ _ C).
        * discriminate C.
        * exfalso. apply LN. apply (f_equal (fun st => match st with Running l => length l | _ => 0 end)) in C. exact C.
    - destruct F as [F|[F|(l & e & F & FM)]].
      + destruct (step_over _ _ _ _ _ _ (or_introl F) ST) as [-> ->]. left. tauto.
      + destruct (step_over _ _ _ _ _ _ (or_intror F) ST) as [-> ->]. left. tauto.
      + destruct P as (_ & _ & _ & _ & _ & P6). destruct (P6 _ _ F) as [-> _].
        assert (NC : ~ completed p) by (unfold completed; rewrite F; discriminate).
        destruct (step_handling _ _ _ _ _ _ _ _ _ F ST) as (h & e' & X & ->).
        destruct (exec_names _ _ _ _ _ _ _ _ sane_said (Logic.I : stmt_ok SMove) X) as (_ & _ & N3 & _).
        destruct (N3 eq_refl) as [[-> NE]|(-> & j & J & ->)].
        * left. split; [apply slog_said|]. split; intro C; [|destruct (NC C)]. destruct e' as [e'|]; [discriminate C|congruence].
        * right. rewrite <- slog_said. split; [exists j; exact J|]. split; [|exact NC]. rewrite move_files. reflexivity.
  Qed.

  (** If nothing fails. *)
  Definition waiting (q : proc) : Prop := p_state q = Handling [SMove] FileNotFound \/ p_state q = Raised FileNotFound.

  Lemma step_log_ok : o_fail o = None -> active r outs w p \/ waiting p /\ w_files w slog = None \/ completed p ->
    (w_files w' slog = w_files w slog /\ (waiting p' /\ w_files w' slog = None \/ (exists l, p_state p' = Running l /\ l <> []) \/ completed p') /\
       (completed p' <-> completed p) /\ (w_files w slog = None -> w_files w' (rlog (r_stamp r)) = w_files w (rlog (r_stamp r)))) \/
    (exists j, w_files w slog = Some j /\ w_files w' slog = None /\ completed p' /\ forall q, q <> slog -> w_files w' q = if path_eqb (rlog (r_stamp r)) q then Some j else w_files w q).
  Proof using All.
    intros OF [A|[[WT SN]|C]].
    - destruct P as ((T & _) & _). destruct (active_next _ _ _ _ T A) as (g & s & E1 & E2 & SQ & CD & MV & _).
      destruct (step_running _ _ _ _ _ _ _ _ _ SQ ST) as (w2 & h & e & X & R).
      assert (NC : ~ completed p) by (unfold completed; rewrite SQ; discriminate).
      destruct (exec_names _ _ _ _ _ _ _ _ sane_said (stmt_fine _ E2) X) as (_ & N2 & N3 & _ & _ & N6).
      assert (KS : p_stamp p = r_stamp r) by (destruct K as [K1 _]; exact K1).
      destruct (is_move s) eqn:IM.
      + assert (s = SMove) by (destruct s; try discriminate IM; reflexivity). subst s. destruct (N3 eq_refl) as [[-> NE]|(-> & j & J & ->)].
        * left. destruct (MV eq_refl) as [_ MV2].
          assert (SN : w_files w slog = None /\ e = Some FileNotFound).
          { unfold exec_stmt in X. cbv zeta in X. rewrite OF in X. change (Results, "log.log"%string) with slog in X. rewrite said_files in X.
            destruct (w_files w slog) as [j|]; [|injection X as _ <-; auto]. change (p_stamp (spoken (o_lines o) p)) with (p_stamp p) in X. rewrite KS, said_sub, MV2 in X. injection X as _ _ X. congruence. }
          destruct SN as [SN ->]. destruct (shares_idx _ T SH) as [idx IO]. destruct (shared r idx T IO) as (SHD & HO & _).
          assert (GG := flagged_nth _ _ _ _ _ SHD E1).
          assert (g = true).
          { rewrite GG. apply Nat.leb_le. destruct (MV eq_refl) as [MV1 _].
            pose proof (pre_body r idx T IO). lia. }
          subst g. rewrite H0 in R. cbn [andb catchable] in R. destruct R as [-> ->]. rewrite !said_files. rewrite slog_said.
          split; [reflexivity|]. split; [|split; [|intros _; unfold w1; rewrite said_files; reflexivity]].
          -- left. split; [|exact SN]. left. destruct K as (_ & _ & K3 & _). cbn [go p_state]. rewrite K3, HO. reflexivity.
          -- split; intro C; [|destruct (NC C)]. destruct (handling_not _ _ C).
        * destruct R as [-> ->]. right. exists j. rewrite <- slog_said. split; [exact J|]. split; [rewrite move_files; reflexivity|].
          split. { unfold completed. cbn [go p_state]. rewrite skipn_all2; [reflexivity|]. rewrite flagged_length. destruct (MV eq_refl) as [MV1 _]. lia. }
          intros q NQ. rewrite !move_files. cbn [spoken p_stamp]. rewrite KS. destruct (path_eqb (rlog (r_stamp r)) q); [reflexivity|].
          destruct (path_eqb slog q) eqn:SQ2; [apply path_eqb_eq in SQ2; congruence|]. unfold w1. rewrite said_files. reflexivity.
      + left. assert (NM : s <> SMove) by (intros ->; discriminate IM). assert (NO := not_open _ A E2). specialize (N6 NM NO). rewrite slog_said in N6.
        assert (CD' : can_do (r_stamp r) w1 s). { specialize (CD NM). unfold w1. destruct s; cbn in *; rewrite ?said_sub; exact CD. }
        assert (K1 : kept r w1 p1) by (apply spoken_kept; exact K).
        destruct (exec_goes i r p1 o s w1 w2 h e sane_said K1 CD' X) as [-> _]. rewrite OF in R. destruct R as [-> ->].
        assert (LN : skipn (S (length outs)) (flagged (r_script r)) <> []).
        { intro Z. apply (f_equal (@length _)) in Z. rewrite skipn_length, flagged_length in Z. cbn in Z. destruct A as (_ & A2 & _).
          assert (Y : length outs = length (stmts (r_script r)) - 1) by lia. pose proof last_is_move as LM. rewrite <- Y in LM. congruence. }
        split; [exact N6|]. split; [right; left; eexists; split; [reflexivity|exact LN]|]. split.
        * split; intro C; [|destruct (NC C)]. unfold completed in C. cbn [go p_state] in C. congruence.
        * intros _. cbn [spoken p_stamp] in N2. rewrite KS in N2. rewrite (N2 NM) by (intros ->; discriminate NO). unfold w1. rewrite said_files. reflexivity.
    - destruct WT as [F|F].
      + destruct (step_handling _ _ _ _ _ _ _ _ _ F ST) as (h & e' & X & ->).
        assert (NC : ~ completed p) by (unfold completed; rewrite F; discriminate). left.
        unfold exec_stmt in X. cbv zeta in X. rewrite OF in X. change (Results, "log.log"%string) with slog in X. rewrite said_files, SN in X. injection X as <- _ <-.
        rewrite !said_files. split; [reflexivity|]. split; [left; split; [right; reflexivity|exact SN]|]. split; [|reflexivity].
        split; intro C; [discriminate C|destruct (NC C)].
      + destruct (step_over _ _ _ _ _ _ (or_intror (ex_intro _ _ F)) ST) as [-> ->]. left. split; [reflexivity|]. split; [left; split; [right; exact F|exact SN]|]. tauto.
    - destruct (step_over _ _ _ _ _ _ (or_introl C) ST) as [-> ->]. left. split; [reflexivity|]. split; [right; right; exact C|]. tauto.
  Qed.
End Step.

Lemma run_app : forall l1 l2 s, sys_run s (l1 ++ l2) = sys_run (sys_run s l1) l2.
Proof. intros l1 l2 s. unfold sys_run. apply fold_left_app. Qed.

Lemma first_of : forall {A} (l : list A), l <> [] -> exists a, nth_error l 0 = Some a.
Proof. intros A [|a l] N; [congruence|exists a; reflexivity]. Qed.

Section Overlap.
  Variable w : world.
  Variable rs : list run.
  Hypothesis R : ready w rs.
  Hypothesis ND : NoDup (map r_stamp rs).
  Hypothesis SH : Forall (fun r => shares_log (r_script r)) rs.
  Variable before : list (nat * outcome).
  Let S1 := sys_run (w, launch rs) before.
  Hypothesis OPENED : Forall (fun p => p_handle p <> None /\ ~ ended p) (snd S1).

  (** Every run, at every point. *)
  Lemma everywhere : forall later, let s := sys_run S1 later in sane (fst s) /\ length (snd s) = length rs /\
    forall i r, nth_error rs i = Some r -> exists p, nth_error (snd s) i = Some p /\ kept r (fst s) p /\ PL rs i r (own i (before ++ later)) (fst s) p.
  Proof using R ND. intro later. cbv zeta. unfold S1. rewrite <- run_app. exact (logs_anywhere w rs (before ++ later) R ND). Qed.

  (** The step of the last statement. *)
  Lemma last_step : forall later k o, let s := sys_run S1 later in let s' := sys_run S1 (later ++ [(k, o)]) in
    (s' = s /\ nth_error rs k = None) \/
    exists r p p', nth_error rs k = Some r /\ nth_error (snd s) k = Some p /\ kept r (fst s) p /\ PL rs k r (own k (before ++ later)) (fst s) p /\
      step_proc k o (fst s) p = (fst s', p') /\ (forall j, nth_error (snd s') j = if Nat.eqb k j then Some p' else nth_error (snd s) j).
  Proof using R ND.
    intros later k o s s'. destruct (everywhere later) as (_ & L & E). fold s in L, E.
    assert (X : s' = sys_step s (k, o)) by (unfold s', s; rewrite run_app; reflexivity). unfold sys_step in X. cbn [fst snd] in X.
    destruct (nth_error rs k) as [r|] eqn:RK.
    - right. destruct (E _ _ RK) as (p & N & KP & P). rewrite N in X. destruct (step_proc k o (fst s) p) as [w' p'] eqn:ST.
      exists r, p, p'. rewrite X. cbn [fst snd]. repeat (split; [assumption || reflexivity|]). intro j. rewrite nth_set_nth.
      destruct (Nat.eqb k j) eqn:KJ; [|reflexivity]. apply Nat.eqb_eq in KJ. subst j. rewrite N. reflexivity.
    - left. destruct (nth_error (snd s) k) eqn:N; [|auto]. apply nth_error_None in RK. assert (k < length (snd s)) by (apply nth_error_Some; congruence). lia.
  Qed.

  Lemma shares_at : forall i r, nth_error rs i = Some r -> shares_log (r_script r).
  Proof using SH. intros i r E. rewrite Forall_forall in SH. exact (SH _ (nth_error_In _ _ E)). Qed.

  Lemma still_open : forall later, Forall (fun p => p_handle p <> None) (snd (sys_run S1 later)).
  Proof using All.
    induction later as [|[k o] l IH] using rev_ind; [cbn; eapply Forall_impl; [|exact OPENED]; intros q X; exact (proj1 X)|].
    destruct (everywhere l) as (SA & _ & _).
    destruct (last_step l k o) as [[-> _]|(r & p & p' & RK & N & KP & P & ST & NN)]; [exact IH|].
    rewrite Forall_forall in IH. apply Forall_forall. intros q I. apply In_nth_error in I as [j J]. rewrite NN in J. destruct (Nat.eqb k j).
    - injection J as <-. exact (handle_kept _ _ _ _ _ _ _ _ _ SA KP P (shares_at _ _ RK) (IH _ (nth_error_In _ _ N)) ST).
    - exact (IH _ (nth_error_In _ _ J)).
  Qed.

  Lemma opened_at : forall later k p, nth_error (snd (sys_run S1 later)) k = Some p -> p_handle p <> None.
  Proof using All. intros later k p N. pose proof (still_open later) as O. rewrite Forall_forall in O. exact (O _ (nth_error_In _ _ N)). Qed.

  Lemma at_most_one : forall later, let s := sys_run S1 later in
    (w_files (fst s) slog <> None /\ forall i p, nth_error (snd s) i = Some p -> ~ completed p) \/
    (forall i j p q, nth_error (snd s) i = Some p -> nth_error (snd s) j = Some q -> completed p -> completed q -> i = j) /\ w_files (fst s) slog = None.
  Proof using All.
    induction later as [|[k o] l IH] using rev_ind.
    - cbn. destruct (w_files (fst S1) slog); [left|right]; (split; [|]); try congruence.
      + intros i p N C. rewrite Forall_forall in OPENED. destruct (OPENED _ (nth_error_In _ _ N)) as [_ O]. apply O. left. exact C.
      + intros i j p q N _ C _. rewrite Forall_forall in OPENED. destruct (OPENED _ (nth_error_In _ _ N)) as [_ O]. destruct O. left. exact C.
    - destruct (everywhere l) as (SA & _ & _).
      destruct (last_step l k o) as [[-> _]|(r & p & p' & RK & N & KP & P & ST & NN)]; [exact IH|]. cbv zeta in *.
      destruct (step_log _ _ _ _ _ _ _ _ _ SA KP P (shares_at _ _ RK) (opened_at _ _ _ N) ST) as [[F C]|[[j F] [F' C]]].
      + assert (Q : forall i q, nth_error (snd (sys_run S1 (l ++ [(k, o)]))) i = Some q -> completed q ->
                    exists q', nth_error (snd (sys_run S1 l)) i = Some q' /\ completed q').
        { intros i q E X. rewrite NN in E. destruct (Nat.eqb k i) eqn:KI; [|eauto]. apply Nat.eqb_eq in KI. subst i. injection E as <-. exists p. tauto. }
        destruct IH as [[A B]|[A B]]; [left|right]; rewrite F.
        * split; [exact A|]. intros i q E X. destruct (Q _ _ E X) as (q' & E' & X'). exact (B _ _ E' X').
        * split; [|exact B]. intros i i2 q q2 E E2 X X2. destruct (Q _ _ E X) as (q' & E' & X'). destruct (Q _ _ E2 X2) as (q2' & E2' & X2').
          exact (A _ _ _ _ E' E2' X' X2').
      + right. split; [|exact F']. destruct IH as [[_ B]|[_ A]]; [|congruence]. intros i i2 q q2 E E2 X X2. rewrite NN in E, E2.
        destruct (Nat.eqb k i) eqn:KI; [apply Nat.eqb_eq in KI|destruct (B _ _ E X)].
        destruct (Nat.eqb k i2) eqn:KI2; [apply Nat.eqb_eq in KI2; congruence|destruct (B _ _ E2 X2)].
  Qed.

  (** ** Nothing fails. *)
  Hypothesis OK1 : Forall (fun x => o_fail (snd x) = None) before.
  Hypothesis RUNNING : Forall (fun p => exists x l, p_state p = Running (x :: l)) (snd S1).

  Definition waits (s : world * list proc) (k : nat) : Prop :=
    exists p, nth_error (snd s) k = Some p /\ (waiting p \/ exists l, p_state p = Running l /\ l <> []).

  Definition at_odds (s : world * list proc) : Prop :=
    (exists h, w_files (fst s) slog = Some h /\ forall k, k < length rs -> exists p l, nth_error (snd s) k = Some p /\ p_state p = Running l /\ l <> []) \/
    (w_files (fst s) slog = None /\ exists i r p h, nth_error rs i = Some r /\ nth_error (snd s) i = Some p /\ completed p /\
      w_files (fst s) (rlog (r_stamp r)) = Some h /\
      forall k r', nth_error rs k = Some r' -> k <> i -> waits s k /\ w_files (fst s) (rlog (r_stamp r')) = None).

  Lemma running_active : forall i r outs w' p l, PL rs i r outs w' p -> p_state p = Running l -> l <> [] -> active r outs w' p.
  Proof using.
    intros i r outs w' p l ((_ & [A|[_ F]] & _) & _) E N; [exact A|]. exfalso. destruct F as [F|[[e F]|(m & e & F & _)]]; congruence.
  Qed.

  Lemma stamps_differ : forall i k r r', nth_error rs i = Some r -> nth_error rs k = Some r' -> k <> i -> r_stamp r' <> r_stamp r.
  Proof using ND.
    intros i k r r' E E' N X. apply N. apply (NoDup_nth_error (map r_stamp rs)); [exact ND|rewrite map_length; apply nth_error_Some; congruence|].
    rewrite !nth_error_map, E, E'. cbn. congruence.
  Qed.

  Lemma no_fails : forall i l, Forall (fun x : nat * outcome => o_fail (snd x) = None) l -> existsb fails (own i l) = false.
  Proof using.
    intros i l F. unfold own. induction F as [|[k o] l H F IH]; [reflexivity|]. cbn. destruct (Nat.eqb k i); [|exact IH]. cbn. unfold fails at 1.
    cbn in H. rewrite H. exact IH.
  Qed.

  Lemma odds : rs <> [] -> forall later, Forall (fun x => o_fail (snd x) = None) later -> at_odds (sys_run S1 later).
  Proof using All.
    intros NE. induction later as [|[k o] l IH] using rev_ind; intro FA.
    - cbn. left. destruct (everywhere []) as (SA & L & E). cbn in L, E. rewrite app_nil_r in E.
      assert (RUN : forall k, k < length rs -> exists p l, nth_error (snd S1) k = Some p /\ p_state p = Running l /\ l <> []).
      { intros k KL. destruct (nth_error rs k) as [r|] eqn:RK; [|apply nth_error_None in RK; lia]. destruct (E _ _ RK) as (p & N & KP & P).
        pose proof RUNNING as O. rewrite Forall_forall in O. destruct (O _ (nth_error_In _ _ N)) as (x & m & O1).
        exists p. eexists. split; [exact N|]. split; [exact O1|discriminate]. }
      destruct (first_of _ NE) as [r0 R0]. destruct (E 0 r0 R0) as (p & N & KP & P).
      assert (O := opened_at [] 0 p). cbn in O. specialize (O N). destruct (p_handle p) as [h|] eqn:HH; [|congruence].
      exists h. split; [|exact RUN]. destruct P as (_ & _ & P3 & _). rewrite HH in P3. destruct P3 as ([q Q] & _ & _ & P4 & _).
      destruct (P4 _ Q) as [->|(r' & I & ->)]; [exact Q|]. exfalso. apply In_nth_error in I as [k K].
      destruct (E _ _ K) as (p' & N' & _ & (_ & _ & _ & P5 & _)).
      assert (KL : k < length rs) by (apply nth_error_Some; congruence). destruct (RUN _ KL) as (p2 & l2 & N2 & S2 & S3).
      rewrite P5 in Q; [discriminate Q| |].
      + intros [X|[e X]]; congruence.
      + assert (T : in_table (r_script r')) by (destruct R as (_ & _ & T & _); rewrite Forall_forall in T; exact (T _ (nth_error_In _ _ K))).
        assert (X : shares_log (r_script r')) by (rewrite Forall_forall in SH; exact (SH _ (nth_error_In _ _ K))).
        destruct (shares_idx _ T X) as [idx O1]. apply (shared r' idx T O1).
    - apply Forall_app in FA as [FA FO]. inversion FO as [|x y OF _]. subst x y. cbn in OF. specialize (IH FA).
      destruct (everywhere l) as (SA & L & E).
      destruct (last_step l k o) as [[-> _]|(r & p & p' & RK & N & KP & P & ST & NN)]; [exact IH|].
      cbv zeta in *. set (s := sys_run S1 l) in *. set (s' := sys_run S1 (l ++ [(k, o)])) in *.
      assert (OP := opened_at _ _ _ N).
      pose proof KP as (K1 & _ & _ & K4 & K5). destruct (step_framed _ _ _ _ _ _ SA K5 K4 ST) as (F & _). rewrite K1 in F.
      destruct IH as [(h & SL & RUN)|(SL & i & ri & pi & h & Ri & Ni & Ci & Li & OT)].
      + assert (KL : k < length rs) by (apply nth_error_Some; congruence). destruct (RUN _ KL) as (p2 & l2 & N2 & S2 & S3).
        assert (p2 = p) by congruence. subst p2. assert (A := running_active _ _ _ _ _ _ P S2 S3).
        destruct (step_log_ok _ _ _ _ _ _ _ _ _ SA KP P (shares_at _ _ RK) OP ST OF (or_introl A)) as [(F1 & F2 & F3 & _)|(j & F1 & F2 & F3 & F4)].
        * left. exists h. split; [congruence|]. intros m ML. destruct (Nat.eqb k m) eqn:KM.
          -- apply Nat.eqb_eq in KM. subst m. assert (X := NN k). rewrite Nat.eqb_refl in X.
             destruct F2 as [[_ F2]|[(l3 & F2 & F5)|F2]]; [congruence|exists p', l3; auto|]. apply F3 in F2. unfold completed in F2. congruence.
          -- destruct (RUN _ ML) as (p3 & l3 & N3 & S4 & S5). exists p3, l3. rewrite NN, KM. auto.
        * right. split; [exact F2|]. exists k, r, p', j. split; [exact RK|]. split; [rewrite NN, Nat.eqb_refl; reflexivity|]. split; [exact F3|].
          split; [rewrite F4 by discriminate; rewrite path_eqb_refl; reflexivity|]. intros m r' Rm MK.
          assert (KM : Nat.eqb k m = false) by (apply Nat.eqb_neq; congruence).
          assert (ML : m < length rs) by (apply nth_error_Some; congruence). destruct (RUN _ ML) as (p3 & l3 & N3 & S4 & S5). split.
          -- exists p3. rewrite NN, KM. split; [exact N3|]. right. exists l3. auto.
          -- rewrite F4 by discriminate. destruct (path_eqb _ _) eqn:PQ.
             ++ apply path_eqb_eq in PQ. injection PQ as PQ. destruct (stamps_differ _ _ _ _ RK Rm MK). congruence.
             ++ destruct (E _ _ Rm) as (p4 & N4 & _ & (_ & _ & _ & P5 & _)). apply P5.
                ** intros [X|[e X]]; congruence.
                ** assert (T : in_table (r_script r')) by (destruct R as (_ & _ & T & _); rewrite Forall_forall in T; exact (T _ (nth_error_In _ _ Rm))).
                   destruct (shares_idx _ T (shares_at _ _ Rm)) as [idx O1]. apply (shared r' idx T O1).
      + right. destruct (Nat.eq_dec k i) as [->|KI].
        * assert (pi = p) by congruence. subst pi. destruct (step_over _ _ _ _ _ _ (or_introl Ci) ST) as [W ->]. rewrite W.
          split; [exact SL|]. exists i, ri, p, h. split; [exact Ri|]. split; [rewrite NN, Nat.eqb_refl; reflexivity|]. split; [exact Ci|]. split; [exact Li|].
          intros m r' Rm MK. destruct (OT _ _ Rm MK) as [(q & Nq & Q) LQ]. split; [|exact LQ]. exists q. rewrite NN.
          replace (Nat.eqb i m) with false by (symmetry; apply Nat.eqb_neq; congruence). auto.
        * destruct (OT _ _ RK KI) as [(q & Nq & Q) LQ]. assert (q = p) by congruence. subst q.
          assert (X : active r (own k (before ++ l)) (fst s) p \/ waiting p /\ w_files (fst s) slog = None \/ completed p).
          { destruct Q as [Q|(l2 & S2 & S3)]; [right; left; auto|]. left. exact (running_active _ _ _ _ _ _ P S2 S3). }
          assert (NC : ~ completed p). { unfold completed. destruct Q as [[Q|Q]|(l2 & S2 & S3)]; congruence. }
          destruct (step_log_ok _ _ _ _ _ _ _ _ _ SA KP P (shares_at _ _ RK) OP ST OF X) as [(F1 & F2 & F3 & F4)|(j & F1 & _)]; [|congruence].
          split; [congruence|]. exists i, ri, pi, h. split; [exact Ri|]. split; [rewrite NN; replace (Nat.eqb k i) with false by (symmetry; apply Nat.eqb_neq; congruence); exact Ni|].
          split; [exact Ci|]. split.
          -- rewrite (f_rlog _ _ _ _ F); [exact Li|]. apply not_eq_sym. exact (stamps_differ _ _ _ _ Ri RK KI).
          -- intros m r' Rm MI. destruct (Nat.eqb k m) eqn:KM.
             ++ apply Nat.eqb_eq in KM. subst m. assert (r' = r) by congruence. subst r'. split; [|rewrite (F4 SL); exact LQ].
                exists p'. rewrite NN, Nat.eqb_refl. split; [reflexivity|]. destruct F2 as [[F2 _]|[F2|F2]]; [left; exact F2|right; exact F2|destruct (NC (proj1 F3 F2))].
             ++ destruct (OT _ _ Rm MI) as [(q & Nq2 & Q2) LQ2]. split; [exists q; rewrite NN, KM; auto|].
                rewrite (f_rlog _ _ _ _ F); [exact LQ2|]. apply Nat.eqb_neq in KM. apply (stamps_differ _ _ _ _ RK Rm). congruence.
  Qed.

  Lemma one_takes_all : forall later, rs <> [] -> Forall (fun x => o_fail (snd x) = None) later ->
    let s := sys_run S1 later in Forall ended (snd s) ->
    exists i r log, nth_error rs i = Some r /\ content (fst s) slog = None /\ content (fst s) (rlog (r_stamp r)) = Some log /\
      forall j r' p, nth_error rs j = Some r' -> nth_error (snd s) j = Some p ->
        p_state p = (if Nat.eqb j i then Running [] else Raised FileNotFound) /\
        lines_of j log = p_out p /\ (j <> i -> content (fst s) (rlog (r_stamp r')) = None) /\
        forall t, In (SWrite t) (stmts (r_script r')) ->
          content (fst s) (RunDir (r_stamp r'), result_name r' t) = Some [Written j (result_name r' t)].
  Proof using All.
    intros later NE FA s EN. rewrite Forall_forall in EN. destruct (everywhere later) as (SA & L & E). fold s in SA, L, E.
    destruct (odds NE later FA) as [(h & SL & RUN)|(SL & i & ri & pi & h & Ri & Ni & Ci & Li & OT)]; [fold s in SL, RUN|fold s in SL, Ni, Li, OT].
    - exfalso. destruct (first_of _ NE) as [r0 R0]. destruct (RUN 0 ltac:(apply nth_error_Some; congruence)) as (p & l & N & S2 & S3).
      destruct (EN _ (nth_error_In _ _ N)) as [X|[e X]]; congruence.
    - exists i, ri, (w_data (fst s) h). split; [exact Ri|]. split; [unfold content; rewrite SL; reflexivity|]. split; [unfold content; rewrite Li; reflexivity|].
      intros j r' p Rj Nj. destruct (E _ _ Rj) as (p2 & N2 & KP & P). assert (p2 = p) by congruence. subst p2.
      assert (ST : p_state p = (if Nat.eqb j i then Running [] else Raised FileNotFound)).
      { destruct (Nat.eqb j i) eqn:JI.
        - apply Nat.eqb_eq in JI. subst j. assert (pi = p) by congruence. subst pi. exact Ci.
        - apply Nat.eqb_neq in JI. destruct (OT _ _ Rj JI) as [(q & Nq & Q) _]. assert (q = p) by congruence. subst q.
          destruct (EN _ (nth_error_In _ _ N2)) as [X|[e X]]; destruct Q as [[Q|Q]|(l & Q1 & Q2)]; congruence. }
      split; [exact ST|]. pose proof P as (P1 & _ & P3 & _). split; [|split].
      + assert (OP := opened_at _ _ _ N2). destruct (p_handle p) as [hp|]; [|congruence]. destruct P3 as ([q Q] & PL2 & _ & P4 & _).
        destruct (P4 _ Q) as [->|(r2 & I & ->)]; [unfold s in *; congruence|]. apply In_nth_error in I as [m Rm].
        destruct (Nat.eq_dec m i) as [->|MI].
        * assert (ri = r2) by congruence. subst r2. assert (hp = h) by congruence. subst hp. exact PL2.
        * destruct (OT _ _ Rm MI) as [_ X]. congruence.
      + intro JI. destruct (OT _ _ Rj JI) as [_ X]. unfold content. rewrite X. reflexivity.
      + intros t I. apply In_nth_error in I as [m M]. destruct P1 as (T & AF & FILES).
        assert (OKn : result_name r' t <> logname).
        { pose proof (stmts_ok _ T) as OK. rewrite Forall_forall in OK. exact (OK _ (nth_error_In _ _ M) _). }
        destruct (FILES _ OKn) as [FI _]. rewrite (FI _ _ M eq_refl). unfold fate_of.
        assert (NF : existsb fails (own j (before ++ later)) = false) by (apply no_fails, Forall_app; auto).
        assert (ML : m < length (stmts (r_script r'))) by (apply nth_error_Some; congruence).
        assert (LN : length (stmts (r_script r')) <= length (own j (before ++ later))).
        { destruct AF as [A|[[X|X] _]]; [|congruence|exact X]. exfalso. destruct (active_next _ _ _ _ T A) as (g & s0 & _ & _ & SQ & _).
          destruct (EN _ (nth_error_In _ _ N2)) as [X|[e X]]; congruence. }
        destruct (nth_error (own j (before ++ later)) m) as [o|] eqn:OM; [|apply nth_error_None in OM; lia].
        assert (X : forall l, existsb fails l = false -> existsb fails (firstn m l) = false /\ forall o, In o l -> o_fail o = None).
        { intros l0 X. split.
          - rewrite <- (firstn_skipn m l0), existsb_app in X. apply orb_false_iff in X. apply X.
          - intros o0 I. destruct (o_fail o0) eqn:OF; [|reflexivity]. assert (Y : existsb fails l0 = true) by (apply existsb_exists; exists o0; split; [exact I|unfold fails; rewrite OF; reflexivity]). congruence. }
        destruct (X _ NF) as [X1 X2]. rewrite X1, (X2 _ (nth_error_In _ _ OM)). reflexivity.
  Qed.
End Overlap.
