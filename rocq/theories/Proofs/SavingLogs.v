(** The lines of a run are in one file, whatever fails and whatever other runs do. *)
From Coq Require Import String List Bool Arith Lia.
From Verif Require Import Model.Py Model.Saving Model.SaveTable Spec.SavingSpec Proofs.SavingNames Proofs.SavingWorld Proofs.SavingFrame
  Proofs.SavingResults Proofs.SavingFates.
Import ListNotations.
Local Open Scope list_scope.

Definition named (w : world) (j : nat) : Prop := exists q, w_files w q = Some j.

(** What a statement does to the names. *)
Lemma exec_names : forall i p o s w w' h e, sane w -> stmt_ok s -> exec_stmt i p o s w = (w', h, e) ->
  (* names are kept, unless the log is moved *)
  (s <> SMove -> forall q j, w_files w q = Some j -> w_files w' q = Some j) /\
  (s <> SMove -> s <> SOpenLog AtRun -> w_files w' (rlog (p_stamp p)) = w_files w (rlog (p_stamp p))) /\
  (s = SMove -> (w' = w /\ e <> None) \/ (e = None /\ exists j, w_files w slog = Some j /\ w' = move_log (p_stamp p) j w)) /\
  (forall q j, j < w_next w -> w_files w' q = Some j -> w_files w q = Some j \/ q = rlog (p_stamp p)) /\
  (h = p_handle p \/ exists pl j, s = SOpenLog pl /\ e = None /\ h = Some j /\ w_files w' (dir_of (p_stamp p) pl, logname) = Some j) /\
  (s <> SMove -> is_open s = false -> w_files w' slog = w_files w slog).
Proof.
  intros i p o s w w' h e S OK E. unfold exec_stmt in E. cbv zeta in E.
  assert (Z : w' = w -> h = p_handle p -> (s = SMove -> e <> None) ->
    (s <> SMove -> forall q j, w_files w q = Some j -> w_files w' q = Some j) /\
    (s <> SMove -> s <> SOpenLog AtRun -> w_files w' (rlog (p_stamp p)) = w_files w (rlog (p_stamp p))) /\
    (s = SMove -> (w' = w /\ e <> None) \/ (e = None /\ exists j, w_files w slog = Some j /\ w' = move_log (p_stamp p) j w)) /\
    (forall q j, j < w_next w -> w_files w' q = Some j -> w_files w q = Some j \/ q = rlog (p_stamp p)) /\
    (h = p_handle p \/ exists pl j, s = SOpenLog pl /\ e = None /\ h = Some j /\ w_files w' (dir_of (p_stamp p) pl, logname) = Some j) /\
    (s <> SMove -> is_open s = false -> w_files w' slog = w_files w slog)) by (intros -> -> X; auto 10).
  assert (W : forall pt l w1, sane w1 -> snd pt <> logname ->
    (forall q j, w_files w1 q = Some j -> w_files (write_file pt l w1) q = Some j) /\
    (forall q, snd q = logname -> w_files (write_file pt l w1) q = w_files w1 q) /\
    (forall q j, j < w_next w1 -> w_files (write_file pt l w1) q = Some j -> w_files w1 q = Some j)).
  { intros pt l w1 S1 N. destruct (write_files_same pt l w1) as (k & F & _ & G). split; [|split].
    - intros q j Q. destruct (path_eqb pt q) eqn:PQ; [|apply path_eqb_neq in PQ; rewrite write_files; auto].
      apply path_eqb_eq in PQ. subst q. rewrite F. destruct G as [G|(G & _)]; congruence.
    - intros q Q. apply write_files. intros ->. exact (N Q).
    - intros q j B Q. destruct (path_eqb pt q) eqn:PQ; [|apply path_eqb_neq in PQ; rewrite write_files in Q; auto].
      apply path_eqb_eq in PQ. subst q. rewrite F in Q. injection Q as ->. destruct G as [G|(_ & -> & _)]; [exact G|lia]. }
  destruct s as [pl| |t|t|step| |].
  - destruct (o_fail o); [injection E as <- <- <-; apply Z; auto; discriminate|].
    destruct (w_dirs w (dir_of (p_stamp p) pl)); [|injection E as <- <- <-; apply Z; auto; discriminate].
    change "log.log"%string with logname in E. destruct (open_file (dir_of (p_stamp p) pl, logname) w) as [w1 j] eqn:F. injection E as <- <- <-.
    destruct (open_facts _ _ _ _ S F) as (_ & _ & _ & F1 & _ & F2 & _ & F3 & F4).
    split; [|split; [|split; [|split; [|split]]]].
    + intros _ q k Q. destruct (path_eqb (dir_of (p_stamp p) pl, logname) q) eqn:PQ; [|apply path_eqb_neq in PQ; rewrite F2; auto].
      apply path_eqb_eq in PQ. subst q. destruct F3 as [F3|(F3 & _)]; congruence.
    + intros _ NR. apply F2. intros X. destruct pl; try discriminate X. destruct (NR eq_refl).
    + discriminate.
    + intros q k B Q. left. destruct (path_eqb (dir_of (p_stamp p) pl, logname) q) eqn:PQ; [|apply path_eqb_neq in PQ; rewrite <- F2; auto].
      apply path_eqb_eq in PQ. subst q. assert (k = j) by congruence. subst k. destruct F3 as [F3|(_ & F3 & _)]; [exact F3|lia].
    + right. exists pl, j. auto.
    + discriminate.
  - destruct (o_fail o); [injection E as <- <- <-; apply Z; auto; discriminate|].
    destruct (w_dirs w (RunDir (p_stamp p))); [injection E as <- <- <-; apply Z; auto; discriminate|].
    destruct (w_dirs w Results); injection E as <- <- <-; [|apply Z; auto; discriminate]. cbn [add_dir w_files]. split; [auto|]. split; [auto|]. split; [discriminate|]. auto.
  - destruct (o_fail o); [injection E as <- <- <-; apply Z; auto; discriminate|].
    destruct (w_dirs w (SubDir _ _)); [injection E as <- <- <-; apply Z; auto; discriminate|].
    destruct (w_dirs w (RunDir (p_stamp p))); injection E as <- <- <-; [|apply Z; auto; discriminate]. cbn [add_dir w_files]. split; [auto|]. split; [auto|]. split; [discriminate|]. auto.
  - assert (V : forall l, w' = write_file (RunDir (p_stamp p), render (run_env (p_stamp p) (p_args p)) t) l w -> h = p_handle p ->
      (SWrite t <> SMove -> forall q j, w_files w q = Some j -> w_files w' q = Some j) /\
      (SWrite t <> SMove -> SWrite t <> SOpenLog AtRun -> w_files w' (rlog (p_stamp p)) = w_files w (rlog (p_stamp p))) /\
      (SWrite t = SMove -> (w' = w /\ e <> None) \/ (e = None /\ exists j, w_files w slog = Some j /\ w' = move_log (p_stamp p) j w)) /\
      (forall q j, j < w_next w -> w_files w' q = Some j -> w_files w q = Some j \/ q = rlog (p_stamp p)) /\
      (h = p_handle p \/ exists pl j, SWrite t = SOpenLog pl /\ e = None /\ h = Some j /\ w_files w' (dir_of (p_stamp p) pl, logname) = Some j) /\
      (SWrite t <> SMove -> is_open (SWrite t) = false -> w_files w' slog = w_files w slog)).
    { intros l -> ->. destruct (W (RunDir (p_stamp p), render (run_env (p_stamp p) (p_args p)) t) l w S (OK _)) as (W1 & W2 & W3).
      split; [auto|]. split; [intros _ _; apply W2; reflexivity|]. split; [discriminate|]. split; [eauto|]. split; [auto|]. intros _ _. apply W2. reflexivity. }
    destruct (o_fail o) as [f|].
    + destruct (o_torn o); [|injection E as <- <- <-; apply Z; auto; discriminate].
      destruct (w_dirs w (RunDir (p_stamp p))); injection E as <- <- <-; [eapply V; reflexivity|apply Z; auto; discriminate].
    + destruct (w_dirs w (RunDir (p_stamp p))); injection E as <- <- <-; [eapply V; reflexivity|apply Z; auto; discriminate].
  - injection E as <- <- <-.
    assert (X : sane (write_steps i (p_stamp p) (p_args p) step (o_steps o) w) /\ w_next w <= w_next (write_steps i (p_stamp p) (p_args p) step (o_steps o) w) /\
      (forall q j, w_files w q = Some j -> w_files (write_steps i (p_stamp p) (p_args p) step (o_steps o) w) q = Some j) /\
      (forall q, snd q = logname -> w_files (write_steps i (p_stamp p) (p_args p) step (o_steps o) w) q = w_files w q) /\
      (forall q j, j < w_next w -> w_files (write_steps i (p_stamp p) (p_args p) step (o_steps o) w) q = Some j -> w_files w q = Some j)).
    { apply (steps_ind (fun w' => sane w' /\ w_next w <= w_next w' /\ (forall q j, w_files w q = Some j -> w_files w' q = Some j) /\
        (forall q, snd q = logname -> w_files w' q = w_files w q) /\ (forall q j, j < w_next w -> w_files w' q = Some j -> w_files w q = Some j))); [auto|].
      intros w1 pl t s -> _ (S1 & NX & A1 & A2 & A3). destruct OK as [_ OK].
      destruct (W (dir_of (p_stamp p) pl, render (step_env (p_args p) s) t) [Written i (render (step_env (p_args p) s) t)] w1 S1 (OK _)) as (W1 & W2 & W3).
      pose proof (write_next (dir_of (p_stamp p) pl, render (step_env (p_args p) s) t) [Written i (render (step_env (p_args p) s) t)] w1) as NX1.
      split; [apply write_sane; exact S1|]. split; [lia|]. split; [auto|]. split; [intros q Q; rewrite W2, A2; auto|].
      intros q j B Q. apply A3; [exact B|]. apply W3; [lia|exact Q]. }
    destruct X as (_ & _ & X1 & X2 & X3). split; [auto|]. split; [intros _ _; apply X2; reflexivity|]. split; [discriminate|]. split; [eauto|]. split; [auto|].
    intros _ _. apply X2. reflexivity.
  - destruct (o_fail o); [injection E as <- <- <-; apply Z; auto; discriminate|].
    change (Results, "log.log"%string) with slog in E. destruct (w_files w slog) as [j|] eqn:F; [|injection E as <- <- <-; apply Z; auto; discriminate].
    destruct (w_dirs w (RunDir (p_stamp p))); injection E as <- <- <-; [|apply Z; auto; discriminate].
    change (set_file (RunDir (p_stamp p), "log.log"%string) (Some j) (set_file slog None w)) with (move_log (p_stamp p) j w).
    split; [intros X; destruct (X eq_refl)|]. split; [intros X; destruct (X eq_refl)|]. split; [intros _; right; eauto|]. split; [|split; [auto|]].
    + intros q k B Q. rewrite move_files in Q. destruct (path_eqb (rlog (p_stamp p)) q) eqn:P1; [apply path_eqb_eq in P1; auto|].
      destruct (path_eqb slog q); [discriminate Q|auto].
    + intros X. destruct (X eq_refl).
  - injection E as <- <- <-. apply Z; auto. discriminate.
Qed.

Lemma move_named : forall t j w k, w_files w slog = Some j -> w_files w (rlog t) = None -> named w k -> named (move_log t j w) k.
Proof.
  intros t j w k E N [q Q]. destruct (path_eqb slog q) eqn:P.
  - apply path_eqb_eq in P. subst q. exists (rlog t). rewrite move_files, path_eqb_refl. congruence.
  - exists q. rewrite move_files, P. destruct (path_eqb (rlog t) q) eqn:P1; [apply path_eqb_eq in P1; congruence|exact Q].
Qed.

Definition uses_move (sc : script) : bool := existsb is_move (stmts sc).
Definition over (p : proc) : Prop := p_state p = Running [] \/ exists e, p_state p = Raised e.


Lemma log_kind : forall sc, in_table sc ->
  (existsb is_open_run (stmts sc) = false /\ handler_of sc = [SMove] /\ existsb is_open_results (stmts sc) = true /\ sc_handler sc = Some [SMove] /\
     existsb is_open_results (sc_pre sc) = true /\ existsb is_move (sc_pre sc) = false /\ existsb is_move (sc_body sc) = true) \/
  (existsb is_open_results (stmts sc) = false /\ handler_of sc = [] /\ existsb is_move (stmts sc) = false).
Proof.
  intros sc T. apply in_table_check in T. unfold check in T. rewrite !andb_true_iff in T. destruct T as [[[_ B] _] _].
  unfold handler_of. destruct (existsb is_open_results (stmts sc)), (sc_handler sc) as [[|[] [|]]|]; try discriminate B;
    rewrite ?andb_true_iff, ?negb_true_iff in B; [left|right|right]; tauto.
Qed.

Lemma exec_opens : forall i p o s w w' h e, exec_stmt i p o s w = (w', h, e) ->
  (is_open s = true -> e = None -> h <> None) /\ (is_open s = false -> h = p_handle p).
Proof.
  intros i p o s w w' h e E. unfold exec_stmt in E. cbv zeta in E. destruct s as [pl| |t|t|step| |]; cbn [is_open].
  - split; [|discriminate]. intros _ ->. destruct (o_fail o); [discriminate E|]. destruct (w_dirs w _); [|discriminate E].
    destruct (open_file _ w). injection E as _ <-. discriminate.
  - split; [discriminate|]. intros _. destruct (o_fail o); [injection E as _ <- _; reflexivity|].
    destruct (w_dirs w _); [injection E as _ <- _; reflexivity|]. destruct (w_dirs w _); injection E as _ <- _; reflexivity.
  - split; [discriminate|]. intros _. destruct (o_fail o); [injection E as _ <- _; reflexivity|].
    destruct (w_dirs w (SubDir _ _)); [injection E as _ <- _; reflexivity|]. destruct (w_dirs w _); injection E as _ <- _; reflexivity.
  - split; [discriminate|]. intros _. destruct (o_fail o); [destruct (o_torn o)|].
    + destruct (w_dirs w _); injection E as _ <- _; reflexivity.
    + injection E as _ <- _; reflexivity.
    + destruct (w_dirs w _); injection E as _ <- _; reflexivity.
  - split; [discriminate|]. intros _. injection E as _ <- _; reflexivity.
  - split; [discriminate|]. intros _. destruct (o_fail o); [injection E as _ <- _; reflexivity|].
    destruct (w_files w _); [|injection E as _ <- _; reflexivity]. destruct (w_dirs w _); injection E as _ <- _; reflexivity.
  - split; [discriminate|]. intros _. injection E as _ <- _; reflexivity.
Qed.

Section Logs.
  Variable rs : list run.

  (** Where the lines are. *)
  Definition lines_at (i : nat) (r : run) (w : world) (h : option nat) (out : list string) : Prop :=
    match h with
    | None => out = [] /\ forall j, j < w_next w -> lines_of i (w_data w j) = []
    | Some h => named w h /\ lines_of i (w_data w h) = out /\ (forall j, j < w_next w -> j <> h -> lines_of i (w_data w j) = []) /\
                (forall q, w_files w q = Some h -> q = slog \/ exists r', In r' rs /\ q = rlog (r_stamp r')) /\
                (existsb is_open_run (stmts (r_script r)) = true -> w_files w (rlog (r_stamp r)) = Some h)
    end.

  Definition PL (i : nat) (r : run) (outs : list outcome) (w : world) (p : proc) : Prop :=
    PR i r outs w p /\ In r rs /\ lines_at i r w (p_handle p) (p_out p) /\
    (* the log is still to be moved *)
    (~ over p -> existsb is_open_run (stmts (r_script r)) = false -> w_files w (rlog (r_stamp r)) = None) /\
    (* the log is open *)
    (active r outs w p -> (p_handle p <> None <-> existsb is_open (firstn (length outs) (stmts (r_script r))) = true) /\
        (existsb is_open_run (firstn (length outs) (stmts (r_script r))) = false -> w_files w (rlog (r_stamp r)) = None)) /\
    (forall l e, p_state p = Handling l e -> l = [SMove] /\ existsb is_open_run (stmts (r_script r)) = false).

  Lemma exec_lines : forall i p o s w w' h e k, sane w -> stmt_ok s -> exec_stmt i p o s w = (w', h, e) ->
    forall j, j < w_next w' -> (loggy w j -> lines_of k (w_data w' j) = lines_of k (w_data w j)) /\
       (lines_of k (w_data w' j) = [] \/ j < w_next w /\ w_data w' j = w_data w j).
  Proof using.
    intros i p o s w w' h e k S OK E j L. destruct (exec_quiet _ _ _ _ _ _ _ _ S OK E) as [Q _].
    destruct (q_data _ _ _ Q j L) as [[A B]|[A B]].
    - split; [intros _; rewrite B; reflexivity|auto].
    - split; [intros X; destruct (A X)|left; apply B].
  Qed.

  Lemma lines_said : forall i r w h out lines, lines_at i r w h out ->
    lines_at i r (said w h (map (Line i) lines)) h (out ++ match h with Some _ => lines | None => [] end).
  Proof using.
    intros i r w [h|] out lines L; [|rewrite app_nil_r; exact L]. destruct L as (A & B & C & D & E).
    split; [exact A|]. split; [cbn; rewrite Nat.eqb_refl, lines_of_app, lines_of_own, B; reflexivity|]. split; [|split; [exact D|exact E]].
    intros j J N. cbn. destruct (Nat.eqb h j) eqn:X; [apply Nat.eqb_eq in X; congruence|]. exact (C _ J N).
  Qed.

  Lemma lines_exec : forall i r p o s w w' h e, sane w -> kept r w p -> In r rs -> In s (stmts (r_script r)) \/ s = SMove -> in_table (r_script r) ->
    stmt_ok s -> exec_stmt i p o s w = (w', h, e) ->
    (s = SMove -> w_files w (rlog (r_stamp r)) = None) -> (is_open s = true -> p_handle p = None) ->
    lines_at i r w (p_handle p) (p_out p) -> lines_at i r w' h (p_out p).
  Proof using.
    intros i r p o s w w' h e S K I IS T OK E NM OO L. destruct (exec_names _ _ _ _ _ _ _ _ S OK E) as (N1 & N2 & N3 & N4 & N5 & _).
    pose proof (exec_lines _ _ _ _ _ _ _ _ i S OK E) as X. destruct (exec_quiet _ _ _ _ _ _ _ _ S OK E) as [Q _].
    pose proof K as (K1 & _ & _ & _ & K5). rewrite K1 in *.
    assert (ALL : p_handle p = None -> forall j, j < w_next w' -> lines_of i (w_data w' j) = []).
    { intros PN j J. rewrite PN in L. destruct L as [_ L]. destruct (X j J) as [_ [Y|[Y Z]]]; [exact Y|]. rewrite Z. exact (L _ Y). }
    destruct N5 as [->|(pl & j & -> & -> & -> & F)].
    - destruct (p_handle p) as [h|] eqn:PH.
      + destruct L as (A & B & C & D & G). pose proof (K5 _ eq_refl) as LG. pose proof (q_loggy _ _ _ Q _ LG) as LG'.
        split; [|split; [|split; [|split]]].
        * destruct (is_move s) eqn:IM.
          -- assert (s = SMove) by (destruct s; try discriminate IM; reflexivity). subst s.
             destruct (N3 eq_refl) as [[-> _]|(_ & j & J & ->)]; [exact A|]. apply move_named; auto.
          -- destruct A as [q A]. exists q. apply N1; [intros ->; discriminate IM|exact A].
        * rewrite <- B. apply X; [apply LG'|exact LG].
        * intros j J N. destruct (X j J) as [_ [Y|[Y Z]]]; [exact Y|]. rewrite Z. exact (C _ Y N).
        * intros q M. destruct (N4 q h (proj1 LG) M) as [Y|Y]; [exact (D _ Y)|]. right. exists r. auto.
        * intro O. apply N1; [|exact (G O)]. intros ->. rewrite (NM eq_refl) in G. specialize (G O). discriminate G.
      + split; [exact (proj1 L)|exact (ALL eq_refl)].
    - rewrite (OO eq_refl) in *. destruct L as [L _]. destruct (q_sane _ _ _ Q) as (_ & B & J).
      assert (IS' : In (SOpenLog pl) (stmts (r_script r))) by (destruct IS as [IS|IS]; [exact IS|discriminate IS]).
      assert (PA : pl <> AtCwd).
      { destruct (In_nth_error _ _ IS') as [k NE]. pose proof (table_at _ _ _ T NE) as Y. destruct Y as (_ & Y & _). exact Y. }
      split; [exists (dir_of (r_stamp r) pl, logname); exact F|]. split; [rewrite L; apply (ALL eq_refl); exact (B _ _ F)|].
      split; [intros k KL _; exact (ALL eq_refl k KL)|]. split.
      + intros q M. rewrite (J _ _ _ M F). destruct pl; [destruct (PA eq_refl)|left; reflexivity|right; exists r; split; [exact I|reflexivity]].
      + intro O. assert (pl = AtRun); [|subst pl; exact F].
        destruct pl; [destruct (PA eq_refl)| |reflexivity]. destruct (log_kind _ T) as [Y|Y]; [destruct Y as [Y _]; congruence|].
        destruct Y as [Y _]. assert (Z : existsb is_open_results (stmts (r_script r)) = true) by (apply existsb_exists; exists (SOpenLog AtResults); auto).
        congruence.
  Qed.

  Lemma said_files : forall w h l, w_files (said w h l) = w_files w.
  Proof using. intros w [h|] l; reflexivity. Qed.

  Lemma PL_init : forall i r w, in_table (r_script r) -> In r rs -> unused w (r_stamp r) ->
    (forall j, j < w_next w -> lines_of i (w_data w j) = []) -> PL i r [] w (start (r_script r) (r_stamp r) (r_args r)).
  Proof using.
    intros i r w T I U N. split; [apply PR_init; assumption|]. split; [exact I|]. split; [split; [reflexivity|exact N]|].
    destruct U as (_ & _ & U). split; [intros _ _; apply U|]. split; [|discriminate]. intros _. cbn. split; [split; congruence|]. intros _. apply U.
  Qed.

  Lemma handling_state : forall l e l' e', handling l e = Handling l' e' -> l' = l /\ l <> [].
  Proof using. intros [|s l] e l' e' H; [discriminate H|]. cbn in H. split; [congruence|discriminate]. Qed.

  Lemma not_active : forall r outs o p, finishing r outs p -> forall w' p', ~ active r (outs ++ [o]) w' p'.
  Proof using.
    intros r outs o p [F _] w' p' (A1 & A2 & _). rewrite fails_app in A1. apply orb_false_iff in A1 as [A1 _]. rewrite app_length in A2.
    destruct F as [F|F]; [congruence|lia].
  Qed.

  Lemma PL_own : forall i r outs w p o w' p', sane w -> kept r w p -> PL i r outs w p ->
    step_proc i o w p = (w', p') -> PL i r (outs ++ [o]) w' p'.
  Proof using.
    intros i r outs w p o w' p' S K (P & I & L & C & D & H) E.
    assert (P' := PR_own _ _ _ _ _ _ _ _ S K P E). split; [exact P'|]. split; [exact I|].
    destruct P as (T & A & _). pose proof (handler_moves _ T) as HM.
    assert (S1 := said_sane w (p_handle p) (map (Line i) (o_lines o)) S).
    assert (K1 := spoken_kept r w (o_lines o) (map (Line i) (o_lines o)) p K).
    assert (L1 := lines_said i r w (p_handle p) (p_out p) (o_lines o) L).
    destruct A as [A|A].
    - destruct (active_next _ _ _ _ T A) as (g & s & E1 & E2 & ST & CD & MV & WR). destruct (D A) as [D1 D2].
      assert (NO : ~ over p) by (intros [X|[e X]]; rewrite ST in X; discriminate X).
      destruct (step_running _ _ _ _ _ _ _ _ _ ST E) as (w2 & h & e & X & R).
      assert (OK : stmt_ok s) by (pose proof (stmts_ok _ T) as Q; rewrite Forall_forall in Q; exact (Q _ (nth_error_In _ _ E2))).
      pose proof (table_at _ _ _ T E2) as TA. cbv zeta in TA.
      assert (IN : In s (stmts (r_script r))) by exact (nth_error_In _ _ E2).
      assert (MR : s = SMove -> existsb is_open_run (stmts (r_script r)) = false).
      { intros ->. destruct (log_kind _ T) as [Y|Y]; [tauto|]. destruct Y as (_ & _ & Y).
        assert (existsb is_move (stmts (r_script r)) = true) by (apply existsb_exists; exists SMove; auto). congruence. }
      assert (OO : is_open s = true -> p_handle p = None).
      { intro O. destruct s; try discriminate O. destruct TA as [TA _]. destruct (p_handle p) eqn:PH; [|reflexivity].
        destruct D1 as [D1 _]. rewrite D1 in TA by discriminate. discriminate TA. }
      assert (L2 : lines_at i r w2 h (p_out (spoken (o_lines o) p))).
      { apply (lines_exec i r (spoken (o_lines o) p) o s _ w2 h e S1 K1 I (or_introl IN) T OK X); [|exact OO|exact L1].
        intros ->. rewrite said_files. exact (C NO (MR eq_refl)). }
      destruct (exec_names _ _ _ _ _ _ _ _ S1 OK X) as (N1 & N2 & N3 & N4 & N5 & _). cbn [p_stamp spoken] in *.
      destruct (exec_opens _ _ _ _ _ _ _ _ X) as [O1 O2]. cbn [p_handle spoken] in O2. rewrite said_files in *.
      pose proof K as (KS & _ & KH & _). rewrite KS in *.
      assert (RF : s <> SMove -> s <> SOpenLog AtRun -> w_files w' (rlog (r_stamp r)) = w_files w (rlog (r_stamp r))).
      { intros Y1 Y2. rewrite <- (N2 Y1 Y2). destruct e as [e|]; [destruct (g && catchable e)|]; destruct R as [-> _]; rewrite ?said_files; reflexivity. }
      split; [|split; [|split]].
      + destruct e as [e|]; [destruct (g && catchable e)|]; destruct R as [-> ->]; cbn [go p_handle p_out spoken]; try exact L2.
        assert (EH : h = p_handle p).
        { destruct (is_open s) eqn:IO; [|exact (O2 eq_refl)]. destruct N5 as [N5|(pl & j & _ & Y & _)]; [exact N5|discriminate Y]. }
        rewrite EH in L2. exact (lines_said i r w2 (p_handle p) _ [exception_line e] L2).
      + intros NO' OR. destruct (is_move s) eqn:IM.
        * assert (s = SMove) by (destruct s; try discriminate IM; reflexivity). subst s.
          destruct (N3 eq_refl) as [[-> NE]|(-> & j & _ & ->)].
          -- destruct e as [e|]; [|congruence]. destruct (g && catchable e); destruct R as [-> _]; rewrite ?said_files; exact (C NO OR).
          -- destruct R as [-> ->]. exfalso. apply NO'. left. cbn [go p_state]. rewrite skipn_all2; [reflexivity|]. rewrite flagged_length. destruct (MV eq_refl). lia.
        * rewrite RF; [exact (C NO OR)|intros ->; discriminate IM|]. intros ->.
          assert (existsb is_open_run (stmts (r_script r)) = true) by (apply existsb_exists; exists (SOpenLog AtRun); auto). congruence.
      + intros A'. assert (RN : e = None).
        { destruct e as [e|]; [|reflexivity]. destruct A' as (_ & _ & A3 & _).
          destruct (g && catchable e); destruct R as [_ ->]; cbn [go p_state] in A3; [|discriminate A3].
          rewrite KH in A3. destruct (handling_shape (handler_of (r_script r)) e HM) as [[e' Y]|(l' & e' & Y & _)]; rewrite Y in A3; discriminate A3. }
        subst e. destruct R as [-> ->]. cbn [go p_handle]. rewrite app_length. cbn [length]. rewrite Nat.add_1_r, (firstn_S _ _ _ E2), !existsb_app.
        cbn [existsb]. rewrite !orb_false_r. assert (NM : s <> SMove).
        { intros ->. destruct A' as (_ & A' & _). rewrite app_length in A'. cbn in A'. destruct (MV eq_refl). lia. }
        split.
        * destruct (is_open s) eqn:IO.
          -- rewrite orb_true_r. specialize (O1 eq_refl eq_refl). tauto.
          -- rewrite orb_false_r, (O2 eq_refl). exact D1.
        * intro Y. apply orb_false_iff in Y as [Y1 Y2]. rewrite RF; [exact (D2 Y1)|exact NM|]. intros ->. discriminate Y2.
      + intros l e' Y. destruct e as [e|]; [destruct (g && catchable e)|]; destruct R as [_ ->]; cbn [go p_state] in Y; try discriminate Y.
        rewrite KH in Y. apply handling_state in Y as [-> Y]. destruct (log_kind _ T) as [Z|(_ & Z & _)]; [tauto|congruence].
    - assert (NA := not_active r outs o p A). destruct A as [F A].
      assert (OV : over p -> lines_at i r w' (p_handle p') (p_out p') /\
        (~ over p' -> existsb is_open_run (stmts (r_script r)) = false -> w_files w' (rlog (r_stamp r)) = None) /\
        (active r (outs ++ [o]) w' p' -> (p_handle p' <> None <-> existsb is_open (firstn (length (outs ++ [o])) (stmts (r_script r))) = true) /\
          (existsb is_open_run (firstn (length (outs ++ [o])) (stmts (r_script r))) = false -> w_files w' (rlog (r_stamp r)) = None)) /\
        (forall l e, p_state p' = Handling l e -> l = [SMove] /\ existsb is_open_run (stmts (r_script r)) = false)).
      { intros O. destruct (step_over _ _ _ _ _ _ O E) as [-> ->]. split; [exact L|]. split; [exact C|]. split; [|exact H]. intros X. destruct (NA _ _ X). }
      destruct A as [A|[A|(l & e & A & M)]]; [apply OV; left; exact A|apply OV; right; exact A|]. clear OV.
      destruct (H _ _ A) as [-> OR]. destruct (step_handling _ _ _ _ _ _ _ _ _ A E) as (h & e' & X & ->).
      assert (NO : ~ over p) by (intros [Y|[z Y]]; rewrite A in Y; discriminate Y).
      destruct (exec_opens _ _ _ _ _ _ _ _ X) as [_ O2]. specialize (O2 eq_refl). cbn [p_handle spoken] in O2. subst h.
      cbn [go p_handle p_out spoken p_state].
      split; [|split; [|split]].
      + apply (lines_exec i r (spoken (o_lines o) p) o SMove _ w' _ e' S1 K1 I (or_intror eq_refl) T Logic.I X); [|discriminate|exact L1].
        intros _. rewrite said_files. exact (C NO OR).
      + intros NO'. exfalso. apply NO'. right. cbn. destruct e' as [e'|]; eexists; reflexivity.
      + intros Y. destruct (NA _ _ Y).
      + intros l e2 Y. destruct e'; discriminate Y.
  Qed.

  Lemma PL_frame : forall i r outs w p k r' w', k <> i -> r_stamp r' <> r_stamp r -> kept r w p ->
    PL i r outs w p -> framed k (r_stamp r') w w' ->
    (exists o q q', sane w /\ step_proc k o w q = (w', q') /\ kept r' w q /\ exists outs', PL k r' outs' w q) -> PL i r outs w' p.
  Proof using.
    intros i r outs w p k r' w' KI ND KP (P & I & L & C & D & H) F (o & q & q' & S & ST & KQ & outs' & PQ).
    assert (RF := f_rlog _ _ _ _ F (r_stamp r) (not_eq_sym ND)).
    split; [exact (PR_frame _ _ _ _ _ _ _ _ ND P F)|]. split; [exact I|]. split; [|split; [|split; [|exact H]]].
    - (* the names of log files after the step of the other run *)
      assert (NM : forall h, loggy w h -> (named w h -> named w' h) /\ forall x, w_files w' x = Some h -> w_files w x = Some h \/ x = rlog (r_stamp r')).
      { intros h LG. destruct PQ as (PRQ & _ & _ & CQ & _ & HQ). destruct PRQ as (TQ & AQ & _). pose proof KQ as (KS & _).
        assert (SA : forall lines, sane (said w (p_handle q) lines)) by (intros lines; apply said_sane; exact S).
        assert (EX : forall s w2 h2 e, stmt_ok s -> exec_stmt k (spoken (o_lines o) q) o s (said w (p_handle q) (map (Line k) (o_lines o))) = (w2, h2, e) ->
                  (s = SMove -> w_files w (rlog (r_stamp r')) = None) ->
                  (named w h -> named w2 h) /\ forall x, w_files w2 x = Some h -> w_files w x = Some h \/ x = rlog (r_stamp r')).
        { intros s w2 h2 e OK X Y. destruct (exec_names _ _ _ _ _ _ _ _ (SA _) OK X) as (N1 & N2 & N3 & N4 & _).
          cbn [p_stamp spoken] in *. rewrite KS in *. rewrite said_files in *. split.
          - intros A. destruct (is_move s) eqn:IM.
            + assert (s = SMove) by (destruct s; try discriminate IM; reflexivity). subst s.
              assert (A' : named (said w (p_handle q) (map (Line k) (o_lines o))) h) by (destruct A as [x A]; exists x; rewrite said_files; exact A).
              destruct (N3 eq_refl) as [[-> _]|(_ & j & J & ->)]; [exact A'|]. apply move_named; [rewrite said_files; exact J|rewrite said_files; exact (Y eq_refl)|exact A'].
            + destruct A as [x A]. exists x. apply N1; [intros ->; discriminate IM|exact A].
          - intros x Z. apply N4; [|exact Z]. destruct LG as [LG _]. destruct (p_handle q); exact LG. }
        destruct AQ as [AQ|AQ].
        - destruct (active_next _ _ _ _ TQ AQ) as (g & s & E1 & E2 & SQ & _).
          assert (OK : stmt_ok s) by (pose proof (stmts_ok _ TQ) as Q; rewrite Forall_forall in Q; exact (Q _ (nth_error_In _ _ E2))).
          destruct (step_running _ _ _ _ _ _ _ _ _ SQ ST) as (w2 & h2 & e & X & R).
          destruct (EX s w2 h2 e OK X) as [B1 B2].
          + intros ->. apply CQ; [intros [Y|[z Y]]; rewrite SQ in Y; discriminate Y|].
            destruct (log_kind _ TQ) as [Y|Y]; [tauto|]. destruct Y as (_ & _ & Y).
            assert (existsb is_move (stmts (r_script r')) = true) by (apply existsb_exists; exists SMove; split; [exact (nth_error_In _ _ E2)|reflexivity]). congruence.
          + destruct e as [e|]; [destruct (g && catchable e)|]; destruct R as [-> _]; try (split; [exact B1|exact B2]).
            unfold named in *. rewrite said_files. split; [exact B1|exact B2].
        - destruct AQ as [_ [AQ|[AQ|(l & e & AQ & _)]]].
          + destruct (step_over _ _ _ _ _ _ (or_introl AQ) ST) as [-> _]. auto.
          + destruct (step_over _ _ _ _ _ _ (or_intror AQ) ST) as [-> _]. auto.
          + destruct (HQ _ _ AQ) as [-> OR]. destruct (step_handling _ _ _ _ _ _ _ _ _ AQ ST) as (h2 & e' & X & _).
            apply (EX SMove w' h2 e' Logic.I X). intros _. apply CQ; [|exact OR]. intros [Y|[z Y]]; rewrite AQ in Y; discriminate Y. }
      assert (IR : In r' rs) by (destruct PQ as (_ & IR & _); exact IR).
      unfold lines_at in *. destruct (p_handle p) as [h|] eqn:PH.
      + destruct L as (A & B & G & M & N). destruct KP as (_ & _ & _ & _ & KP). pose proof (KP _ PH) as LG. destruct (NM _ LG) as [NM1 NM2].
        pose proof (f_loggy _ _ _ _ F _ LG) as LG'.
        split; [exact (NM1 A)|]. split; [|split; [|split]].
        * rewrite <- B. destruct (f_lines _ _ _ _ F i h (not_eq_sym KI) (proj1 LG')) as [[_ X]|[X _]]; [exact X|destruct (X LG)].
        * intros j J NE. destruct (f_lines _ _ _ _ F i j (not_eq_sym KI) J) as [[X Y]|[_ Y]]; [rewrite Y; exact (G _ X NE)|exact Y].
        * intros x X. destruct (NM2 _ X) as [Y|Y]; [exact (M _ Y)|]. right. exists r'. auto.
        * intros O. rewrite RF. exact (N O).
      + destruct L as [L1 L2]. split; [exact L1|]. intros j J.
        destruct (f_lines _ _ _ _ F i j (not_eq_sym KI) J) as [[X Y]|[_ Y]]; [rewrite Y; exact (L2 _ X)|exact Y].
    - intros X Y. rewrite RF. exact (C X Y).
    - intros A. rewrite RF. apply D.
      destruct A as (A1 & A2 & A3 & A4 & A5). split; [exact A1|]. split; [exact A2|]. split; [exact A3|].
      assert (DD : forall d, (d = RunDir (r_stamp r) \/ exists n, d = SubDir (r_stamp r) n) -> w_dirs w' d = w_dirs w d).
      { intros d X. apply (f_dirs _ _ _ _ F); [|intro n]; destruct X as [->|[m ->]]; congruence. }
      rewrite DD in A4 by auto. split; [exact A4|]. intros n X. apply (A5 n). rewrite DD by eauto. exact X.
  Qed.
End Logs.

Lemma lines_of_nothing : forall i n l, i < n -> (forall x, In x l -> n <= author x) -> lines_of i l = [].
Proof.
  intros i n l L. induction l as [|x l IH]; intros H; [reflexivity|].
  assert (IH' := IH (fun y I => H y (or_intror I))). destruct x as [k s|k s|k s]; cbn; try exact IH'.
  destruct (Nat.eqb k i) eqn:E; [|exact IH']. apply Nat.eqb_eq in E. subst k. specialize (H _ (or_introl eq_refl)). cbn in H. lia.
Qed.

Lemma logs_anywhere : forall w rs sched, ready w rs -> NoDup (map r_stamp rs) ->
  let s := sys_run (w, launch rs) sched in
  sane (fst s) /\ length (snd s) = length rs /\
  forall i r, nth_error rs i = Some r -> exists p, nth_error (snd s) i = Some p /\ kept r (fst s) p /\ PL rs i r (own i sched) (fst s) p.
Proof.
  intros w rs sched (S & NB & T & U) ND.
  apply (sys_ind rs w (PL rs) S T ND).
  - intros k r' K. apply PL_init.
    + rewrite Forall_forall in T; exact (T _ (nth_error_In _ _ K)).
    + exact (nth_error_In _ _ K).
    + rewrite Forall_forall in U; exact (U _ (nth_error_In _ _ K)).
    + intros j J. apply (lines_of_nothing k (length rs)); [apply nth_error_Some; congruence|]. intros x. apply NB. exact J.
  - intros k r' outs w1 p o w2 p' _ S1 K1 P1 E1. exact (PL_own _ _ _ _ _ _ _ _ _ S1 K1 P1 E1).
  - intros k r' outs w1 p k2 r2 w2 _ _ KI N S1 KP P1 F (o & q & q' & Y). apply (PL_frame rs _ _ _ _ _ _ _ _ KI N KP P1 F).
    exists o, q, q'. split; [exact S1|]. exact Y.
Qed.
