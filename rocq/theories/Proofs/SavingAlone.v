(** A run alone: where its log is, what is in it, and how the run ends. *)
From Coq Require Import String List Bool Arith Lia.
From Verif Require Import Model.Py Model.Saving Model.SaveTable Spec.SavingSpec Proofs.SavingNames Proofs.SavingWorld Proofs.SavingFrame
  Proofs.SavingResults Proofs.SavingFates Proofs.SavingLogs.
Import ListNotations.
Local Open Scope list_scope.

Lemma first_failure_none : forall outs, first_failure outs = None <-> existsb fails outs = false.
Proof.
  induction outs as [|o outs IH]; [split; reflexivity|]. cbn. unfold fails at 1. destruct (o_fail o); [split; discriminate|]. cbn.
  destruct (first_failure outs) as [[k e]|]; split; intro H; try discriminate H; try reflexivity; apply IH in H; [discriminate H|auto].
Qed.

Lemma first_failure_app : forall outs o, first_failure (outs ++ [o]) =
  match first_failure outs with
  | Some x => Some x
  | None => match o_fail o with Some e => Some (length outs, e) | None => None end
  end.
Proof.
  induction outs as [|a outs IH]; intro o; [cbn; destruct (o_fail o); reflexivity|]. cbn. destruct (o_fail a); [reflexivity|].
  rewrite IH. destruct (first_failure outs) as [[k e]|]; [reflexivity|]. destruct (o_fail o); reflexivity.
Qed.

Lemma first_failure_at : forall outs k e, first_failure outs = Some (k, e) -> k < length outs /\ existsb fails outs = true.
Proof.
  induction outs as [|a outs IH]; intros k e H; [discriminate H|]. cbn in *. unfold fails at 1. destruct (o_fail a).
  - injection H as <- <-. split; [lia|reflexivity].
  - destruct (first_failure outs) as [[j f]|]; [|discriminate H]. injection H as <- <-. destruct (IH _ _ eq_refl). split; [lia|assumption].
Qed.

Lemma flagged_nth : forall sc j g s l, sc_handler sc = Some l -> nth_error (flagged sc) j = Some (g, s) -> g = Nat.leb (length (sc_pre sc)) j.
Proof.
  intros sc j g s l H E. unfold flagged in E. rewrite H in E. destruct (Nat.lt_ge_cases j (length (sc_pre sc))) as [L|L].
  - rewrite nth_error_app1 in E by (rewrite map_length; exact L). rewrite nth_error_map in E. destruct (nth_error (sc_pre sc) j); [|discriminate E].
    injection E as <- _. symmetry. apply Nat.leb_gt. exact L.
  - rewrite nth_error_app2 in E by (rewrite map_length; exact L). rewrite nth_error_map in E. destruct (nth_error (sc_body sc) _); [|discriminate E].
    injection E as <- _. symmetry. apply Nat.leb_le. exact L.
Qed.

Section Alone.
  Variable r : run.
  Variable idx : nat.
  Variable old : option (list item).
  Hypothesis T : in_table (r_script r).
  Hypothesis OPEN : nth_error (sc_pre (r_script r)) idx = Some (SOpenLog AtResults).
  Let sc := r_script r.
  Let n := length (stmts sc).
  Let t := r_stamp r.
  Let old' : list item := match old with Some l => l | None => [] end.

  Definition log_at (w : world) (p : proc) (q q' : path) : Prop :=
    exists h, p_handle p = Some h /\ w_files w q = Some h /\ w_data w h = old' ++ map (Line 0) (p_out p) /\ w_files w q' = None.
  Definition unopened (w : world) (p : proc) : Prop :=
    p_handle p = None /\ content w slog = old /\ w_files w (rlog t) = None /\ p_out p = [].

  Definition PS (outs : list outcome) (w : world) (p : proc) : Prop :=
    PR 0 r outs w p /\ p_out p = printed sc idx outs /\
    match first_failure outs with
    | None => if Nat.ltb (length outs) n
              then (if Nat.leb (length outs) idx then unopened w p else log_at w p slog (rlog t))
              else p_state p = Running [] /\ log_at w p (rlog t) slog
    | Some (k, e) =>
        if Nat.ltb k n
        then if Nat.leb (length (sc_pre sc)) k && catchable e
             then match nth_error outs (S k) with
                  | None => p_state p = Handling [SMove] e /\ log_at w p slog (rlog t) /\ w_dirs w (RunDir t) = dir_made sc k
                  | Some o => match o_fail o with
                              | None => if dir_made sc k then p_state p = Raised e /\ log_at w p (rlog t) slog
                                        else p_state p = Raised FileNotFound /\ log_at w p slog (rlog t)
                              | Some e' => p_state p = Raised e' /\ log_at w p slog (rlog t)
                              end
                  end
             else p_state p = Raised e /\ (if Nat.leb k idx then unopened w p else log_at w p slog (rlog t))
        else p_state p = Running [] /\ log_at w p (rlog t) slog
    end.

  Lemma idx_in : idx < length (sc_pre sc).
  Proof using OPEN. apply nth_error_Some. unfold sc. congruence. Qed.
  Lemma idx_stmt : nth_error (stmts sc) idx = Some (SOpenLog AtResults).
  Proof using OPEN. unfold stmts. rewrite nth_error_app1 by exact idx_in. exact OPEN. Qed.
  Lemma pre_body : length (sc_pre sc) < n.
  Proof using T OPEN.
    destruct (log_kind _ T) as [(_ & _ & _ & _ & _ & _ & B)|(N & _)].
    - unfold n, stmts. rewrite app_length. fold sc in B. destruct (sc_body sc); [discriminate B|cbn; lia].
    - assert (existsb is_open_results (stmts sc) = true) by (apply existsb_exists; exists (SOpenLog AtResults); split; [exact (nth_error_In _ _ idx_stmt)|reflexivity]).
      unfold sc in *. congruence.
  Qed.
  Lemma shared : sc_handler sc = Some [SMove] /\ handler_of sc = [SMove] /\ existsb is_open_run (stmts sc) = false.
  Proof using T OPEN.
    destruct (log_kind _ T) as [Y|(N & _)]; [unfold sc; tauto|].
    assert (existsb is_open_results (stmts sc) = true) by (apply existsb_exists; exists (SOpenLog AtResults); split; [exact (nth_error_In _ _ idx_stmt)|reflexivity]).
    unfold sc in *. congruence.
  Qed.

  (** The only statement opening the log, and the only one moving it. *)
  Lemma only_open : forall j pl, nth_error (stmts sc) j = Some (SOpenLog pl) -> j = idx.
  Proof using T OPEN.
    intros j pl E. destruct (Nat.lt_trichotomy j idx) as [L|[L|L]]; [exfalso|exact L|exfalso].
    - pose proof (table_at _ _ _ T idx_stmt) as K. destruct K as [K _].
      assert (X : existsb is_open (firstn idx (stmts sc)) = true); [|unfold sc in *; congruence].
      apply existsb_exists. exists (SOpenLog pl). split; [|reflexivity]. apply nth_error_In with (n := j).
      rewrite <- E. rewrite <- (firstn_skipn idx (stmts sc)) at 2. rewrite nth_error_app1; [reflexivity|]. rewrite firstn_length.
      pose proof idx_in. pose proof pre_body. unfold n in *. lia.
    - pose proof (table_at _ _ _ T E) as K. destruct K as [K _].
      assert (X : existsb is_open (firstn j (stmts sc)) = true); [|unfold sc in *; congruence].
      apply existsb_exists. exists (SOpenLog AtResults). split; [|reflexivity]. apply nth_error_In with (n := idx).
      rewrite <- idx_stmt. rewrite <- (firstn_skipn j (stmts sc)) at 2. rewrite nth_error_app1; [reflexivity|]. rewrite firstn_length.
      assert (j < length (stmts sc)) by (apply nth_error_Some; congruence). lia.
  Qed.

  Lemma last_move : nth_error (stmts sc) (n - 1) = Some SMove.
  Proof using T OPEN.
    destruct (log_kind _ T) as [(_ & _ & _ & _ & _ & _ & B)|(N & _)].
    - apply existsb_exists in B as (s & I & IM). destruct s; try discriminate IM. apply In_nth_error in I as [j E].
      assert (E2 : nth_error (stmts sc) (length (sc_pre sc) + j) = Some SMove).
      { unfold stmts. rewrite nth_error_app2 by lia. replace (length (sc_pre sc) + j - length (sc_pre sc)) with j by lia. exact E. }
      pose proof (table_at _ _ _ T E2) as [K _]. unfold n. fold sc in K. rewrite <- K. cbn [Nat.sub]. rewrite Nat.sub_0_r. exact E2.
    - assert (existsb is_open_results (stmts sc) = true) by (apply existsb_exists; exists (SOpenLog AtResults); split; [exact (nth_error_In _ _ idx_stmt)|reflexivity]).
      unfold sc in *. congruence.
  Qed.
  Lemma move_last : forall j, nth_error (stmts sc) j = Some SMove -> S j = n.
  Proof using T. intros j E. pose proof (table_at _ _ _ T E) as [K _]. exact K. Qed.

  (** Lines. *)
  Definition so_far (outs : list outcome) : list string := concat (map o_lines (skipn (S idx) outs)).

  Lemma so_far_app : forall outs o, so_far (outs ++ [o]) = so_far outs ++ (if Nat.leb (length outs) idx then [] else o_lines o).
  Proof using.
    intros outs o. unfold so_far. rewrite skipn_app, map_app, concat_app. f_equal.
    destruct (Nat.leb (length outs) idx) eqn:L.
    - apply Nat.leb_le in L. rewrite skipn_all2; [reflexivity|]. cbn [length]. clear -L. lia.
    - apply Nat.leb_gt in L. replace (S idx - length outs) with 0 by (clear -L; lia). cbn. apply app_nil_r.
  Qed.
  Lemma so_far_early : forall outs, length outs <= S idx -> so_far outs = [].
  Proof using. intros outs L. unfold so_far. rewrite skipn_all2 by exact L. reflexivity. Qed.

  Lemma printed_none : forall outs, first_failure outs = None -> length outs <= n -> printed sc idx outs = so_far outs.
  Proof using T OPEN.
    intros outs F L. unfold printed. cbv zeta. rewrite F. unfold so_far. fold n. replace (S (n - 1)) with n by (pose proof pre_body; lia).
    rewrite firstn_all2 by exact L. reflexivity.
  Qed.

  Lemma printed_late : forall outs o, n <= length outs ->
    match first_failure outs with None => True | Some (k, _) => n <= k end -> printed sc idx (outs ++ [o]) = printed sc idx outs.
  Proof using T OPEN.
    intros outs o L F. unfold printed. cbv zeta. fold n. rewrite first_failure_app.
    assert (X : firstn (S (n - 1)) (outs ++ [o]) = firstn (S (n - 1)) outs).
    { pose proof pre_body. rewrite firstn_app. replace (S (n - 1) - length outs) with 0 by lia. cbn [firstn]. apply app_nil_r. }
    destruct (first_failure outs) as [[k e]|].
    - apply Nat.ltb_ge in F. rewrite F, X. reflexivity.
    - destruct (o_fail o); [|rewrite X; reflexivity]. apply Nat.ltb_ge in L. rewrite L, X. reflexivity.
  Qed.

  Lemma said_data : forall w h l, w_data (said w (Some h) l) h = w_data w h ++ l.
  Proof using. intros w h l. cbn. rewrite Nat.eqb_refl. reflexivity. Qed.

  Lemma PS_init : forall w, unused w t -> content w slog = old -> PS [] w (start sc (r_stamp r) (r_args r)).
  Proof using T OPEN.
    intros w U O. split; [apply PR_init; assumption|]. pose proof pre_body as PB. split; [rewrite printed_none by (reflexivity || cbn; lia); unfold so_far; rewrite skipn_nil; reflexivity|].
    cbn [first_failure length Nat.leb]. destruct (Nat.ltb 0 n) eqn:L; [|apply Nat.ltb_ge in L; lia]. repeat split; auto. apply U.
  Qed.

  Lemma said_log : forall w p q q' lines, log_at w p q q' -> log_at (said w (p_handle p) (map (Line 0) lines)) (spoken lines p) q q'.
  Proof using.
    intros w p q q' lines (h & H & F & D & N). exists h. cbn [spoken p_handle p_out]. rewrite H. split; [reflexivity|]. rewrite said_files. split; [exact F|].
    split; [|exact N]. rewrite said_data, D, map_app, app_assoc. reflexivity.
  Qed.

  Lemma go_log : forall w p q q' st, log_at w p q q' -> log_at w (go p (p_handle p) st) q q'.
  Proof using. intros w p q q' st H. exact H. Qed.

  (** A statement which neither opens nor moves the log. *)
  Lemma exec_log : forall p o s w w' h e, sane w -> kept r w p -> stmt_ok s -> exec_stmt 0 p o s w = (w', h, e) ->
    is_move s = false -> is_open s = false ->
    h = p_handle p /\ (log_at w p slog (rlog t) -> log_at w' p slog (rlog t)) /\ (unopened w p -> unopened w' p).
  Proof using.
    intros p o s w w' h e S (K1 & _ & _ & _ & K5) OK E IM IO. destruct (exec_opens _ _ _ _ _ _ _ _ E) as [_ O2].
    destruct (exec_names _ _ _ _ _ _ _ _ S OK E) as (_ & N2 & _ & _ & _ & N6). destruct (exec_quiet _ _ _ _ _ _ _ _ S OK E) as [Q _].
    assert (NM : s <> SMove) by (intros ->; discriminate IM). assert (NO : s <> SOpenLog AtRun) by (intros ->; discriminate IO).
    rewrite K1 in N2. specialize (N2 NM NO). specialize (N6 NM IO). split; [exact (O2 IO)|]. split.
    - intros (j & H & F & D & N). exists j. split; [exact H|]. split; [rewrite N6; exact F|]. split; [|unfold t in *; congruence].
      rewrite <- D. pose proof (K5 _ H) as LG. destruct (q_data _ _ _ Q j (proj1 (q_loggy _ _ _ Q _ LG))) as [[_ X]|[X _]]; [exact X|destruct (X LG)].
    - intros (H & C & N & X). split; [exact H|]. split; [|split; [unfold t in *; congruence|exact X]].
      rewrite <- C. unfold content. rewrite N6. destruct (w_files w slog) as [j|] eqn:F; [|reflexivity]. cbn. f_equal.
      destruct S as (_ & B & J). pose proof (B _ _ F) as L.
      assert (LG : loggy w j) by (split; [exact L|]; intros q M; rewrite (J _ _ _ M F); reflexivity).
      destruct (q_data _ _ _ Q j ltac:(pose proof (q_next _ _ _ Q); lia)) as [[_ Y]|[Y _]]; [exact Y|destruct (Y LG)].
  Qed.

  Lemma exec_opened : forall p o w w' h e, sane w -> kept r w p -> exec_stmt 0 p o (SOpenLog AtResults) w = (w', h, e) -> unopened w p ->
    (o_fail o = None -> e = None /\ forall st, log_at w' (go p h st) slog (rlog t)) /\
    (forall x, o_fail o = Some x -> e = Some x /\ h = p_handle p /\ unopened w' p).
  Proof using.
    intros p o w w' h e S (K1 & _) E (H & C & N & X). pose proof S as (D & B & J). unfold exec_stmt in E. cbv zeta in E. cbn [dir_of] in E. split.
    - intro OF. rewrite OF, D in E. change (Results, "log.log"%string) with slog in E. destruct (open_file slog w) as [w1 j] eqn:F. injection E as <- <- <-.
      split; [reflexivity|]. intro st. exists j. cbn [go p_handle p_out]. rewrite X. cbn [map]. rewrite app_nil_r.
      destruct (open_facts _ _ _ _ S F) as (_ & _ & _ & F1 & _ & F2 & F3 & F4 & _). split; [reflexivity|]. split; [exact F1|].
      split; [|rewrite F2 by discriminate; exact N]. unfold old'. destruct F4 as [F4|(F4 & -> & F5)].
      + rewrite F3 by exact (B _ _ F4). unfold content in C. rewrite F4 in C. cbn in C. rewrite <- C. reflexivity.
      + rewrite F5. unfold content in C. rewrite F4 in C. cbn in C. rewrite <- C. reflexivity.
    - intros x OF. rewrite OF in E. injection E as <- <- <-. split; [reflexivity|]. split; [reflexivity|]. repeat split; assumption.
  Qed.

  Lemma exec_moved : forall p o w w' h e, sane w -> kept r w p -> exec_stmt 0 p o SMove w = (w', h, e) -> log_at w p slog (rlog t) ->
    h = p_handle p /\
    match o_fail o with
    | None => if w_dirs w (RunDir t) then e = None /\ log_at w' p (rlog t) slog else e = Some FileNotFound /\ log_at w' p slog (rlog t)
    | Some x => e = Some x /\ log_at w' p slog (rlog t)
    end.
  Proof using.
    intros p o w w' h e S (K1 & _) E (j & H & F & D & N). unfold exec_stmt in E. cbv zeta in E. rewrite K1 in E. fold t in E.
    destruct (o_fail o).
    - injection E as <- <- <-. split; [reflexivity|]. split; [reflexivity|]. exists j. auto.
    - change (Results, "log.log"%string) with slog in E. rewrite F in E. destruct (w_dirs w (RunDir t)).
      + injection E as <- <- <-. split; [reflexivity|]. split; [reflexivity|].
        change (set_file (RunDir t, "log.log"%string) (Some j) (set_file slog None w)) with (move_log t j w).
        exists j. split; [exact H|]. rewrite !move_files, path_eqb_refl. split; [reflexivity|]. split; [exact D|]. reflexivity.
      + injection E as <- <- <-. split; [reflexivity|]. split; [reflexivity|]. exists j. auto.
  Qed.

  Lemma unopened_said : forall w p lines, unopened w p ->
    said w (p_handle p) lines = w /\ forall l, unopened w (spoken l p).
  Proof using.
    intros w p lines (H & C & N & X). rewrite H. split; [reflexivity|]. intro l. split; [exact H|]. split; [exact C|]. split; [exact N|].
    cbn. rewrite H, X. reflexivity.
  Qed.


  Lemma exec_dirs_fail : forall p o s w w' h e, exec_stmt 0 p o s w = (w', h, e) -> e <> None -> w_dirs w' = w_dirs w.
  Proof using.
    intros p o s w w' h e E N. unfold exec_stmt in E. cbv zeta in E. destruct s as [pl| |m|m|step| |].
    - destruct (o_fail o); [injection E as <- _ _; reflexivity|]. destruct (w_dirs w _); [|injection E as <- _ _; reflexivity].
      destruct (open_file _ w) as [w1 j]. injection E as _ _ <-. congruence.
    - destruct (o_fail o); [injection E as <- _ _; reflexivity|]. destruct (w_dirs w _); [injection E as <- _ _; reflexivity|].
      destruct (w_dirs w _); injection E as <- _ <-; [congruence|reflexivity].
    - destruct (o_fail o); [injection E as <- _ _; reflexivity|]. destruct (w_dirs w (SubDir _ _)); [injection E as <- _ _; reflexivity|].
      destruct (w_dirs w _); injection E as <- _ <-; [congruence|reflexivity].
    - destruct (o_fail o); [destruct (o_torn o)|].
      + destruct (w_dirs w _); injection E as <- _ _; [apply write_dirs|reflexivity].
      + injection E as <- _ _; reflexivity.
      + destruct (w_dirs w _); injection E as <- _ _; [apply write_dirs|reflexivity].
    - injection E as <- _ _. apply (steps_ind (fun w' => w_dirs w' = w_dirs w)); [reflexivity|]. intros w1 pl m s _ _ X. rewrite write_dirs. exact X.
    - destruct (o_fail o); [injection E as <- _ _; reflexivity|]. destruct (w_files w _); [|injection E as <- _ _; reflexivity].
      destruct (w_dirs w _); injection E as <- _ _; reflexivity.
    - injection E as <- _ _. reflexivity.
  Qed.

  Lemma PS_own : forall outs w p o w' p', sane w -> kept r w p -> PS outs w p -> step_proc 0 o w p = (w', p') -> PS (outs ++ [o]) w' p'.
  Proof using T OPEN.
    intros outs w p o w' p' S K (P & PO & ST) E.
    assert (P' := PR_own _ _ _ _ _ _ _ _ S K P E). split; [exact P'|].
    pose proof idx_in as II. pose proof pre_body as PB. destruct shared as (SH & HO & OR).
    rewrite first_failure_app. destruct (first_failure outs) as [[k e]|] eqn:FF.
    - (* it has failed before *)
      destruct (first_failure_at _ _ _ FF) as [KL _]. destruct (Nat.ltb k n) eqn:KN.
      + apply Nat.ltb_lt in KN. assert (U : firstn (Datatypes.S k) (outs ++ [o]) = firstn (Datatypes.S k) outs).
        { rewrite firstn_app. replace (Datatypes.S k - length outs) with 0 by lia. cbn [firstn]. apply app_nil_r. }
        unfold printed in PO |- *. cbv zeta in PO |- *. rewrite first_failure_app. rewrite FF in PO |- *. fold n in PO |- *. assert (KN' := KN). apply Nat.ltb_lt in KN'. rewrite KN' in PO |- *.
        destruct (Nat.leb (length (sc_pre sc)) k && catchable e) eqn:G.
        * apply andb_true_iff in G as [G _]. apply Nat.leb_le in G. assert (KI : Nat.leb k idx = false) by (apply Nat.leb_gt; lia). rewrite KI in PO |- *.
          destruct (nth_error outs (Datatypes.S k)) as [o1|] eqn:NE.
          -- assert (NE' : nth_error (outs ++ [o]) (Datatypes.S k) = Some o1) by (rewrite nth_error_app1; [exact NE|apply nth_error_Some; congruence]).
             rewrite NE', U.
             assert (OV : p_state p = Running [] \/ exists e', p_state p = Raised e').
             { destruct (o_fail o1); [destruct ST as [ST _]; eauto|]. destruct (dir_made sc k); destruct ST as [ST _]; eauto. }
             destruct (step_over _ _ _ _ _ _ OV E) as [-> ->]. split; [exact PO|exact ST].
          -- assert (L : length outs = Datatypes.S k) by (apply nth_error_None in NE; lia).
             rewrite nth_error_app2, L, Nat.sub_diag, U by lia. cbn [nth_error]. destruct ST as (ST & LG & DM).
             destruct (step_handling _ _ _ _ _ _ _ _ _ ST E) as (h & e' & X & ->).
             assert (S1 := said_sane w (p_handle p) (map (Line 0) (o_lines o)) S).
             assert (K1 := spoken_kept r w (o_lines o) (map (Line 0) (o_lines o)) p K).
             destruct (exec_moved _ _ _ _ _ _ S1 K1 X (said_log _ _ _ _ _ LG)) as [EH EM]. rewrite said_sub, DM in EM.
             split.
             ++ destruct LG as (j & J & _). cbn. rewrite J, PO, app_nil_r, <- !app_assoc. reflexivity.
             ++ destruct (o_fail o) as [e2|].
                ** destruct EM as [-> EM]. split; [reflexivity|]. rewrite EH. exact EM.
                ** destruct (dir_made sc k); destruct EM as [-> EM]; (split; [reflexivity|]); rewrite EH; exact EM.
        * destruct ST as [ST1 ST2]. destruct (step_over _ _ _ _ _ _ (or_intror (ex_intro _ e ST1)) E) as [-> ->]. rewrite U. split; [exact PO|]. split; [exact ST1|exact ST2].
      + destruct ST as [ST1 ST2]. destruct (step_over _ _ _ _ _ _ (or_introl ST1) E) as [-> ->]. apply Nat.ltb_ge in KN.
        split; [|split; [exact ST1|exact ST2]]. rewrite PO. symmetry. apply printed_late; [lia|]. rewrite FF. exact KN.
    - destruct (Nat.ltb (length outs) n) eqn:LN.
      + apply Nat.ltb_lt in LN.
        assert (A : active r outs w p).
        { destruct P as (_ & [A|[F _]] & _); [exact A|]. apply first_failure_none in FF. destruct F as [F|F]; [congruence|fold sc in F; fold n in F; lia]. }
        destruct (active_next _ _ _ _ T A) as (g & s & E1 & E2 & SQ & CD & MV & WR). fold sc in E1, E2, SQ, MV. fold t in CD, MV, WR.
        assert (GG := flagged_nth _ _ _ _ _ SH E1).
        assert (DR : w_dirs w (RunDir t) = dir_made sc (length outs)) by (destruct A as (_ & _ & _ & A & _); exact A).
        destruct (step_running _ _ _ _ _ _ _ _ _ SQ E) as (w2 & h & e & X & R).
        assert (S1 := said_sane w (p_handle p) (map (Line 0) (o_lines o)) S).
        assert (K1 := spoken_kept r w (o_lines o) (map (Line 0) (o_lines o)) p K).
        assert (OK : stmt_ok s) by (pose proof (stmts_ok _ T) as Q; rewrite Forall_forall in Q; exact (Q _ (nth_error_In _ _ E2))).
        rewrite printed_none in PO by (assumption || lia).
        (* the error is the given one *)
        assert (EE : is_move s = false -> e = o_fail o).
        { intro IM. assert (NM : s <> SMove) by (intros ->; discriminate IM). specialize (CD NM).
          destruct (exec_goes 0 r _ o s _ w2 h e S1 K1) as [EO _]; [|exact X|exact EO]. destruct s; cbn in *; rewrite ?said_sub; exact CD. }
        (* the state of the log after the statement *)
        assert (LOG : if Nat.leb (length outs) idx
                      then (forall x, e = Some x -> h = p_handle p /\ unopened w2 (spoken (o_lines o) p)) /\
                           (e = None -> forall st, if Nat.eqb (length outs) idx then log_at w2 (go (spoken (o_lines o) p) h st) slog (rlog t)
                                        else unopened w2 (go (spoken (o_lines o) p) h st))
                      else h = p_handle p /\
                           (is_move s = false -> log_at w2 (spoken (o_lines o) p) slog (rlog t)) /\
                           (is_move s = true -> e = o_fail o /\ match o_fail o with None => log_at w2 (spoken (o_lines o) p) (rlog t) slog | Some _ => log_at w2 (spoken (o_lines o) p) slog (rlog t) end)).
        { destruct (Nat.leb (length outs) idx) eqn:LI.
          - apply Nat.leb_le in LI. destruct (unopened_said _ _ (map (Line 0) (o_lines o)) ST) as [SW US]. rewrite SW in *.
            assert (IM : is_move s = false).
            { destruct s; try reflexivity. apply move_last in E2. lia. }
            specialize (EE IM). destruct (Nat.eqb (length outs) idx) eqn:EI.
            + apply Nat.eqb_eq in EI. rewrite EI, idx_stmt in E2. injection E2 as <-.
              destruct (exec_opened _ _ _ _ _ _ S1 K1 X (US _)) as [O1 O2]. split.
              * intros x EX. rewrite EX in EE. destruct (O2 x (eq_sym EE)) as (_ & A1 & A2). split; [exact A1|exact A2].
              * intros EN st. rewrite EN in EE. destruct (O1 (eq_sym EE)) as [_ O3]. apply O3.
            + apply Nat.eqb_neq in EI. assert (IO : is_open s = false).
              { destruct s; try reflexivity. apply only_open in E2. congruence. }
              destruct (exec_log _ _ _ _ _ _ _ S1 K1 OK X IM IO) as (A1 & _ & A2). specialize (A2 (US _)). split; [intros x _; split; assumption|].
              intros _ st. subst h. exact A2.
          - assert (LG := said_log _ _ _ _ (o_lines o) ST). apply Nat.leb_gt in LI.
            assert (IO : is_open s = false). { destruct s; try reflexivity. apply only_open in E2. lia. }
            destruct (is_move s) eqn:IM.
            + assert (s = SMove) by (destruct s; try discriminate IM; reflexivity). subst s.
              destruct (exec_moved _ _ _ _ _ _ S1 K1 X LG) as [EH EM]. rewrite said_sub in EM. split; [exact EH|]. split; [discriminate|]. intros _.
              destruct (MV eq_refl) as [_ MV2]. rewrite MV2 in EM. destruct (o_fail o); exact EM.
            + destruct (exec_log _ _ _ _ _ _ _ S1 K1 OK X IM IO) as (A1 & A2 & _). split; [exact A1|]. split; [intros _; exact (A2 LG)|discriminate]. }
        assert (EE2 : e = o_fail o).
        { destruct (is_move s) eqn:IM; [|exact (EE eq_refl)]. assert (s = SMove) by (destruct s; try discriminate IM; reflexivity). subst s.
          apply move_last in E2. assert (LI : Nat.leb (length outs) idx = false) by (apply Nat.leb_gt; lia). rewrite LI in LOG.
          destruct LOG as (_ & _ & LOG). exact (proj1 (LOG eq_refl)). }
        (* the lines printed *)
        assert (OUT : p_out (spoken (o_lines o) p) = so_far (outs ++ [o])).
        { rewrite so_far_app, <- PO. cbn. f_equal. destruct (Nat.leb (length outs) idx) eqn:LI.
          - destruct ST as (-> & _). reflexivity.
          - destruct ST as (j & -> & _). reflexivity. }
        destruct (o_fail o) as [x|] eqn:OF; subst e.
        * (* it fails now *)
          assert (FU : firstn (Datatypes.S (length outs)) (outs ++ [o]) = outs ++ [o]) by (apply firstn_all2; rewrite app_length; cbn; lia).
          assert (NN : nth_error (outs ++ [o]) (Datatypes.S (length outs)) = None) by (apply nth_error_None; rewrite app_length; cbn; lia).
          unfold printed. cbv zeta. rewrite first_failure_app, FF, OF. fold n. assert (LN' := LN). apply Nat.ltb_lt in LN'. rewrite LN', FU, NN.
          fold (so_far (outs ++ [o])).
          destruct (Nat.leb (length outs) idx) eqn:LI.
          -- apply Nat.leb_le in LI. assert (G : Nat.leb (length (sc_pre sc)) (length outs) = false) by (apply Nat.leb_gt; lia). rewrite G in *. cbn [andb] in *.
             subst g. cbn [andb] in R. destruct R as [-> ->]. destruct LOG as [LOG _]. destruct (LOG x eq_refl) as [-> U].
             split; [|split; [reflexivity|exact U]]. destruct U as (_ & _ & _ & U). exact U.
          -- destruct LOG as (-> & LM1 & LM2).
             assert (LG : log_at w2 (spoken (o_lines o) p) slog (rlog t)) by (destruct (is_move s); [exact (proj2 (LM2 eq_refl))|exact (LM1 eq_refl)]).
             rewrite <- GG. destruct (g && catchable x) eqn:G.
             ++ destruct R as [-> ->]. split.
                ** cbn [go p_out]. unfold spoken at 1. cbn [p_out p_handle spoken]. destruct ST as (j & J & _). rewrite J. rewrite app_nil_r.
                   cbn [spoken p_out] in OUT. rewrite J in OUT. rewrite OUT. reflexivity.
                ** assert (KH : p_handler p = [SMove]) by (destruct K as (_ & _ & -> & _); exact HO). rewrite KH. split; [reflexivity|]. split.
                   --- exact (said_log _ _ _ _ [exception_line x] LG).
                   --- rewrite said_sub, (exec_dirs_fail _ _ _ _ _ _ _ X) by discriminate. rewrite said_sub. exact DR.
             ++ destruct R as [-> ->]. split; [exact OUT|]. split; [reflexivity|exact LG].
        * (* it goes on *)
          destruct R as [-> ->]. rewrite printed_none by (rewrite ?first_failure_app, ?FF, ?OF, ?app_length; cbn; (reflexivity || lia)).
          split; [exact OUT|]. rewrite app_length. cbn [length]. rewrite Nat.add_1_r.
          destruct (Nat.ltb (Datatypes.S (length outs)) n) eqn:LN1.
          -- apply Nat.ltb_lt in LN1. destruct (Nat.leb (length outs) idx) eqn:LI.
             ++ apply Nat.leb_le in LI. destruct LOG as [_ LOG]. specialize (LOG eq_refl (Running (skipn (Datatypes.S (length outs)) (flagged (r_script r))))).
                destruct (Nat.eqb (length outs) idx) eqn:EI.
                ** apply Nat.eqb_eq in EI. assert (Y : Nat.leb (Datatypes.S (length outs)) idx = false) by (apply Nat.leb_gt; lia). rewrite Y. exact LOG.
                ** apply Nat.eqb_neq in EI. assert (Y : Nat.leb (Datatypes.S (length outs)) idx = true) by (apply Nat.leb_le; lia). rewrite Y. exact LOG.
             ++ apply Nat.leb_gt in LI. assert (Y : Nat.leb (Datatypes.S (length outs)) idx = false) by (apply Nat.leb_gt; lia). rewrite Y.
                destruct LOG as (-> & LM1 & _). apply LM1. destruct s; try reflexivity. apply move_last in E2. lia.
          -- apply Nat.ltb_ge in LN1. assert (LS : length outs = n - 1) by lia. rewrite LS, last_move in E2. injection E2 as <-.
             assert (LI : Nat.leb (length outs) idx = false) by (apply Nat.leb_gt; lia). rewrite LI in LOG. destruct LOG as (-> & _ & LM2).
             split; [|exact (proj2 (LM2 eq_refl))]. cbn [go p_state]. rewrite skipn_all2; [reflexivity|]. fold sc. rewrite flagged_length. fold n. lia.
      + apply Nat.ltb_ge in LN. destruct ST as [ST1 ST2]. destruct (step_over _ _ _ _ _ _ (or_introl ST1) E) as [-> ->].
        split; [rewrite PO; symmetry; apply printed_late; [exact LN|rewrite FF; exact Logic.I]|].
        assert (Z : Nat.ltb (length (outs ++ [o])) n = false) by (apply Nat.ltb_ge; rewrite app_length; lia).
        assert (Z2 : Nat.ltb (length outs) n = false) by (apply Nat.ltb_ge; exact LN).
        destruct (o_fail o); rewrite ?Z, ?Z2; split; assumption.
  Qed.
End Alone.

Lemma alone : forall w r sched idx, ready w [r] -> nth_error (sc_pre (r_script r)) idx = Some (SOpenLog AtResults) ->
  let s := sys_run (w, launch [r]) sched in
  exists p, snd s = [p] /\ kept r (fst s) p /\ PS r idx (content w slog) (own 0 sched) (fst s) p.
Proof.
  intros w r sched idx (S & _ & T & U) OPEN s.
  assert (T1 : in_table (r_script r)) by (inversion T; assumption). assert (U1 : unused w (r_stamp r)) by (inversion U; assumption).
  destruct (sys_ind [r] w (fun i r' outs w' p => i = 0 /\ r' = r /\ PS r idx (content w slog) outs w' p)) with (sched := sched) as (_ & L & H).
  - exact S.
  - exact T.
  - constructor; [intros []|constructor].
  - intros [|i] r' E; [|destruct i; discriminate E]. cbn in E. injection E as <-. split; [reflexivity|]. split; [reflexivity|]. apply PS_init; auto.
  - intros i r' outs w1 p o w2 p' _ S1 K1 (-> & -> & P1) E1. split; [reflexivity|]. split; [reflexivity|]. exact (PS_own r idx _ T1 OPEN _ _ _ _ _ _ S1 K1 P1 E1).
  - intros i r' outs w1 p k r2 w2 E1 E2 N. exfalso. destruct i; [|destruct i; discriminate E1]. destruct k; [congruence|destruct k; discriminate E2].
  - destruct (H 0 r eq_refl) as (p & E & K & _ & _ & P). exists p. fold s in E, K, P, L. split; [|split; assumption].
    destruct (snd s) as [|a [|b l]]; cbn in L; try discriminate L. cbn in E. congruence.
Qed.

Lemma opened_spec : forall outs idx, log_opened idx outs = Nat.ltb idx (length outs) && match first_failure outs with None => true | Some (k, _) => Nat.ltb idx k end.
Proof.
  unfold log_opened, fate_of. induction outs as [|o outs IH]; intros [|idx].
  - reflexivity.
  - reflexivity.
  - cbn. destruct (o_fail o); [destruct (o_torn o); reflexivity|]. destruct (first_failure outs) as [[k e]|]; reflexivity.
  - cbn [nth_error firstn existsb first_failure length]. specialize (IH idx). unfold fails at 1. destruct (o_fail o) as [e|]; cbn [orb].
    + rewrite andb_false_r. destruct (nth_error outs idx); reflexivity.
    + rewrite IH. destruct (first_failure outs) as [[k e]|]; reflexivity.
Qed.

Lemma alone_seen : forall w r sched idx, ready w [r] -> nth_error (stmts (r_script r)) idx = Some (SOpenLog AtResults) ->
  let s := sys_run (w, launch [r]) sched in let outs := own 0 sched in let sc := r_script r in
  exists p, snd s = [p] /\ p_out p = printed sc idx outs /\
    (completed p <-> ends_with sc outs None) /\ (forall e, p_state p = Raised e <-> ends_with sc outs (Some e)) /\
    let new := match content w slog with Some l => l | None => [] end ++ map (Line 0) (printed sc idx outs) in
    content (fst s) slog = (if log_opened idx outs then if log_moved sc outs then None else Some new else content w slog) /\
    content (fst s) (rlog (r_stamp r)) = (if log_opened idx outs && log_moved sc outs then Some new else None).
Proof.
  intros w r sched idx RD OPEN s outs sc.
  assert (T : in_table sc) by (destruct RD as (_ & _ & T & _); inversion T; assumption).
  assert (O : nth_error (sc_pre sc) idx = Some (SOpenLog AtResults)).
  { assert (X : existsb is_open_results (stmts sc) = true) by (apply existsb_exists; exists (SOpenLog AtResults); split; [exact (nth_error_In _ _ OPEN)|reflexivity]).
    destruct (log_kind _ T) as [(_ & _ & _ & _ & O & _)|(N & _)]; [|congruence].
    apply existsb_exists in O as (x & I & IO). destruct x as [[]| | | | | |]; try discriminate IO. apply In_nth_error in I as [j J].
    rewrite (only_open r j T J idx AtResults OPEN). exact J. }
  destruct (alone w r sched idx RD O) as (p & E & _ & PS). fold s in E, PS. fold outs in PS. exists p. split; [exact E|].
  destruct PS as (P & PO & ST). fold sc in PO. split; [exact PO|].
  pose proof (idx_in r idx O) as II. pose proof (pre_body r idx T O) as PB. fold sc in II, PB.
  set (old' := match content w slog with Some l => l | None => [] end). cbv zeta.
  assert (LA : log_at (content w slog) (fst s) p slog (rlog (r_stamp r)) ->
     content (fst s) slog = Some (old' ++ map (Line 0) (printed sc idx outs)) /\ content (fst s) (rlog (r_stamp r)) = None).
  { intros (h & H1 & H2 & H3 & H4). unfold content. rewrite H2, H4. cbn. rewrite H3, PO. auto. }
  assert (LB : log_at (content w slog) (fst s) p (rlog (r_stamp r)) slog ->
     content (fst s) slog = None /\ content (fst s) (rlog (r_stamp r)) = Some (old' ++ map (Line 0) (printed sc idx outs))).
  { intros (h & H1 & H2 & H3 & H4). unfold content. rewrite H2, H4. cbn. rewrite H3, PO. auto. }
  assert (LC : unopened r (content w slog) (fst s) p -> content (fst s) slog = content w slog /\ content (fst s) (rlog (r_stamp r)) = None).
  { intros (H1 & H2 & H3 & H4). split; [exact H2|]. unfold content. rewrite H3. reflexivity. }
  rewrite opened_spec. unfold log_moved, ends_with, completed. fold sc in ST.
  destruct (first_failure outs) as [[k e]|] eqn:FF.
  - destruct (first_failure_at _ _ _ FF) as [KL _]. destruct (Nat.ltb k (length (stmts sc))) eqn:KN.
    + destruct (Nat.leb (length (sc_pre sc)) k && catchable e) eqn:G.
      * assert (A1 : Nat.ltb idx k = true) by (apply andb_true_iff in G as [G _]; apply Nat.leb_le in G; apply Nat.ltb_lt; lia).
        assert (A2 : Nat.ltb idx (length outs) = true) by (apply Nat.ltb_lt in A1; apply Nat.ltb_lt; lia). rewrite A1, A2. cbn [andb].
        destruct (nth_error outs (S k)) as [o|].
        -- unfold fails. destruct (o_fail o) as [e'|].
           ++ destruct ST as [ST LG]. rewrite ST. split; [split; discriminate|]. split; [intro x; split; congruence|]. rewrite andb_false_r. exact (LA LG).
           ++ destruct (dir_made sc k); destruct ST as [ST LG]; rewrite ST; (split; [split; discriminate|]); (split; [intro x; split; congruence|]); cbn [negb andb]; auto.
        -- destruct ST as (ST & LG & _). rewrite ST. split; [split; [discriminate|intros []]|]. split; [intro x; split; [discriminate|intros []]|].
           rewrite andb_false_r. exact (LA LG).
      * destruct ST as [ST LG]. rewrite ST. split; [split; discriminate|]. split; [intro x; split; congruence|]. cbn [andb].
        destruct (Nat.leb k idx) eqn:KI.
        -- assert (A1 : Nat.ltb idx k = false) by (apply Nat.leb_le in KI; apply Nat.ltb_ge; exact KI). rewrite A1, andb_false_r. exact (LC LG).
        -- apply Nat.leb_gt in KI. assert (A1 : Nat.ltb idx k = true) by (apply Nat.ltb_lt; exact KI). assert (A2 : Nat.ltb idx (length outs) = true) by (apply Nat.ltb_lt; lia).
           rewrite A1, A2. exact (LA LG).
    + destruct ST as [ST LG]. rewrite ST. split; [split; auto|]. split; [intro x; split; discriminate|].
      apply Nat.ltb_ge in KN. assert (A1 : Nat.ltb idx k = true) by (apply Nat.ltb_lt; lia). assert (A2 : Nat.ltb idx (length outs) = true) by (apply Nat.ltb_lt; lia).
      rewrite A1, A2. exact (LB LG).
  - rewrite andb_true_r. destruct (Nat.ltb (length outs) (length (stmts sc))) eqn:LN.
    + apply Nat.ltb_lt in LN. assert (A3 : Nat.leb (length (stmts sc)) (length outs) = false) by (apply Nat.leb_gt; exact LN). rewrite A3, andb_false_r.
      assert (NS : exists x l, p_state p = Running (x :: l)).
      { destruct P as (_ & [A|[F _]] & _).
        - destruct (active_next _ _ _ _ T A) as (g & x & _ & _ & SQ & _). eauto.
        - apply first_failure_none in FF. exfalso. destruct F as [F|F]; [congruence|fold sc in F; lia]. }
      destruct NS as (x & l & NS). rewrite NS. split; [split; [discriminate|lia]|]. split; [intro y; split; [discriminate|intros [? ?]; discriminate]|].
      destruct (Nat.leb (length outs) idx) eqn:LI.
      * assert (A1 : Nat.ltb idx (length outs) = false) by (apply Nat.leb_le in LI; apply Nat.ltb_ge; exact LI). rewrite A1. exact (LC ST).
      * assert (A1 : Nat.ltb idx (length outs) = true) by (apply Nat.leb_gt in LI; apply Nat.ltb_lt; exact LI). rewrite A1. exact (LA ST).
    + apply Nat.ltb_ge in LN. assert (A3 : Nat.leb (length (stmts sc)) (length outs) = true) by (apply Nat.leb_le; exact LN). rewrite A3.
      destruct ST as [ST LG]. rewrite ST. split; [split; auto|]. split; [intro x; split; [discriminate|intros [_ ?]; discriminate]|].
      assert (A1 : Nat.ltb idx (length outs) = true) by (apply Nat.ltb_lt; lia). rewrite A1. exact (LB LG).
Qed.
