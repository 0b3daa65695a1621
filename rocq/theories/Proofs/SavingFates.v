(** What is in the directory of a run, whatever fails and whatever other runs do. *)
From Coq Require Import String List Bool Arith Lia.
From Verif Require Import Model.Py Model.Saving Model.SaveTable Spec.SavingSpec Proofs.SavingNames Proofs.SavingWorld Proofs.SavingFrame
  Proofs.SavingResults.
Import ListNotations.
Local Open Scope list_scope.

(** A run after some lines. *)
Definition spoken (lines : list string) (p : proc) : proc :=
  {| p_stamp := p_stamp p; p_args := p_args p; p_handler := p_handler p; p_handle := p_handle p;
     p_out := p_out p ++ match p_handle p with Some _ => lines | None => [] end; p_state := p_state p |}.

Lemma spoken_kept : forall r w lines l p, kept r w p -> kept r (said w (p_handle p) l) (spoken lines p).
Proof.
  intros r w lines l p (A & B & C & D & E). split; [exact A|]. split; [exact B|]. split; [exact C|]. split; [exact D|].
  intros j J. apply said_loggy. exact (E _ J).
Qed.

Lemma step_running : forall i o w p g s rest w' p', p_state p = Running ((g, s) :: rest) -> step_proc i o w p = (w', p') ->
  exists w2 h e, exec_stmt i (spoken (o_lines o) p) o s (said w (p_handle p) (map (Line i) (o_lines o))) = (w2, h, e) /\
  match e with
  | None => w' = w2 /\ p' = go (spoken (o_lines o) p) h (Running rest)
  | Some e =>
      if g && catchable e
      then w' = said w2 (p_handle p) [Line i (exception_line e)] /\
           p' = go (spoken [exception_line e] (spoken (o_lines o) p)) (p_handle p) (handling (p_handler p) e)
      else w' = w2 /\ p' = go (spoken (o_lines o) p) h (Raised e)
  end.
Proof.
  intros i o w p g s rest w' p' ST E. unfold step_proc in E. rewrite ST, say_eq in E.
  change {| p_stamp := p_stamp p; p_args := p_args p; p_handler := p_handler p; p_handle := p_handle p;
            p_out := p_out p ++ match p_handle p with Some _ => o_lines o | None => [] end; p_state := p_state p |}
    with (spoken (o_lines o) p) in E.
  destruct (exec_stmt _ _ _ _ _) as [[w2 h] e] eqn:X. exists w2, h, e. split; [reflexivity|].
  destruct e as [e|]; [destruct (g && catchable e)|].
  - rewrite say_eq in E. injection E as <- <-. split; reflexivity.
  - injection E as <- <-. auto.
  - injection E as <- <-. auto.
Qed.

Lemma step_handling : forall i o w p s rest e w' p', p_state p = Handling (s :: rest) e -> step_proc i o w p = (w', p') ->
  exists h e', exec_stmt i (spoken (o_lines o) p) o s (said w (p_handle p) (map (Line i) (o_lines o))) = (w', h, e') /\
  p' = go (spoken (o_lines o) p) h (match e' with None => handling rest e | Some e' => Raised e' end).
Proof.
  intros i o w p s rest e w' p' ST E. unfold step_proc in E. rewrite ST, say_eq in E.
  change {| p_stamp := p_stamp p; p_args := p_args p; p_handler := p_handler p; p_handle := p_handle p;
            p_out := p_out p ++ match p_handle p with Some _ => o_lines o | None => [] end; p_state := p_state p |}
    with (spoken (o_lines o) p) in E.
  destruct (exec_stmt _ _ _ _ _) as [[w2 h] e'] eqn:X. exists h, e'.
  destruct e' as [e'|]; injection E as <- <-; auto.
Qed.

Lemma step_over : forall i o w p w' p', (p_state p = Running [] \/ exists e, p_state p = Raised e) -> step_proc i o w p = (w', p') -> w' = w /\ p' = p.
Proof. intros i o w p w' p' [H|[e H]] E; unfold step_proc in E; rewrite H in E; injection E as <- <-; auto. Qed.

Lemma fate_old : forall outs o j, j < length outs -> fate_of (outs ++ [o]) j = fate_of outs j.
Proof.
  intros outs o j L. unfold fate_of. rewrite nth_error_app1 by exact L. rewrite firstn_app.
  replace (j - length outs) with 0 by lia. cbn. rewrite app_nil_r. reflexivity.
Qed.
Lemma fate_later : forall outs j, length outs <= j -> fate_of outs j = Missing.
Proof. intros outs j L. unfold fate_of. apply nth_error_None in L. rewrite L. reflexivity. Qed.
Lemma fate_new : forall outs o, fate_of (outs ++ [o]) (length outs) =
  if existsb fails outs then Missing else match o_fail o with None => Complete | Some _ => if o_torn o then Partial else Missing end.
Proof.
  intros outs o. unfold fate_of. rewrite nth_error_app2, Nat.sub_diag by lia. cbn.
  rewrite firstn_app, firstn_all, Nat.sub_diag. cbn. rewrite app_nil_r. reflexivity.
Qed.

Definition files_as (i : nat) (r : run) (outs : list outcome) (w : world) : Prop :=
  forall n, n <> logname ->
    (forall j t, nth_error (stmts (r_script r)) j = Some (SWrite t) -> n = result_name r t ->
       content w (RunDir (r_stamp r), n) = fate_content i n (fate_of outs j)) /\
    ((forall j t, nth_error (stmts (r_script r)) j = Some (SWrite t) -> n <> result_name r t) -> content w (RunDir (r_stamp r), n) = None).

Definition active (r : run) (outs : list outcome) (w : world) (p : proc) : Prop :=
  let l := stmts (r_script r) in
  existsb fails outs = false /\ length outs < length l /\ p_state p = Running (skipn (length outs) (flagged (r_script r))) /\
  w_dirs w (RunDir (r_stamp r)) = existsb is_mkdir (firstn (length outs) l) /\
  (forall n, w_dirs w (SubDir (r_stamp r) n) = true -> existsb is_sub (firstn (length outs) l) = true).

Definition finishing (r : run) (outs : list outcome) (p : proc) : Prop :=
  (existsb fails outs = true \/ length (stmts (r_script r)) <= length outs) /\
  (p_state p = Running [] \/ (exists e, p_state p = Raised e) \/ exists l e, p_state p = Handling l e /\ Forall (fun s => s = SMove) l).

Definition PR (i : nat) (r : run) (outs : list outcome) (w : world) (p : proc) : Prop :=
  in_table (r_script r) /\ (active r outs w p \/ finishing r outs p) /\ files_as i r outs w.

Lemma PR_init : forall i r w, in_table (r_script r) -> unused w (r_stamp r) -> PR i r [] w (start (r_script r) (r_stamp r) (r_args r)).
Proof.
  intros i r w T (D & SD & F). split; [exact T|]. split.
  - left. split; [reflexivity|]. split.
    + apply in_table_check in T. unfold check in T. rewrite !andb_true_iff in T. destruct T as [[_ T] _].
      destruct (stmts (r_script r)); [discriminate T|cbn; lia].
    + split; [reflexivity|]. cbn. split; [exact D|]. intros n X. rewrite SD in X. discriminate X.
  - intros n N. unfold content. rewrite F. cbn. split; [|reflexivity]. intros j t _ _. rewrite fate_later by (cbn; lia). reflexivity.
Qed.

Lemma PR_frame : forall i r outs w p k t w', t <> r_stamp r -> PR i r outs w p -> framed k t w w' -> PR i r outs w' p.
Proof.
  intros i r outs w p k t w' N (T & A & C) F. split; [exact T|]. split.
  - destruct A as [(A1 & A2 & A3 & A4 & A5)|A]; [left|right; exact A].
    assert (D : forall d, (d = RunDir (r_stamp r) \/ exists n, d = SubDir (r_stamp r) n) -> w_dirs w' d = w_dirs w d).
    { intros d X. apply (f_dirs _ _ _ _ F); [|intro n]; destruct X as [->|[m ->]]; congruence. }
    split; [exact A1|]. split; [exact A2|]. split; [exact A3|]. rewrite D by auto. split; [exact A4|].
    intros n X. rewrite D in X by eauto. exact (A5 _ X).
  - intros n M. rewrite (f_content _ _ _ _ F) by congruence. exact (C n M).
Qed.

Lemma firstn_S : forall {A} (l : list A) n x, nth_error l n = Some x -> firstn (S n) l = firstn n l ++ [x].
Proof.
  induction l as [|a l IH]; intros [|n] x E; try discriminate E; [cbn in *; congruence|].
  cbn in E. rewrite !firstn_cons, (IH _ _ E). reflexivity.
Qed.

(** What a statement of the run at its place leaves of its results. *)
Lemma files_step : forall i r outs o s w w2 w', files_as i r outs w -> in_table (r_script r) ->
  existsb fails outs = false -> nth_error (stmts (r_script r)) (length outs) = Some s ->
  (forall n, n <> logname -> content w2 (RunDir (r_stamp r), n) =
     match s with
     | SWrite t => if String.eqb n (result_name r t) then write_result i n o (content w (RunDir (r_stamp r), n)) else content w (RunDir (r_stamp r), n)
     | _ => content w (RunDir (r_stamp r), n)
     end) ->
  (forall n, n <> logname -> content w' (RunDir (r_stamp r), n) = content w2 (RunDir (r_stamp r), n)) ->
  files_as i r (outs ++ [o]) w'.
Proof.
  intros i r outs o s w w2 w' C T NF E X Y n N. rewrite (Y n N), (X n N). destruct (C n N) as [C1 C2]. split.
  - intros j t J M. destruct (Nat.lt_trichotomy j (length outs)) as [L|[L|L]].
    + rewrite (fate_old _ _ _ L). destruct s as [| | |u| | |]; try exact (C1 _ _ J M).
      destruct (String.eqb n (result_name r u)) eqn:Q; [|exact (C1 _ _ J M)]. apply String.eqb_eq in Q.
      assert (j = length outs); [|lia]. apply (names_differ _ (run_env (r_stamp r) (r_args r)) _ _ _ _ T J E). unfold result_name in M, Q. congruence.
    + subst j. rewrite J in E. injection E as <-. subst n. rewrite String.eqb_refl, fate_new, NF. unfold write_result.
      rewrite (C1 _ _ J eq_refl), fate_later by lia. destruct (o_fail o); [destruct (o_torn o)|]; reflexivity.
    + rewrite fate_later by (rewrite app_length; cbn; lia).
      pose proof (C1 _ _ J M) as Z. rewrite fate_later in Z by lia. destruct s as [| | |u| | |]; try exact Z.
      destruct (String.eqb n (result_name r u)) eqn:Q; [|exact Z]. apply String.eqb_eq in Q.
      assert (j = length outs); [|lia]. apply (names_differ _ (run_env (r_stamp r) (r_args r)) _ _ _ _ T J E). unfold result_name in M, Q. congruence.
  - intros A. destruct s as [| | |u| | |]; try exact (C2 A). destruct (String.eqb n (result_name r u)) eqn:Q; [|exact (C2 A)].
    apply String.eqb_eq in Q. destruct (A _ _ E Q).
Qed.

Lemma files_quiet : forall i r outs o w w', files_as i r outs w -> (existsb fails outs = true \/ length (stmts (r_script r)) <= length outs) ->
  (forall n, n <> logname -> content w' (RunDir (r_stamp r), n) = content w (RunDir (r_stamp r), n)) ->
  files_as i r (outs ++ [o]) w'.
Proof.
  intros i r outs o w w' C F Y n N. rewrite (Y n N). destruct (C n N) as [C1 C2]. split; [|exact C2].
  intros j t J M. rewrite (C1 _ _ J M). f_equal. destruct (Nat.lt_ge_cases j (length outs)) as [L|L]; [symmetry; apply fate_old; exact L|].
  rewrite fate_later by exact L. assert (JL : j < length (stmts (r_script r))) by (apply nth_error_Some; congruence).
  destruct F as [F|F]; [|lia]. unfold fate_of. destruct (nth_error (outs ++ [o]) j); [|reflexivity].
  rewrite firstn_app, (firstn_all2 outs) by exact L. rewrite existsb_app, F. reflexivity.
Qed.

Lemma fails_app : forall outs o, existsb fails (outs ++ [o]) = existsb fails outs || fails o.
Proof. intros. rewrite existsb_app. cbn. rewrite orb_false_r. reflexivity. Qed.

Lemma handling_shape : forall l e, Forall (fun s => s = SMove) l ->
  (exists e', handling l e = Raised e') \/ exists l' e', handling l e = Handling l' e' /\ Forall (fun s => s = SMove) l'.
Proof. intros [|s l] e F; [left; eexists; reflexivity|right; exists (s :: l), e; auto]. Qed.

Lemma said_sub : forall w h l, w_dirs (said w h l) = w_dirs w.
Proof. intros w [h|] l; reflexivity. Qed.

Lemma said_keeps : forall r w p l n, kept r w p -> n <> logname ->
  content (said w (p_handle p) l) (RunDir (r_stamp r), n) = content w (RunDir (r_stamp r), n).
Proof. intros r w p l n (_ & _ & _ & _ & K) N. apply said_content; [exact K|exact N]. Qed.

Lemma active_next : forall r outs w p, in_table (r_script r) -> active r outs w p ->
  exists g s, nth_error (flagged (r_script r)) (length outs) = Some (g, s) /\
    nth_error (stmts (r_script r)) (length outs) = Some s /\
    p_state p = Running ((g, s) :: skipn (S (length outs)) (flagged (r_script r))) /\
    (s <> SMove -> can_do (r_stamp r) w s) /\ (s = SMove -> S (length outs) = length (stmts (r_script r)) /\ w_dirs w (RunDir (r_stamp r)) = true) /\
    (forall t, s = SWrite t -> w_dirs w (RunDir (r_stamp r)) = true).
Proof.
  intros r outs w p T (A1 & A2 & A3 & A4 & A5).
  destruct (skipn_nth (flagged (r_script r)) (length outs)) as ([g s] & E & F); [rewrite flagged_length; exact A2|].
  exists g, s. split; [exact E|].
  assert (N : nth_error (stmts (r_script r)) (length outs) = Some s) by (rewrite <- flagged_snd, nth_error_map, E; reflexivity).
  split; [exact N|]. split; [rewrite A3, F; reflexivity|].
  pose proof (table_at _ _ _ T N) as K. cbv zeta in K. rewrite <- A4 in K. split.
  - intro NM. destruct s as [pl| |t|t|step| |]; cbn; auto; try tauto.
    destruct K as [K1 K2]. split; [exact K1|]. intro n. destruct (w_dirs w (SubDir (r_stamp r) n)) eqn:D; [|reflexivity].
    rewrite (A5 _ D) in K2. discriminate K2.
  - split.
    + intros ->. tauto.
    + intros t ->. exact K.
Qed.

Lemma PR_own : forall i r outs w p o w' p', sane w -> kept r w p -> PR i r outs w p ->
  step_proc i o w p = (w', p') -> PR i r (outs ++ [o]) w' p'.
Proof.
  intros i r outs w p o w' p' S K (T & A & C) E. split; [exact T|].
  pose proof (handler_moves _ T) as HM. destruct A as [A|[F A]].
  - destruct (active_next _ _ _ _ T A) as (g & s & E1 & E2 & ST & CD & MV & WR). destruct A as (A1 & A2 & A3 & A4 & A5).
    destruct (step_running _ _ _ _ _ _ _ _ _ ST E) as (w2 & h & e & X & R).
    assert (S1 := said_sane w (p_handle p) (map (Line i) (o_lines o)) S).
    assert (K1 := spoken_kept r w (o_lines o) (map (Line i) (o_lines o)) p K).
    assert (OK : stmt_ok s) by (pose proof (stmts_ok _ T) as Q; rewrite Forall_forall in Q; exact (Q _ (nth_error_In _ _ E2))).
    assert (B : forall n, n <> logname -> content w2 (RunDir (r_stamp r), n) =
       match s with
       | SWrite t => if String.eqb n (result_name r t) then write_result i n o (content w (RunDir (r_stamp r), n)) else content w (RunDir (r_stamp r), n)
       | _ => content w (RunDir (r_stamp r), n)
       end).
    { intros n N. rewrite <- (said_keeps r w p (map (Line i) (o_lines o)) n K N).
      apply (exec_results i r _ o s _ w2 h e S1 K1 OK X); [|exact N]. destruct s; auto. rewrite said_sub. exact (WR _ eq_refl). }
    assert (Y : forall n, n <> logname -> content w' (RunDir (r_stamp r), n) = content w2 (RunDir (r_stamp r), n)).
    { intros n N. destruct e as [e|]; [destruct (g && catchable e)|]; destruct R as [-> _]; try reflexivity.
      apply said_content; [|exact N]. intros j J. destruct (exec_quiet _ _ _ _ _ _ _ _ S1 OK X) as [Q _].
      apply (q_loggy _ _ _ Q). apply said_loggy. destruct K as (_ & _ & _ & _ & K5). exact (K5 _ J). }
    split; [|exact (files_step i r outs o s w w2 w' C T A1 E2 B Y)].
    destruct (is_move s) eqn:IM.
    + assert (s = SMove) by (destruct s; try discriminate IM; reflexivity). subst s.
      destruct (MV eq_refl) as [ML _]. right. split; [right; rewrite app_length; cbn; lia|].
      destruct e as [e|]; [destruct (g && catchable e)|]; destruct R as [-> ->]; cbn [go p_state].
      * right. destruct K as (_ & _ & -> & _). apply handling_shape. exact HM.
      * right. left. eexists. reflexivity.
      * left. rewrite skipn_all2 by (rewrite flagged_length; lia). reflexivity.
    + assert (CD1 : can_do (r_stamp r) (said w (p_handle p) (map (Line i) (o_lines o))) s).
      { assert (Q : s <> SMove) by (intros ->; discriminate IM). apply CD in Q. destruct s; cbn in *; rewrite ?said_sub; exact Q. }
      destruct (exec_goes i r _ o _ _ w2 h e S1 K1 CD1 X) as [EO EN].
      destruct e as [e|].
      * right. split; [left; rewrite fails_app; unfold fails; rewrite <- EO; apply orb_true_r|].
        destruct (g && catchable e); destruct R as [-> ->]; cbn [go p_state].
        -- right. destruct K as (_ & _ & -> & _). apply handling_shape. exact HM.
        -- right. left. eexists. reflexivity.
      * destruct R as [-> ->]. specialize (EN eq_refl). rewrite said_sub in EN. destruct EN as [EN1 EN2].
        destruct (Nat.lt_ge_cases (Datatypes.S (length outs)) (length (stmts (r_script r)))) as [LL|LL].
        -- left. split; [rewrite fails_app, A1; unfold fails; rewrite <- EO; reflexivity|].
           rewrite app_length. cbn [length]. rewrite Nat.add_1_r.
           split; [exact LL|]. split; [reflexivity|]. rewrite (firstn_S _ _ _ E2), !existsb_app. cbn [existsb]. rewrite !orb_false_r.
           split; [rewrite EN1, A4; reflexivity|].
           intros n D. destruct (EN2 _ D) as [D1|D1]; [rewrite (A5 _ D1); reflexivity|rewrite D1; apply orb_true_r].
        -- right. split; [right; rewrite app_length; cbn; lia|]. left. cbn [go p_state].
           rewrite skipn_all2 by (rewrite flagged_length; lia). reflexivity.
  - assert (F' : existsb fails (outs ++ [o]) = true \/ length (stmts (r_script r)) <= length (outs ++ [o])).
    { destruct F as [F|F]; [left; rewrite fails_app, F; reflexivity|right; rewrite app_length; lia]. }
    assert (OV : (p_state p = Running [] \/ exists e, p_state p = Raised e) -> (active r (outs ++ [o]) w' p' \/ finishing r (outs ++ [o]) p') /\ files_as i r (outs ++ [o]) w').
    { intros O. destruct (step_over _ _ _ _ _ _ O E) as [-> ->]. split; [right; split; [exact F'|]|].
      - destruct O as [O|O]; auto.
      - apply (files_quiet _ _ _ _ _ _ C F). reflexivity. }
    destruct A as [A|[A|(l & e & A & M)]]; [apply OV; auto|apply OV; auto|].
    destruct l as [|s l].
    + unfold step_proc in E. rewrite A in E. injection E as <- <-. split; [right; split; [exact F'|]; right; left; eexists; reflexivity|].
      apply (files_quiet _ _ _ _ _ _ C F). reflexivity.
    + inversion M as [|x y M1 M2]. subst x y s. destruct (step_handling _ _ _ _ _ _ _ _ _ A E) as (h & e' & X & ->).
      assert (S1 := said_sane w (p_handle p) (map (Line i) (o_lines o)) S).
      assert (K1 := spoken_kept r w (o_lines o) (map (Line i) (o_lines o)) p K).
      split.
      * right. split; [exact F'|]. cbn [go p_state]. right. destruct e' as [e'|]; [left; eexists; reflexivity|apply handling_shape; exact M2].
      * apply (files_quiet _ _ _ _ _ _ C F). intros n N.
        rewrite (exec_results i r _ o SMove _ w' h e' S1 K1 Logic.I X Logic.I n N). apply (said_keeps r); assumption.
Qed.

Lemma results_anywhere : forall w rs sched, ready w rs -> NoDup (map r_stamp rs) -> forall i r, nth_error rs i = Some r ->
  files_as i r (own i sched) (fst (sys_run (w, launch rs) sched)).
Proof.
  intros w rs sched (S & _ & T & U) ND i r E.
  destruct (sys_ind rs w PR S T ND) with (sched := sched) as (_ & _ & H).
  - intros k r' K. apply PR_init; [rewrite Forall_forall in T; exact (T _ (nth_error_In _ _ K))|rewrite Forall_forall in U; exact (U _ (nth_error_In _ _ K))].
  - intros k r' outs w1 p o w2 p' _ S1 K1 P1 E1. exact (PR_own _ _ _ _ _ _ _ _ S1 K1 P1 E1).
  - intros k r' outs w1 p k2 r2 w2 _ _ _ N _ _ P1 F _. exact (PR_frame _ _ _ _ _ _ _ _ N P1 F).
  - destruct (H _ _ E) as (p & _ & _ & (_ & _ & P)). exact P.
Qed.
