(** What a statement of one run leaves as it was for the other runs. *)
From Coq Require Import String List Bool Arith Lia.
From Verif Require Import Model.Py Model.Saving Model.SaveTable Spec.SavingSpec Proofs.SavingNames Proofs.SavingWorld.
Import ListNotations.
Local Open Scope list_scope.

Record quiet (t : string) (w w' : world) : Prop := {
  q_sane : sane w';
  q_next : w_next w <= w_next w';
  q_loggy : forall h, loggy w h -> loggy w' h;
  q_dirs : forall d, d <> RunDir t -> (forall n, d <> SubDir t n) -> w_dirs w' d = w_dirs w d;
  q_mono : forall d, w_dirs w d = true -> w_dirs w' d = true;
  q_content : forall t' n, t' <> t -> n <> logname -> content w' (RunDir t', n) = content w (RunDir t', n);
  q_rlog : forall t', t' <> t -> w_files w' (rlog t') = w_files w (rlog t');
  q_data : forall j, j < w_next w' ->
             (j < w_next w /\ w_data w' j = w_data w j) \/ (~ loggy w j /\ forall k, lines_of k (w_data w' j) = []) }.

Lemma quiet_refl : forall t w, sane w -> quiet t w w.
Proof. intros t w S. constructor; auto. Qed.

Lemma quiet_trans : forall t a b c, quiet t a b -> quiet t b c -> quiet t a c.
Proof.
  intros t a b c [A1 A2 A3 A4 A5 A6 A7 A8] [B1 B2 B3 B4 B5 B6 B7 B8]. constructor; auto; try lia.
  - intros d X Y. rewrite B4, A4; auto.
  - intros t' n X Y. rewrite B6, A6; auto.
  - intros t' X. rewrite B7, A7; auto.
  - intros j L. destruct (B8 j L) as [[L' E]|[N E]].
    + destruct (A8 j L') as [[L2 E2]|[N2 E2]]; [left; split; [exact L2|congruence]|right]. split; [exact N2|]. intro k. rewrite E. apply E2.
    + right. split; [|exact E]. intro X. exact (N (A3 _ X)).
Qed.

Lemma write_quiet : forall t p l w, sane w -> snd p <> logname -> (forall t' n, p = (RunDir t', n) -> t' = t) ->
  (forall k, lines_of k l = []) -> quiet t w (write_file p l w).
Proof.
  intros t p l w S N O L. constructor.
  - apply write_sane; exact S.
  - apply write_next.
  - intros h. apply write_loggy; exact N.
  - intros d _ _. rewrite write_dirs. reflexivity.
  - intros d X. rewrite write_dirs. exact X.
  - intros t' n X Y. rewrite (write_content _ _ _ _ S). destruct (path_eqb p (RunDir t', n)) eqn:E; [|reflexivity].
    apply path_eqb_eq in E. destruct (X (O _ _ E)).
  - intros t' X. apply write_files. intro E. apply N. rewrite E. reflexivity.
  - intros j B. destruct (write_files_same p l w) as (i & E & F & G).
    destruct (Nat.eq_dec i j) as [->|NE].
    + right. split; [|intro k; rewrite F; apply L]. intros [Y X]. destruct G as [G|(_ & -> & _)]; [exact (N (X _ G))|lia].
    + destruct (Nat.lt_ge_cases j (w_next w)) as [H|H].
      * left. split; [exact H|]. apply write_data; [|exact H]. intro X. destruct G as [G|(G & _)]; congruence.
      * exfalso. destruct G as [G|(_ & -> & G)]; [|lia].
        unfold write_file, open_file in B. rewrite G in B. cbn in B. lia.
Qed.

Lemma lines_of_none : forall i l k, Forall (fun x => match x with Line r _ => r = i | _ => True end) l -> k <> i -> lines_of k l = [].
Proof.
  intros i l k F N. induction F as [|x l Hx F IH]; [reflexivity|].
  destruct x as [r s|r s|r s]; cbn; try exact IH. subst r. destruct (Nat.eqb i k) eqn:E; [apply Nat.eqb_eq in E; congruence|exact IH].
Qed.

Lemma open_quiet : forall t p w w1 j, sane w -> snd p = logname -> (forall t' n, p = (RunDir t', n) -> t' = t) ->
  open_file p w = (w1, j) -> quiet t w w1.
Proof.
  intros t p w w1 j S N O E. pose proof (open_facts _ _ _ _ S E) as (S1 & D & NX & F & L & G & H & I & K).
  constructor; auto.
  - intros h X. exact (open_loggy _ _ _ _ _ S N E (or_intror X)).
  - intros d _ _. rewrite D. reflexivity.
  - intros d X. rewrite D. exact X.
  - intros t' n X Y. rewrite (open_content _ _ _ _ _ S E). destruct (path_eqb p (RunDir t', n)) eqn:P; [|reflexivity].
    apply path_eqb_eq in P. destruct (X (O _ _ P)).
  - intros t' X. apply G. intros P. exact (X (O _ _ P)).
  - intros k B. destruct (Nat.lt_ge_cases k (w_next w)) as [X|X]; [left; split; [exact X|apply H; exact X]|].
    unfold open_file in E. destruct (w_files w p) as [i|] eqn:W.
    + injection E as <- <-. lia.
    + injection E as <- <-. cbn in B. assert (k = w_next w) by lia. subst k.
      right. split; [intros [Y _]; lia|]. intro k. cbn. rewrite Nat.eqb_refl. reflexivity.
Qed.

Lemma add_dir_quiet : forall t d w, sane w -> (d = RunDir t \/ exists n, d = SubDir t n) -> quiet t w (add_dir d w).
Proof.
  intros t d w S O. constructor; auto.
  - apply add_dir_sane; exact S.
  - intros d' X Y. cbn. destruct (dir_eqb d d') eqn:E; [|reflexivity]. apply dir_eqb_eq in E. subst d'.
    destruct O as [O|[n O]]; [destruct (X O)|destruct (Y n O)].
  - intros d' X. cbn. rewrite X. apply orb_true_r.
Qed.

Lemma move_quiet : forall t j w, sane w -> w_files w slog = Some j -> quiet t w (move_log t j w).
Proof.
  intros t j w S E. constructor; auto.
  - apply move_sane; assumption.
  - intros h. apply move_loggy.
  - intros t' n X Y. apply move_content. exact Y.
  - intros t' X. rewrite move_files.
    destruct (path_eqb (rlog t) (rlog t')) eqn:P; [apply path_eqb_eq in P; injection P as P; congruence|].
    destruct (path_eqb slog (rlog t')) eqn:P2; [apply path_eqb_eq in P2; discriminate P2|]. reflexivity.
Qed.

(** Statements whose names do not clash with the log's. *)
Definition stmt_ok (s : stmt) : Prop :=
  match s with
  | SWrite n => forall e, render e n <> logname
  | SPool (Some (pl, n)) => pl <> AtRun /\ forall e, render e n <> logname
  | _ => True
  end.

Lemma steps_quiet : forall i t args step l w, sane w -> stmt_ok (SPool step) -> quiet t w (write_steps i t args step l w).
Proof.
  intros i t args step l w S OK.
  apply (steps_ind (fun w' => quiet t w w')); [apply quiet_refl; exact S|].
  intros w' pl n s E _ Q. subst step. destruct OK as [P N]. apply (quiet_trans _ _ _ _ Q). apply write_quiet.
  - exact (q_sane _ _ _ Q).
  - apply N.
  - intros t' m X. destruct pl; try discriminate X. destruct (P eq_refl).
  - reflexivity.
Qed.

Lemma exec_quiet : forall i p o s w w' h e, sane w -> stmt_ok s -> exec_stmt i p o s w = (w', h, e) ->
  quiet (p_stamp p) w w' /\ (h = p_handle p \/ exists j, h = Some j /\ loggy w' j).
Proof.
  intros i p o s w w' h e S OK E. unfold exec_stmt in E. cbv zeta in E. destruct s as [pl| |n|n|step| |].
  - destruct (o_fail o); [injection E as <- <- <-; split; [apply quiet_refl; exact S|auto]|].
    destruct (w_dirs w (dir_of (p_stamp p) pl)); [|injection E as <- <- <-; split; [apply quiet_refl; exact S|auto]].
    destruct (open_file (dir_of (p_stamp p) pl, "log.log"%string) w) as [w1 j] eqn:F. injection E as <- <- <-. split.
    + apply (open_quiet _ (dir_of (p_stamp p) pl, logname) _ _ j S eq_refl); [|exact F]. intros t' m X. destruct pl; cbn in X; congruence.
    + right. exists j. split; [reflexivity|]. apply (open_loggy (dir_of (p_stamp p) pl, logname) _ _ _ _ S eq_refl F). auto.
  - destruct (o_fail o); [injection E as <- <- <-; split; [apply quiet_refl; exact S|auto]|].
    destruct (w_dirs w (RunDir (p_stamp p))); [injection E as <- <- <-; split; [apply quiet_refl; exact S|auto]|].
    destruct (w_dirs w Results); injection E as <- <- <-; (split; [|auto]); [apply add_dir_quiet; auto|apply quiet_refl; exact S].
  - destruct (o_fail o); [injection E as <- <- <-; split; [apply quiet_refl; exact S|auto]|].
    destruct (w_dirs w (SubDir (p_stamp p) _)); [injection E as <- <- <-; split; [apply quiet_refl; exact S|auto]|].
    destruct (w_dirs w (RunDir (p_stamp p))); injection E as <- <- <-; (split; [|auto]); [apply add_dir_quiet; eauto|apply quiet_refl; exact S].
  - assert (Q : forall l, (forall k, lines_of k l = []) ->
              quiet (p_stamp p) w (write_file (RunDir (p_stamp p), render (run_env (p_stamp p) (p_args p)) n) l w)).
    { intros l L. apply write_quiet; auto; [apply OK|]. intros t' m X. congruence. }
    destruct (o_fail o) as [f|].
    + destruct (o_torn o); [|injection E as <- <- <-; split; [apply quiet_refl; exact S|auto]].
      destruct (w_dirs w (RunDir (p_stamp p))); injection E as <- <- <-; (split; [|auto]); [apply Q; reflexivity|apply quiet_refl; exact S].
    + destruct (w_dirs w (RunDir (p_stamp p))); injection E as <- <- <-; (split; [|auto]); [apply Q; reflexivity|apply quiet_refl; exact S].
  - injection E as <- <- <-. split; [apply steps_quiet; assumption|auto].
  - destruct (o_fail o); [injection E as <- <- <-; split; [apply quiet_refl; exact S|auto]|].
    change (Results, "log.log"%string) with slog in E. destruct (w_files w slog) as [j|] eqn:F;
      [|injection E as <- <- <-; split; [apply quiet_refl; exact S|auto]].
    destruct (w_dirs w (RunDir (p_stamp p))); injection E as <- <- <-; (split; [|auto]); [apply move_quiet; auto|apply quiet_refl; exact S].
  - injection E as <- <- <-. split; [apply quiet_refl; exact S|auto].
Qed.

(** What a step of run i may do, seen from the others. *)
Record framed (i : nat) (t : string) (w w' : world) : Prop := {
  f_sane : sane w';
  f_next : w_next w <= w_next w';
  f_loggy : forall h, loggy w h -> loggy w' h;
  f_dirs : forall d, d <> RunDir t -> (forall n, d <> SubDir t n) -> w_dirs w' d = w_dirs w d;
  f_mono : forall d, w_dirs w d = true -> w_dirs w' d = true;
  f_content : forall t' n, t' <> t -> n <> logname -> content w' (RunDir t', n) = content w (RunDir t', n);
  f_rlog : forall t', t' <> t -> w_files w' (rlog t') = w_files w (rlog t');
  f_lines : forall k j, k <> i -> j < w_next w' ->
             (j < w_next w /\ lines_of k (w_data w' j) = lines_of k (w_data w j)) \/ (~ loggy w j /\ lines_of k (w_data w' j) = []) }.

Lemma quiet_framed : forall i t w w', quiet t w w' -> framed i t w w'.
Proof.
  intros i t w w' [A1 A2 A3 A4 A5 A6 A7 A8]. constructor; auto.
  intros k j N L. destruct (A8 j L) as [[X Y]|[X Y]]; [left|right]; auto. split; [exact X|congruence].
Qed.

Lemma framed_trans : forall i t a b c, framed i t a b -> framed i t b c -> framed i t a c.
Proof.
  intros i t a b c [A1 A2 A3 A4 A5 A6 A7 A8] [B1 B2 B3 B4 B5 B6 B7 B8]. constructor; auto; try lia.
  - intros d X Y. rewrite B4, A4; auto.
  - intros t' n X Y. rewrite B6, A6; auto.
  - intros t' X. rewrite B7, A7; auto.
  - intros k j N L. destruct (B8 k j N L) as [[L' E]|[M E]].
    + destruct (A8 k j N L') as [[L2 E2]|[N2 E2]]; [left; split; [exact L2|congruence]|right]. split; [exact N2|congruence].
    + right. split; [|exact E]. intro X. exact (M (A3 _ X)).
Qed.

Lemma lines_of_app : forall k a b, lines_of k (a ++ b) = lines_of k a ++ lines_of k b.
Proof.
  induction a as [|[r s|r s|r s] a IH]; intro b; cbn; try apply IH; [reflexivity|].
  destruct (Nat.eqb r k); rewrite IH; reflexivity.
Qed.
Lemma lines_of_own : forall i l, lines_of i (map (Line i) l) = l.
Proof. induction l as [|s l IH]; [reflexivity|]. cbn. rewrite Nat.eqb_refl, IH. reflexivity. Qed.
Lemma lines_of_other : forall i k l, k <> i -> lines_of k (map (Line i) l) = [].
Proof.
  intros i k l N. apply (lines_of_none i); [|exact N]. apply Forall_forall. intros x I. apply in_map_iff in I as [s [<- _]]. reflexivity.
Qed.

Lemma said_framed : forall i t w h lines, sane w -> (forall j, h = Some j -> loggy w j) -> framed i t w (said w h (map (Line i) lines)).
Proof.
  intros i t w h lines S L. destruct h as [h|]; [|apply quiet_framed, quiet_refl; exact S].
  constructor; auto.
  - intros t' n X Y. apply said_content; [exact L|exact Y].
  - intros k j N B. left. split; [exact B|]. unfold said. cbn. destruct (Nat.eqb h j) eqn:E; [|reflexivity].
    apply Nat.eqb_eq in E. subst j. rewrite lines_of_app, lines_of_other, app_nil_r; auto.
Qed.

Definition state_ok (p : proc) : Prop :=
  Forall stmt_ok (p_handler p) /\
  match p_state p with
  | Running l => Forall (fun x => stmt_ok (snd x)) l
  | Handling l _ => Forall stmt_ok l
  | Raised _ => True
  end.

Lemma handling_ok : forall l e hd st out a s h, Forall stmt_ok hd -> Forall stmt_ok l -> st = handling l e ->
  state_ok {| p_stamp := s; p_args := a; p_handler := hd; p_handle := h; p_out := out; p_state := st |}.
Proof. intros l e hd st out a s h A B ->. split; [exact A|]. destruct l; cbn; auto. Qed.

Lemma step_framed : forall i o w p w' p', sane w -> (forall j, p_handle p = Some j -> loggy w j) -> state_ok p ->
  step_proc i o w p = (w', p') ->
  framed i (p_stamp p) w w' /\ (forall j, p_handle p' = Some j -> loggy w' j) /\ state_ok p' /\
  p_stamp p' = p_stamp p /\ p_args p' = p_args p /\ p_handler p' = p_handler p.
Proof.
  intros i o w p w' p' S L OK E. unfold step_proc in E. destruct OK as [OKh OK].
  destruct (p_state p) as [[|[g s] rest]|[|s rest] e|e] eqn:ST.
  - injection E as <- <-. split; [apply quiet_framed, quiet_refl; exact S|]. split; [exact L|]. split; [|auto]. split; [exact OKh|]. rewrite ST. exact OK.
  - rewrite say_eq in E. destruct (exec_stmt _ _ _ _ _) as [[w2 h] e] eqn:X.
    inversion OK as [|x l O1 O2]. subst x l.
    assert (S1 := said_sane _ (p_handle p) (map (Line i) (o_lines o)) S).
    assert (L1 : forall j, p_handle p = Some j -> loggy (said w (p_handle p) (map (Line i) (o_lines o))) j)
      by (intros j J; apply said_loggy; exact (L _ J)).
    destruct (exec_quiet _ _ _ _ _ _ _ _ S1 O1 X) as [Q H]. cbn [p_stamp p_handle] in Q, H.
    assert (F2 := framed_trans _ _ _ _ _ (said_framed i (p_stamp p) w (p_handle p) (o_lines o) S L) (quiet_framed i _ _ _ Q)).
    assert (L2 : forall j, p_handle p = Some j -> loggy w2 j) by (intros j J; exact (q_loggy _ _ _ Q _ (L1 _ J))).
    assert (Lh : forall j, h = Some j -> loggy w2 j).
    { intros j J. destruct H as [->|[k [-> K]]]; [exact (L2 _ J)|]. congruence. }
    destruct e as [e|].
    + destruct (g && catchable e).
      * rewrite say_eq in E. cbn [p_handle p_handler p_stamp p_args p_out p_state] in E. injection E as <- <-. cbn [go p_handle p_stamp p_args p_handler].
        split; [|split; [|split; [|auto]]].
        -- apply (framed_trans _ _ _ _ _ F2). apply (said_framed _ _ _ _ [exception_line e]); [exact (q_sane _ _ _ Q)|exact L2].
        -- intros j J. apply said_loggy. exact (L2 _ J).
        -- eapply handling_ok; eauto.
      * injection E as <- <-. split; [exact F2|]. split; [exact Lh|]. split; [split; [exact OKh|exact Logic.I]|auto].
    + injection E as <- <-. split; [exact F2|]. split; [exact Lh|]. split; [split; [exact OKh|exact O2]|auto].
  - injection E as <- <-. split; [apply quiet_framed, quiet_refl; exact S|]. split; [exact L|]. split; [|auto]. split; [exact OKh|exact Logic.I].
  - rewrite say_eq in E. destruct (exec_stmt _ _ _ _ _) as [[w2 h] e'] eqn:X.
    inversion OK as [|x l O1 O2]. subst x l.
    assert (S1 := said_sane _ (p_handle p) (map (Line i) (o_lines o)) S).
    assert (L1 : forall j, p_handle p = Some j -> loggy (said w (p_handle p) (map (Line i) (o_lines o))) j)
      by (intros j J; apply said_loggy; exact (L _ J)).
    destruct (exec_quiet _ _ _ _ _ _ _ _ S1 O1 X) as [Q H]. cbn [p_stamp p_handle] in Q, H.
    assert (F2 := framed_trans _ _ _ _ _ (said_framed i (p_stamp p) w (p_handle p) (o_lines o) S L) (quiet_framed i _ _ _ Q)).
    assert (Lh : forall j, h = Some j -> loggy w2 j).
    { intros j J. destruct H as [->|[k [-> K]]]; [exact (q_loggy _ _ _ Q _ (L1 _ J))|]. congruence. }
    destruct e' as [e'|]; injection E as <- <-; (split; [exact F2|]); (split; [exact Lh|]); (split; [|auto]).
    + split; [exact OKh|exact Logic.I].
    + eapply handling_ok; eauto.
  - injection E as <- <-. split; [apply quiet_framed, quiet_refl; exact S|]. split; [exact L|]. split; [|auto]. split; [exact OKh|]. rewrite ST. exact Logic.I.
Qed.
