(** Runs started in the same second: one directory, and one run in it. *)
From Coq Require Import String List Bool Arith Lia.
From Verif Require Import Model.Py Model.Saving Model.SaveTable Spec.SavingSpec Proofs.SavingNames Proofs.SavingWorld Proofs.SavingFrame Proofs.SavingResults Proofs.SavingFates Proofs.SavingLogs Proofs.SavingAlone Proofs.SavingOverlap.
Import ListNotations.
Local Open Scope list_scope.

Section Second.
  Variable w0 : world.
  Variable rs : list run.
  Hypothesis READY : ready w0 rs.

  Definition whereabouts (owner : string -> option nat) (i : nat) (r : run) (p : proc) : Prop :=
    (exists k, p_state p = Running (skipn k (flagged (r_script r))) /\ k <= length (stmts (r_script r)) /\
       (existsb is_mkdir (firstn k (stmts (r_script r))) = true -> owner (r_stamp r) = Some i)) \/
    (exists l e, p_state p = Handling l e /\ Forall (fun s => s = SMove) l) \/ exists e, p_state p = Raised e.

  Definition by_owner (owner : string -> option nat) (w : world) : Prop :=
    forall t n c, In t (map r_stamp rs) -> n <> logname -> content w (RunDir t, n) = Some c ->
      exists i r, owner t = Some i /\ nth_error rs i = Some r /\ r_stamp r = t /\ (exists m, In (SWrite m) (stmts (r_script r)) /\ n = result_name r m) /\
        (c = [Written i n] \/ c = [Torn i n]).

  Definition SI (owner : string -> option nat) (s : world * list proc) : Prop :=
    sane (fst s) /\ length (snd s) = length rs /\ (forall t, In t (map r_stamp rs) -> w_dirs (fst s) (RunDir t) = false -> owner t = None) /\
    (forall i r, nth_error rs i = Some r -> exists p, nth_error (snd s) i = Some p /\ kept r (fst s) p /\ whereabouts owner i r p) /\
    by_owner owner (fst s).

  Lemma SI_init : SI (fun _ => None) (w0, launch rs).
  Proof using READY.
    destruct READY as (S & _ & T & U). rewrite Forall_forall in T, U.
    split; [exact S|]. split; [apply map_length|]. split; [reflexivity|]. split.
    - intros i r E. unfold launch. cbn [snd]. rewrite nth_error_map, E. cbn. eexists. split; [reflexivity|].
      split; [apply start_kept; exact (T _ (nth_error_In _ _ E))|]. left. exists 0. split; [reflexivity|]. split; [lia|]. discriminate.
    - intros t n c I N C. exfalso. apply in_map_iff in I as (r & <- & I). destruct (U _ I) as (_ & _ & F). unfold content in C. cbn [fst] in C. rewrite F in C. discriminate C.
  Qed.

  (** A statement which is not a result leaves the results alone. *)
  Lemma exec_same : forall i r p o s w w' h e, sane w -> kept r w p -> stmt_ok s -> exec_stmt i p o s w = (w', h, e) ->
    (forall t, s <> SWrite t) -> forall n, n <> logname -> content w' (RunDir (r_stamp r), n) = content w (RunDir (r_stamp r), n).
  Proof using.
    intros i r p o s w w' h e S K OK E NW n N. rewrite (exec_results i r p o s w w' h e S K OK E); [|destruct s; auto; exfalso; eapply NW; reflexivity|exact N].
    destruct s; try reflexivity. exfalso. eapply NW. reflexivity.
  Qed.

  Lemma exec_dirs_own : forall i p o s w w' h e, exec_stmt i p o s w = (w', h, e) ->
    (s <> SMkdir -> w_dirs w' (RunDir (p_stamp p)) = w_dirs w (RunDir (p_stamp p))) /\
    (s = SMkdir -> e = None -> w_dirs w (RunDir (p_stamp p)) = false).
  Proof using.
    intros i p o s w w' h e E. unfold exec_stmt in E. cbv zeta in E. destruct s as [pl| |m|m|step| |]; (split; [intro N; try congruence|intro N; try discriminate N]).
    - destruct (o_fail o); [injection E as <- _ _; reflexivity|]. destruct (w_dirs w _); [|injection E as <- _ _; reflexivity].
      destruct (open_file _ w) as [w1 j] eqn:F. injection E as <- _ _. unfold open_file in F. destruct (w_files w _); injection F as <- _; reflexivity.
    - intros ->. destruct (o_fail o); [discriminate E|]. destruct (w_dirs w (RunDir (p_stamp p))); [discriminate E|reflexivity].
    - destruct (o_fail o); [injection E as <- _ _; reflexivity|]. destruct (w_dirs w (SubDir _ _)); [injection E as <- _ _; reflexivity|].
      destruct (w_dirs w (RunDir _)) eqn:D; injection E as <- _ _; [cbn; rewrite D; reflexivity|exact D].
    - destruct (o_fail o); [destruct (o_torn o)|].
      + destruct (w_dirs w (RunDir _)) eqn:D; injection E as <- _ _; [rewrite write_dirs|]; exact D.
      + injection E as <- _ _; reflexivity.
      + destruct (w_dirs w (RunDir _)) eqn:D; injection E as <- _ _; [rewrite write_dirs|]; exact D.
    - injection E as <- _ _. apply (steps_ind (fun w' => w_dirs w' (RunDir (p_stamp p)) = w_dirs w (RunDir (p_stamp p)))); [reflexivity|].
      intros w1 pl m s _ _ X. rewrite write_dirs. exact X.
    - destruct (o_fail o); [injection E as <- _ _; reflexivity|]. destruct (w_files w _); [|injection E as <- _ _; reflexivity].
      destruct (w_dirs w (RunDir _)) eqn:D; injection E as <- _ _; exact D.
  Qed.

  Definition claim (owner : string -> option nat) (t : string) (i : nat) : string -> option nat :=
    fun x => if String.eqb t x then Some i else owner x.

  Lemma SI_step : forall owner s x, SI owner s -> exists owner', SI owner' (sys_step s x).
  Proof using READY.
    intros owner [w ps] [k o] (S & L & D & P & B). cbn [fst snd] in *. unfold sys_step. cbn [fst snd].
    destruct (nth_error ps k) as [p|] eqn:N; [|exists owner; repeat (split; [assumption|]); assumption].
    destruct (nth_error rs k) as [r|] eqn:RK; [|apply nth_error_None in RK; assert (k < length ps) by (apply nth_error_Some; congruence); lia].
    destruct (P _ _ RK) as (p2 & N2 & KP & W). assert (p2 = p) by congruence. subst p2. clear N2.
    destruct (step_proc k o w p) as [w' p'] eqn:ST. pose proof KP as (K1 & K2 & K3 & K4 & K5).
    destruct (step_framed _ _ _ _ _ _ S K5 K4 ST) as (F & F1 & F2 & F3 & F4 & F5). rewrite K1 in F.
    assert (T : in_table (r_script r)) by (destruct READY as (_ & _ & T & _); rewrite Forall_forall in T; exact (T _ (nth_error_In _ _ RK))).
    assert (IT : In (r_stamp r) (map r_stamp rs)) by (apply in_map; exact (nth_error_In _ _ RK)).
    assert (KP' : kept r w' p') by (repeat split; try congruence; try (apply F2); apply F1; assumption).
    (* it is enough to look at this run and its directory *)
    assert (MAIN : forall owner', (forall t, t <> r_stamp r -> owner' t = owner t) -> (forall i, owner (r_stamp r) = Some i -> owner' (r_stamp r) = Some i) ->
      whereabouts owner' k r p' -> (w_dirs w' (RunDir (r_stamp r)) = false -> owner' (r_stamp r) = None) ->
      (forall n c, n <> logname -> content w' (RunDir (r_stamp r), n) = Some c ->
        exists i r', owner' (r_stamp r) = Some i /\ nth_error rs i = Some r' /\ r_stamp r' = r_stamp r /\
          (exists m, In (SWrite m) (stmts (r_script r')) /\ n = result_name r' m) /\ (c = [Written i n] \/ c = [Torn i n])) ->
      SI owner' (w', set_nth ps k p')).
    { intros owner' O1 O2 WP DP BP. split; [exact (f_sane _ _ _ _ F)|]. cbn [fst snd]. split; [rewrite set_nth_length; exact L|]. split.
      - intros t I DT. destruct (string_dec t (r_stamp r)) as [->|NT]; [exact (DP DT)|]. rewrite O1 by exact NT. apply D; [exact I|].
        rewrite <- (f_dirs _ _ _ _ F (RunDir t)); [exact DT|congruence|discriminate].
      - split.
        + intros i r' E. rewrite nth_set_nth. destruct (Nat.eqb k i) eqn:KI.
          * apply Nat.eqb_eq in KI. subst i. assert (r' = r) by congruence. subst r'. rewrite N. exists p'. auto.
          * destruct (P _ _ E) as (q & Nq & Kq & Wq). exists q. split; [exact Nq|]. split.
            -- destruct Kq as (Q1 & Q2 & Q3 & Q4 & Q5). split; [exact Q1|]. split; [exact Q2|]. split; [exact Q3|]. split; [exact Q4|].
               intros j J. exact (f_loggy _ _ _ _ F _ (Q5 _ J)).
            -- destruct Wq as [(m & M1 & M2 & M3)|Wq]; [left|right; exact Wq]. exists m. split; [exact M1|]. split; [exact M2|]. intro X. specialize (M3 X).
               destruct (string_dec (r_stamp r') (r_stamp r)) as [Q|Q]; [rewrite Q in *; exact (O2 _ M3)|rewrite O1 by exact Q; exact M3].
        + intros t n c I NL C. destruct (string_dec t (r_stamp r)) as [->|NT]; [exact (BP _ _ NL C)|]. rewrite O1 by exact NT.
          rewrite (f_content _ _ _ _ F _ _ NT NL) in C. exact (B _ _ _ I NL C). }
    assert (S1 := said_sane w (p_handle p) (map (Line k) (o_lines o)) S).
    assert (K1' := spoken_kept r w (o_lines o) (map (Line k) (o_lines o)) p KP).
    destruct W as [(j & W1 & W2 & W3)|[(l & e & W1 & W2)|W1]].
    - destruct (Nat.eq_dec j (length (stmts (r_script r)))) as [J|J].
      + (* at its end *)
        assert (W1' : p_state p = Running []) by (rewrite W1, skipn_all2; [reflexivity|rewrite flagged_length; lia]).
        destruct (step_over _ _ _ _ _ _ (or_introl W1') ST) as [-> ->]. exists owner. apply MAIN; auto.
        left. exists j. auto.
      + assert (JL : j < length (flagged (r_script r))) by (rewrite flagged_length; lia).
        destruct (skipn_nth (flagged (r_script r)) j JL) as ([g s] & E1 & E2). rewrite E2 in W1.
        assert (E3 : nth_error (stmts (r_script r)) j = Some s) by (rewrite <- flagged_snd, nth_error_map, E1; reflexivity).
        assert (OK : stmt_ok s) by (pose proof (stmts_ok _ T) as Q; rewrite Forall_forall in Q; exact (Q _ (nth_error_In _ _ E3))).
        destruct (step_running _ _ _ _ _ _ _ _ _ W1 ST) as (w2 & h & e & X & R).
        destruct (exec_dirs_own _ _ _ _ _ _ _ _ X) as [D1 D2]. cbn [spoken p_stamp] in D1, D2. rewrite K1, !said_sub in D1. rewrite K1, said_sub in D2.
        set (owner' := match s, e with SMkdir, None => claim owner (r_stamp r) k | _, _ => owner end).
        assert (TA := table_at _ _ _ T E3).
        assert (MK : forall x, existsb is_mkdir (firstn (Datatypes.S j) (stmts (r_script r))) = true -> is_mkdir x = is_mkdir s ->
                     existsb is_mkdir (firstn j (stmts (r_script r))) = true \/ s = SMkdir).
        { intros x Y _. rewrite (firstn_S _ _ _ E3), existsb_app in Y. apply orb_true_iff in Y as [Y|Y]; [left; exact Y|]. cbn in Y. rewrite orb_false_r in Y.
          right. destruct s; try discriminate Y. reflexivity. }
        assert (ON : s = SMkdir -> e = None -> owner (r_stamp r) = None) by (intros Y Z; apply D; [exact IT|exact (D2 Y Z)]).
        assert (CL : forall t, claim owner (r_stamp r) k t = if String.eqb (r_stamp r) t then Some k else owner t) by reflexivity.
        assert (OW : s = SMkdir /\ e = None /\ owner' = claim owner (r_stamp r) k \/ (s <> SMkdir \/ e <> None) /\ owner' = owner).
        { unfold owner'. destruct s; try (right; split; [left; discriminate|reflexivity]). destruct e; [right; split; [right; discriminate|reflexivity]|left; auto]. }
        (* the results *)
        assert (CW : forall n c, n <> logname -> content w2 (RunDir (r_stamp r), n) = Some c ->
                  (content w (RunDir (r_stamp r), n) = Some c) \/
                  (exists m, s = SWrite m /\ n = result_name r m /\ (c = [Written k n] \/ c = [Torn k n]))).
        { intros n c NL C.
          assert (DW : match s with SWrite _ => w_dirs (said w (p_handle p) (map (Line k) (o_lines o))) (RunDir (r_stamp r)) = true | _ => True end).
          { destruct s; auto. rewrite said_sub. destruct (w_dirs w (RunDir (r_stamp r))) eqn:Z; [reflexivity|]. apply D in Z; [|exact IT].
            specialize (W3 TA). congruence. }
          rewrite (exec_results k r _ o s _ _ _ _ S1 K1' OK X DW n NL) in C. rewrite (said_keeps r w p _ n KP NL) in C.
          destruct s; try (left; exact C). destruct (String.eqb n (result_name r t)) eqn:Q; [|left; exact C]. apply String.eqb_eq in Q.
          unfold write_result in C. destruct (o_fail o); [destruct (o_torn o)|]; [right|left; exact C|right]; exists t; injection C as <-; auto. }
        assert (W'2 : forall n, n <> logname -> content w' (RunDir (r_stamp r), n) = content w2 (RunDir (r_stamp r), n)).
        { intros n NL. destruct e as [e|]; [destruct (g && catchable e)|]; destruct R as [-> _]; try reflexivity.
          apply said_content; [|exact NL]. intros j0 J0. destruct (exec_quiet _ _ _ _ _ _ _ _ S1 OK X) as [Q _]. apply (q_loggy _ _ _ Q). apply said_loggy. exact (K5 _ J0). }
        assert (D' : w_dirs w' = w_dirs w2) by (destruct e as [e|]; [destruct (g && catchable e)|]; destruct R as [-> _]; rewrite ?said_sub; reflexivity).
        exists owner'. apply MAIN.
        * intros t NT. destruct OW as [(_ & _ & ->)|[_ ->]]; [|reflexivity]. rewrite CL. destruct (String.eqb (r_stamp r) t) eqn:Q; [apply String.eqb_eq in Q; congruence|reflexivity].
        * intros i Oi. destruct OW as [(Y & Z & ->)|[_ ->]]; [|exact Oi]. rewrite (ON Y Z) in Oi. discriminate Oi.
        * destruct e as [e|]; [destruct (g && catchable e) eqn:G|]; destruct R as [_ ->].
          -- right. cbn [go p_state]. unfold handling. pose proof (handler_moves _ T) as HM. rewrite K3.
             destruct (handler_of (r_script r)) as [|a l] eqn:HO; [right; eauto|left]. exists (a :: l), e. split; [reflexivity|]. exact HM.
          -- right. right. exists e. reflexivity.
          -- left. exists (Datatypes.S j). split; [reflexivity|]. split; [rewrite flagged_length in JL; lia|]. intro Y.
             destruct (MK s Y eq_refl) as [Z|Z].
             ++ specialize (W3 Z). destruct OW as [(-> & _ & _)|[_ ->]]; [congruence|exact W3].
             ++ destruct OW as [(_ & _ & ->)|[[Q|Q] _]]; [|congruence|congruence]. rewrite CL, String.eqb_refl. reflexivity.
        * intro Z. rewrite D' in Z. destruct OW as [(Y & EN & ->)|[Q ->]].
          -- exfalso. subst s e. unfold exec_stmt in X. cbv zeta in X. destruct (o_fail o); [discriminate X|]. cbn [spoken p_stamp] in X. rewrite K1, !said_sub in X.
             destruct (w_dirs w (RunDir (r_stamp r))); [discriminate X|]. destruct (w_dirs w Results); [|discriminate X]. injection X as <- _. cbn in Z.
             rewrite String.eqb_refl in Z. discriminate Z.
          -- apply D; [exact IT|]. destruct (w_dirs w (RunDir (r_stamp r))) eqn:Y; [|reflexivity]. exfalso.
             destruct (exec_quiet _ _ _ _ _ _ _ _ S1 OK X) as [QQ _]. assert (U := q_mono _ _ _ QQ (RunDir (r_stamp r))). rewrite said_sub in U. specialize (U Y). congruence.
        * intros n c NL C. rewrite W'2 in C by exact NL. destruct (CW _ _ NL C) as [C0|(m & Y & Z & C0)].
          -- destruct (B _ _ _ IT NL C0) as (i & r' & B1 & B2). exists i, r'. split; [|exact B2].
             destruct OW as [(Y & Z & _)|[_ ->]]; [rewrite (ON Y Z) in B1; discriminate B1|exact B1].
          -- exists k, r. subst s. destruct OW as [(Y & _)|[_ ->]]; [discriminate Y|]. split; [exact (W3 TA)|]. split; [exact RK|]. split; [reflexivity|].
             split; [|exact C0]. exists m. split; [exact (nth_error_In _ _ E3)|exact Z].
    - (* in its handler *)
      assert (KEEP : (exists l' e', p_state p' = Handling l' e' /\ Forall (fun s => s = SMove) l') \/ exists e', p_state p' = Raised e').
      { destruct l as [|s l].
        - unfold step_proc in ST. rewrite W1 in ST. injection ST as _ <-. right. exists e. reflexivity.
        - destruct (step_handling _ _ _ _ _ _ _ _ _ W1 ST) as (h & e' & X & ->). inversion W2 as [|a b A1 A2]. subst a b. cbn [go p_state].
          destruct e' as [e'|]; [right; eauto|]. destruct l as [|b l]; [right; exists e; reflexivity|left]. exists (b :: l), e. auto. }
      assert (CW : w_dirs w' (RunDir (r_stamp r)) = w_dirs w (RunDir (r_stamp r)) /\
                   forall n, n <> logname -> content w' (RunDir (r_stamp r), n) = content w (RunDir (r_stamp r), n)).
      { destruct l as [|s l].
        - unfold step_proc in ST. rewrite W1 in ST. injection ST as <- _. auto.
        - destruct (step_handling _ _ _ _ _ _ _ _ _ W1 ST) as (h & e' & X & _). inversion W2 as [|a b A1 A2]. subst a b s. split.
          + destruct (exec_dirs_own _ _ _ _ _ _ _ _ X) as [D1 _]. cbn [spoken p_stamp] in D1. rewrite K1, said_sub in D1. apply D1. discriminate.
          + intros n NL. rewrite (exec_same k r _ o SMove _ _ _ _ S1 K1' (Logic.I : stmt_ok SMove) X) by (discriminate || exact NL). exact (said_keeps r w p _ n KP NL). }
      destruct CW as [CD CW]. exists owner. apply MAIN; auto.
      + right. exact KEEP.
      + rewrite CD. apply D. exact IT.
      + intros n c NL C. rewrite CW in C by exact NL. exact (B _ _ _ IT NL C).
    - destruct (step_over _ _ _ _ _ _ (or_intror W1) ST) as [-> ->]. exists owner. apply MAIN; auto.
      right. right. exact W1.
  Qed.

  Lemma SI_run : forall sched, exists owner, SI owner (sys_run (w0, launch rs) sched).
  Proof using READY.
    induction sched as [|x l IH] using rev_ind; [exists (fun _ => None); exact SI_init|]. destruct IH as [owner IH]. rewrite run_app. exact (SI_step _ _ x IH).
  Qed.

  Lemma same_second : forall sched, let s := sys_run (w0, launch rs) sched in
    (forall i j r r' p q, nth_error rs i = Some r -> nth_error rs j = Some r' -> r_stamp r = r_stamp r' ->
       nth_error (snd s) i = Some p -> nth_error (snd s) j = Some q -> completed p -> completed q -> i = j) /\
    (forall t, In t (map r_stamp rs) -> exists i, forall n c, n <> logname -> content (fst s) (RunDir t, n) = Some c ->
       (c = [Written i n] \/ c = [Torn i n]) /\
       exists r m, nth_error rs i = Some r /\ r_stamp r = t /\ In (SWrite m) (stmts (r_script r)) /\ n = result_name r m).
  Proof using READY.
    intros sched s. destruct (SI_run sched) as (owner & _ & _ & _ & P & B). fold s in P, B.
    assert (C : forall i r p, nth_error rs i = Some r -> nth_error (snd s) i = Some p -> completed p -> owner (r_stamp r) = Some i).
    { intros i r p E N C. destruct (P _ _ E) as (p2 & N2 & _ & W). assert (p2 = p) by congruence. subst p2. unfold completed in C.
      destruct W as [(k & W1 & W2 & W3)|[(l & e & W1 & _)|[e W1]]]; [|congruence|congruence]. apply W3.
      assert (Z : skipn k (flagged (r_script r)) = []) by congruence. apply (f_equal (@length _)) in Z. rewrite skipn_length, flagged_length in Z. cbn in Z.
      assert (T : in_table (r_script r)) by (destruct READY as (_ & _ & T & _); rewrite Forall_forall in T; exact (T _ (nth_error_In _ _ E))).
      rewrite firstn_all2 by lia. apply in_table_check in T. unfold check in T. rewrite !andb_true_iff in T. tauto. }
    split.
    - intros i j r r' p q E E' ES N N' C1 C2. assert (X := C _ _ _ E N C1). assert (Y := C _ _ _ E' N' C2). congruence.
    - intros t I. exists (match owner t with Some i => i | None => 0 end). intros n c NL X. destruct (B _ _ _ I NL X) as (i & r & B1 & B2 & B3 & (m & B4 & B5) & B6).
      rewrite B1. split; [exact B6|]. exists r, m. auto.
  Qed.
End Second.
