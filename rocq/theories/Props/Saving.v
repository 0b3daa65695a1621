(** Theorems C111: what is on disk after runs of the scripts, whatever fails and however runs overlap. *)
From Coq Require Import String List Bool Arith Lia.
From Verif Require Import Model.Py Model.Saving Model.SaveTable Spec.SavingSpec Proofs.SavingNames Proofs.SavingWorld Proofs.SavingFrame Proofs.SavingResults Proofs.SavingFates Proofs.SavingLogs Proofs.SavingAlone Proofs.SavingOverlap Proofs.SavingSecond.
Import ListNotations.
Local Open Scope string_scope.
Local Open Scope list_scope.

(** The names a script makes in the directory of its run are different from each other and from log.log, whatever the options. *)
Theorem c111_names : forall name sc stamp args, In (name, sc) saving_scripts ->
  let made := flat_map (fun s => match s with SWrite t | SMkdirIn t => [render (run_env stamp args) t] | _ => [] end) (stmts sc) in
  NoDup ("log.log" :: made).
Proof.
  intros name sc stamp args I made.
  assert (C := in_table_check sc (ex_intro _ name I)). unfold check in C. rewrite !andb_true_iff in C. destruct C as [[[[[C _] _] _] _] _].
  replace made with (map (render (run_env stamp args)) (names_in (stmts sc))); [exact (all_apart_sound _ C _)|].
  unfold made. clear. induction (stmts sc) as [|[] l IH]; cbn; rewrite ?IH; reflexivity.
Qed.
Print Assumptions c111_names.

(** Any number of runs with different timestamps, in any order of their statements and with any failures: the directory of a run holds,
    besides log.log, exactly the results the run has written by then, each whole, except for the one at which it failed. *)
Theorem c111_results : forall w rs sched i r n, ready w rs -> NoDup (map r_stamp rs) -> nth_error rs i = Some r -> n <> "log.log" ->
  let seen := content (fst (sys_run (w, launch rs) sched)) (RunDir (r_stamp r), n) in
  (forall j t, nth_error (stmts (r_script r)) j = Some (SWrite t) -> n = result_name r t -> seen = fate_content i n (fate_of (own i sched) j)) /\
  ((forall t, In (SWrite t) (stmts (r_script r)) -> n <> result_name r t) -> seen = None).
Proof.
  intros w rs sched i r n R ND E N seen. destruct (results_anywhere w rs sched R ND i r E n N) as [A B]. split; [exact A|].
  intro H. apply B. intros j t J. exact (H _ (nth_error_In _ _ J)).
Qed.
Print Assumptions c111_results.

(** Whatever a run printed is, in order, in one log.log, and no line of it is in another file. The log is results/log.log or the one in the
    directory of a run - its own, for the scripts which log there. *)
Theorem c111_lines : forall w rs sched i r, ready w rs -> NoDup (map r_stamp rs) -> nth_error rs i = Some r ->
  let s := sys_run (w, launch rs) sched in
  exists p, nth_error (snd s) i = Some p /\
    ((p_out p = [] /\ forall q l, content (fst s) q = Some l -> lines_of i l = []) \/
     exists q l, content (fst s) q = Some l /\ lines_of i l = p_out p /\
       (forall q' l', content (fst s) q' = Some l' -> q' <> q -> lines_of i l' = []) /\
       (q = (Results, "log.log") \/ exists r', In r' rs /\ q = (RunDir (r_stamp r'), "log.log")) /\
       (own_log (r_script r) -> q = (RunDir (r_stamp r), "log.log"))).
Proof.
  intros w rs sched i r R ND E s. destruct (logs_anywhere w rs sched R ND) as ((_ & B & J) & _ & H). fold s in B, J, H.
  destruct (H _ _ E) as (p & N & _ & (_ & _ & P & _)). exists p. split; [exact N|]. destruct (p_handle p) as [h|].
  - right. destruct P as ([q Q] & P2 & P3 & P4 & P5). exists q, (w_data (fst s) h). split; [unfold content; rewrite Q; reflexivity|].
    split; [exact P2|]. split.
    + intros q' l' C NQ. unfold content in C. destruct (w_files (fst s) q') as [j|] eqn:F; [|discriminate C]. injection C as <-. apply P3; [exact (B _ _ F)|].
      intros ->. exact (NQ (J _ _ _ F Q)).
    + split; [exact (P4 _ Q)|]. intro O. apply (J _ _ _ Q). apply P5. apply existsb_exists. exists (SOpenLog AtRun). split; [exact O|reflexivity].
  - left. destruct P as [P1 P2]. split; [exact P1|]. intros q l C. unfold content in C. destruct (w_files (fst s) q) as [j|] eqn:F; [|discriminate C].
    injection C as <-. apply P2. exact (B _ _ F).
Qed.
Print Assumptions c111_lines.

(** One run of a script which logs to results/log.log: how it ends, what is printed, and where the log is then, for every point of failure. *)
Theorem c111_alone : forall w r sched opening, ready w [r] -> nth_error (stmts (r_script r)) opening = Some (SOpenLog AtResults) ->
  let s := sys_run (w, launch [r]) sched in let outs := own 0 sched in let sc := r_script r in
  exists p, snd s = [p] /\ p_out p = printed sc opening outs /\
    (completed p <-> ends_with sc outs None) /\ (forall e, p_state p = Raised e <-> ends_with sc outs (Some e)) /\
    let new := match content w (Results, "log.log") with Some l => l | None => [] end ++ map (Line 0) (printed sc opening outs) in
    content (fst s) (Results, "log.log") =
      (if log_opened opening outs then if log_moved sc outs then None else Some new else content w (Results, "log.log")) /\
    content (fst s) (RunDir (r_stamp r), "log.log") = (if log_opened opening outs && log_moved sc outs then Some new else None).
Proof. exact alone_seen. Qed.
Print Assumptions c111_alone.

(** A failure inside the try: errors are logged by their names before they are raised again, an interrupt is not caught. *)
Theorem c111_caught : forall w r sched opening k e o, ready w [r] -> nth_error (stmts (r_script r)) opening = Some (SOpenLog AtResults) ->
  first_failure (own 0 sched) = Some (k, e) -> opening < k -> length (sc_pre (r_script r)) <= k < length (stmts (r_script r)) ->
  nth_error (own 0 sched) (S k) = Some o -> o_fail o = None ->
  exists p, snd (sys_run (w, launch [r]) sched) = [p] /\
    let said := concat (map o_lines (skipn (S opening) (firstn (S k) (own 0 sched)))) in
    match e with
    | Interrupted => p_out p = said /\ p_state p = Raised Interrupted
    | FileExists => p_out p = said ++ ["FileExistsError"] ++ o_lines o /\ p_state p = Raised (if dir_made (r_script r) k then FileExists else FileNotFound)
    | FileNotFound => p_out p = said ++ ["FileNotFoundError"] ++ o_lines o /\ p_state p = Raised FileNotFound
    | Failed text => p_out p = said ++ [text] ++ o_lines o /\ p_state p = Raised (if dir_made (r_script r) k then Failed text else FileNotFound)
    end.
Proof.
  intros w r sched opening k e o R OP F OK B N OF. destruct (c111_alone w r sched opening R OP) as (p & S & P & _ & E & _). exists p. split; [exact S|]. cbv zeta.
  unfold printed in P. unfold ends_with in E. rewrite F in P, E. rewrite (proj2 (Nat.ltb_lt k _) (proj2 B)) in P, E. rewrite (proj2 (Nat.leb_gt k opening) OK) in P.
  rewrite (proj2 (Nat.leb_le _ k) (proj1 B)), N in P, E. rewrite OF in E. destruct e; cbn [andb catchable exception_line] in P, E; (split; [exact P|apply E; destruct (dir_made (r_script r) k); reflexivity]).
Qed.
Print Assumptions c111_caught.

(** The name of a result is its text, with the timestamp of the run and its options in their places. *)
Theorem c111_result_name : forall r t, result_name r t =
  String.concat "" (map (fun x => match x with Lit s => s | Hole v => if string_dec v "timestamp" then r_stamp r else r_args r v end) t).
Proof.
  intros r t. assert (A : forall s, String.append s "" = s) by (induction s as [|c s IH]; [reflexivity|cbn; now rewrite IH]).
  unfold result_name. induction t as [|x t IH]; [reflexivity|].
  assert (E : render (run_env (r_stamp r) (r_args r)) (x :: t) = String.append (match x with Lit s => s | Hole v => if string_dec v "timestamp" then r_stamp r else r_args r v end) (render (run_env (r_stamp r) (r_args r)) t)).
  { destruct x as [s|v]; [reflexivity|]. cbn [render]. unfold run_env at 1. destruct (String.eqb_spec v "timestamp"), (string_dec v "timestamp"); congruence. }
  rewrite E, IH. destruct t; cbn [map String.concat]; [apply A|reflexivity].
Qed.
Print Assumptions c111_result_name.

(** Runs which share results/log.log and are all under way at one time: at most one of them reaches its end. *)
Theorem c111_overlap : forall w rs before later, ready w rs -> NoDup (map r_stamp rs) -> Forall (fun r => shares_log (r_script r)) rs ->
  let s1 := sys_run (w, launch rs) before in let s2 := sys_run s1 later in
  Forall (fun p => p_handle p <> None /\ ~ ended p) (snd s1) ->
  forall i j p q, nth_error (snd s2) i = Some p -> nth_error (snd s2) j = Some q -> completed p -> completed q -> i = j.
Proof.
  intros w rs before later R ND SH s1 s2 O i j p q E F C D.
  destruct (at_most_one w rs R ND SH before O later) as [[_ A]|[A _]]; [destruct (A _ _ E C)|exact (A _ _ _ _ E F C D)].
Qed.
Print Assumptions c111_overlap.

(** If nothing else goes wrong, exactly one does; the others raise FileNotFoundError in the end, with all their results saved. The lines of
    all of them are in the log of that one, and the others have no log. *)
Theorem c111_overlap_all : forall w rs before later, ready w rs -> NoDup (map r_stamp rs) -> Forall (fun r => shares_log (r_script r)) rs -> rs <> [] ->
  Forall (fun x => o_fail (snd x) = None) (before ++ later) ->
  let s1 := sys_run (w, launch rs) before in let s2 := sys_run s1 later in
  Forall (fun p => p_handle p <> None /\ exists x l, p_state p = Running (x :: l)) (snd s1) -> Forall ended (snd s2) ->
  exists i r log, nth_error rs i = Some r /\ content (fst s2) (Results, "log.log") = None /\ content (fst s2) (RunDir (r_stamp r), "log.log") = Some log /\
    forall j r' p, nth_error rs j = Some r' -> nth_error (snd s2) j = Some p ->
      p_state p = (if Nat.eqb j i then Running [] else Raised FileNotFound) /\
      lines_of j log = p_out p /\ (j <> i -> content (fst s2) (RunDir (r_stamp r'), "log.log") = None) /\
      forall t, In (SWrite t) (stmts (r_script r')) ->
        content (fst s2) (RunDir (r_stamp r'), result_name r' t) = Some [Written j (result_name r' t)].
Proof.
  intros w rs before later R ND SH NE FA s1 s2 O EN. apply Forall_app in FA as [FA FB].
  apply (one_takes_all w rs R ND SH before); try assumption.
  - eapply Forall_impl; [|exact O]. intros p (A & x & l & B). split; [exact A|]. intros [C|[e C]]; congruence.
  - eapply Forall_impl; [|exact O]. intros p (_ & B). exact B.
Qed.
Print Assumptions c111_overlap_all.

(** Runs started in the same second have one directory. At most one of them reaches its end, and all results in the directory are of one
    of them. *)
Theorem c111_same_second : forall w rs sched, ready w rs ->
  let s := sys_run (w, launch rs) sched in
  (forall i j r r' p q, nth_error rs i = Some r -> nth_error rs j = Some r' -> r_stamp r = r_stamp r' ->
     nth_error (snd s) i = Some p -> nth_error (snd s) j = Some q -> completed p -> completed q -> i = j) /\
  (forall t, In t (map r_stamp rs) -> exists i, forall n c, n <> "log.log" -> content (fst s) (RunDir t, n) = Some c ->
     (c = [Written i n] \/ c = [Torn i n]) /\
     exists r m, nth_error rs i = Some r /\ r_stamp r = t /\ In (SWrite m) (stmts (r_script r)) /\ n = result_name r m).
Proof. intros w rs sched R. exact (same_second w rs R sched). Qed.
Print Assumptions c111_same_second.

(** * Cases. *)
Definition ex_disk : world :=
  {| w_dirs := fun d => match d with Cwd | Results => true | _ => false end; w_files := fun _ => None; w_data := fun _ => []; w_next := 0 |}.
Definition ex_args (v : string) : string := v.
Definition ex_fine : outcome := {| o_lines := []; o_steps := []; o_fail := None; o_torn := false |}.
Definition ex_says (s : string) : outcome := {| o_lines := [s]; o_steps := []; o_fail := None; o_torn := false |}.
Definition ex_fails (e : err) (torn : bool) : outcome := {| o_lines := []; o_steps := []; o_fail := Some e; o_torn := torn |}.
Definition ex_classifier : run := {| r_script := sv_classifier_analysis; r_stamp := "t1"; r_args := ex_args |}.
Definition ex_combined : run := {| r_script := sv_eilat_simulated_data_combined_decoder; r_stamp := "t2"; r_args := ex_args |}.
Definition ex_clustering : run := {| r_script := sv_clustering_analysis; r_stamp := "t3"; r_args := ex_args |}.

Lemma ex_ready : forall rs, Forall (fun r => in_table (r_script r)) rs -> ready ex_disk rs.
Proof.
  intros rs T. split; [split; [reflexivity|]; split; [intros p i X; discriminate X|intros p q i X; discriminate X]|]. split; [intros j x L; cbn in L; lia|]. split; [exact T|].
  apply Forall_forall. intros r _. repeat split.
Qed.
Lemma ex_tabled : in_table (r_script ex_classifier) /\ in_table (r_script ex_combined) /\ in_table (r_script ex_clustering).
Proof.
  split; [|split]; eexists; [apply (nth_error_In saving_scripts 20)|apply (nth_error_In saving_scripts 12)|apply (nth_error_In saving_scripts 19)]; reflexivity.
Qed.

Example c111_ex_ready : ready ex_disk [ex_classifier; ex_combined] /\ NoDup (map r_stamp [ex_classifier; ex_combined]) /\ shares_log (r_script ex_classifier) /\ shares_log (r_script ex_combined).
Proof.
  split; [apply ex_ready; repeat constructor; apply ex_tabled|]. split.
  - constructor; [intros [X|[]]; discriminate X|]. constructor; [intros []|constructor].
  - split; [apply (nth_error_In (stmts (r_script ex_classifier)) 1)|apply (nth_error_In (stmts (r_script ex_combined)) 1)]; reflexivity.
Qed.

(** How long the scripts are, and what is in their directories in the end. *)
Definition ex_all (i : nat) (r : run) : list (nat * outcome) := repeat (i, ex_says "line") (length (stmts (r_script r))).
Definition ex_states (s : world * list proc) : list (option (option err)) :=
  map (fun p => match p_state p with Running [] => Some None | Raised e => Some (Some e) | _ => None end) (snd s).
Definition ex_logs (s : world * list proc) : list (option nat) :=
  map (fun q => option_map (@length item) (content (fst s) q))
    [(Results, "log.log"); (RunDir "t1", "log.log"); (RunDir "t2", "log.log"); (RunDir "t3", "log.log")].

Example c111_ex_alone : let s := sys_run (ex_disk, launch [ex_classifier]) (ex_all 0 ex_classifier) in
  ex_states s = [Some None] /\ ex_logs s = [None; Some (length (stmts sv_classifier_analysis) - 2); None; None] /\
  content (fst s) (RunDir "t1", "cmd.txt") = Some [Written 0 "cmd.txt"].
Proof. vm_compute. auto. Qed.

(** It fails while it writes a result. *)
Example c111_ex_torn : let s := sys_run (ex_disk, launch [ex_combined]) (repeat (0, ex_fine) 12 ++ [(0, ex_fails (Failed "disk full") true); (0, ex_fine)]) in
  ex_states s = [Some (Some (Failed "disk full"))] /\
  content (fst s) (RunDir "t2", "buffer_success_rate_vs_error_p.eps") = Some [Written 0 "buffer_success_rate_vs_error_p.eps"] /\
  content (fst s) (RunDir "t2", "t2_summary_nr_args.dec_type_decoder_WiFi.pickle") = Some [Torn 0 "t2_summary_nr_args.dec_type_decoder_WiFi.pickle"] /\
  content (fst s) (RunDir "t2", "t2_summary_nr_args.dec_type_decoder_WiFi.mat") = None /\
  content (fst s) (Results, "log.log") = None /\ content (fst s) (RunDir "t2", "log.log") = Some [Line 0 "disk full"].
Proof. vm_compute. auto 10. Qed.

(** Two runs, one after the other: both complete, each with its log. *)
Example c111_ex_after : let s := sys_run (ex_disk, launch [ex_classifier; ex_combined]) (ex_all 0 ex_classifier ++ ex_all 1 ex_combined) in
  ex_states s = [Some None; Some None] /\ nth_error (ex_logs s) 0 = Some None.
Proof. vm_compute. auto. Qed.

(** The same two, overlapping: the first to end takes the log of both, the other raises FileNotFoundError. *)
Definition ex_before : list (nat * outcome) := repeat (0, ex_says "a") 3 ++ repeat (1, ex_says "b") 3.
Definition ex_later : list (nat * outcome) := ex_all 1 ex_combined ++ ex_all 0 ex_classifier ++ [(0, ex_fine)].
Example c111_ex_overlap : let s1 := sys_run (ex_disk, launch [ex_classifier; ex_combined]) ex_before in let s2 := sys_run s1 ex_later in
  Forall (fun p => p_handle p <> None /\ exists x l, p_state p = Running (x :: l)) (snd s1) /\
  Forall (fun x => o_fail (snd x) = None) (ex_before ++ ex_later) /\
  ex_states s2 = [Some (Some FileNotFound); Some None] /\ nth_error (ex_logs s2) 1 = Some None.
Proof.
  split; [|split; [|vm_compute; auto]].
  - vm_compute. repeat constructor; try discriminate; eexists; eexists; reflexivity.
  - apply Forall_forall. intros x I. vm_compute in I. repeat (destruct I as [<-|I]; [reflexivity|]). destruct I.
Qed.

(** A run whose directory cannot be made leaves its log in results/, for the next run to add to. *)
Example c111_ex_left : let s := sys_run (ex_disk, launch [ex_classifier]) (repeat (0, ex_fine) 2 ++ [(0, ex_says "x"); (0, ex_fails (Failed "no space") false)]) in
  ex_states s = [Some (Some (Failed "no space"))] /\ content (fst s) (Results, "log.log") = Some [Line 0 "x"].
Proof. vm_compute. auto. Qed.

(** It is not so that one of two runs of the same second reaches its end if nothing else goes wrong: clustering_analysis.py makes its
    directory in the try, and the run which could not make it moves the log of both away in its handler. *)
Theorem c111_one_completes_refuted : exists w r sched, ready w [r; r] /\ Forall (fun x => o_fail (snd x) = None) sched /\
  let s := sys_run (w, launch [r; r]) sched in
  Forall ended (snd s) /\ Forall (fun p => ~ completed p) (snd s).
Proof.
  exists ex_disk, ex_clustering, (repeat (0, ex_fine) 4 ++ repeat (1, ex_fine) (2 + length (stmts sv_clustering_analysis)) ++ repeat (0, ex_fine) (2 + length (stmts sv_clustering_analysis))).
  split; [apply ex_ready; repeat constructor; apply ex_tabled|]. split.
  - apply Forall_forall. intros x I. vm_compute in I. repeat (destruct I as [<-|I]; [reflexivity|]). destruct I.
  - vm_compute. split; (apply Forall_cons; [|apply Forall_cons; [|apply Forall_nil]]).
    + right. eexists. reflexivity.
    + right. eexists. reflexivity.
    + intro X. discriminate X.
    + intro X. discriminate X.
Qed.
Print Assumptions c111_one_completes_refuted.
