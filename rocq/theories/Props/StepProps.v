(** Theorems C113: the files of the steps of simulations, whatever fails and however runs overlap. *)
From Coq Require Import String List Bool Arith Lia NArith.
From Verif Require Import Model.Py Model.Saving Model.SaveTable Model.Timestamp Spec.SavingSpec Spec.StepSpec Spec.TimestampSpec
  Proofs.SavingNames Proofs.SavingWorld Proofs.SavingFrame Proofs.SavingResults Proofs.SavingFates Proofs.SavingSteps Props.Saving.
Import ListNotations.
Local Open Scope string_scope.
Local Open Scope list_scope.

(** A file beside the directories of runs, other than the log, has what the last step with this name wrote, whole; the other ones are as before. *)
Theorem c113_steps : forall w rs sched q, ready w rs -> NoDup (map r_stamp rs) -> (fst q = Cwd \/ fst q = Results) -> snd q <> "log.log" ->
  let s := sys_run (w, launch rs) sched in
  (forall l1 i l2, saved rs sched = l1 ++ (q, i) :: l2 -> ~ In q (map fst l2) -> content (fst s) q = Some [Written i (snd q)]) /\
  (~ In q (map fst (saved rs sched)) -> content (fst s) q = content w q).
Proof.
  intros w rs sched q R ND D N s. unfold s. rewrite (steps_anywhere _ _ R ND q (conj D N)). split.
  - intros l1 i l2 -> L. apply last_split. exact L.
  - apply last_none.
Qed.
Print Assumptions c113_steps.

(** The files of two steps are the same exactly if their directories, their templates, their times and their levels are. *)
Theorem c113_names : forall start r r' pl pl' t t' a b p q, in_table (r_script r) -> in_table (r_script r') ->
  In (SPool (Some (pl, t))) (stmts (r_script r)) -> In (SPool (Some (pl', t'))) (stmts (r_script r')) ->
  (step_file r pl t (timestamp start a, p) = step_file r' pl' t' (timestamp start b, q) <->
   pl = pl' /\ t = t' /\ timestamp start a = timestamp start b /\ p = q) /\
  fst (step_file r pl t (timestamp start a, p)) <> RunDir (r_stamp r).
Proof.
  intros start r r' pl pl' t t' a b p q T T' I I'. pose proof (step_place _ _ _ T I) as P. pose proof (step_place _ _ _ T' I') as P'. split.
  - unfold step_file. unfold path. rewrite pair_equal_spec, (step_names start _ _ _ _ _ _ (r_args r) (r_args r') a b p q T T' I I').
    enough (dir_of (r_stamp r) pl = dir_of (r_stamp r') pl' <-> pl = pl') by tauto.
    destruct P as [-> | ->], P' as [-> | ->]; cbn; split; congruence.
  - destruct P as [-> | ->]; discriminate.
Qed.
Print Assumptions c113_names.

(** A step which was saved stays, unless a later one of the same directory and template has the same time and level: in its own run, or in another one. *)
Theorem c113_kept : forall start w rs sched, ready w rs -> NoDup (map r_stamp rs) ->
  (forall i o s, In (i, o) sched -> In s (o_steps o) -> exists a, fst s = timestamp start a) ->
  forall k i o r pl t s1 s s2, nth_error sched k = Some (i, o) -> nth_error rs i = Some r -> existsb fails (own i (firstn k sched)) = false ->
    nth_error (stmts (r_script r)) (length (own i (firstn k sched))) = Some (SPool (Some (pl, t))) -> o_steps o = s1 ++ s :: s2 ->
    ~ In s s2 ->
    (forall k' i' o' r' , k < k' -> nth_error sched k' = Some (i', o') -> nth_error rs i' = Some r' -> In (SPool (Some (pl, t))) (stmts (r_script r')) -> ~ In s (o_steps o')) ->
    content (fst (sys_run (w, launch rs) sched)) (step_file r pl t s) = Some [Written i (snd (step_file r pl t s))].
Proof.
  intros start w rs sched R ND A k i o r pl t s1 s s2 K I F P O N1 N2.
  assert (T : Forall (fun r => in_table (r_script r)) rs) by apply R. rewrite Forall_forall in T.
  assert (IN := nth_error_In _ _ P).
  assert (TA : forall k' i' o' x, nth_error sched k' = Some (i', o') -> In x (o_steps o') -> exists a, x = (timestamp start a, snd x)).
  { intros k' i' o' [x1 x2] K' X. destruct (A _ _ _ (nth_error_In _ _ K') X) as [a E]. exists a. cbn in *. congruence. }
  assert (SI : In s (o_steps o)) by (rewrite O; apply in_elt).
  destruct (TA _ _ _ _ K SI) as [a SE].
  assert (SAME : forall k' i' o' r' pl' t' x, nth_error sched k' = Some (i', o') -> nth_error rs i' = Some r' -> In (SPool (Some (pl', t'))) (stmts (r_script r')) -> In x (o_steps o') ->
    step_file r' pl' t' x = step_file r pl t s -> pl' = pl /\ t' = t /\ x = s).
  { intros k' i' o' r' pl' t' x K' I' P' X E. destruct (TA _ _ _ _ K' X) as [b XE]. rewrite XE, SE in E.
    apply (proj1 (c113_names start r' r pl' pl t' t b a (snd x) (snd s) (T _ (nth_error_In _ _ I')) (T _ (nth_error_In _ _ I)) P' IN)) in E.
    destruct E as (-> & -> & E1 & E2). rewrite XE, SE, E1, E2. auto. }
  assert (L : k < length sched) by (apply nth_error_Some; congruence).
  assert (D : fst (step_file r pl t s) = Cwd \/ fst (step_file r pl t s) = Results).
  { destruct (step_place _ _ _ (T _ (nth_error_In _ _ I)) IN) as [-> | ->]; auto. }
  assert (NL : snd (step_file r pl t s) <> "log.log").
  { rewrite SE. exact (step_not_log start _ _ _ (r_args r) a (snd s) (T _ (nth_error_In _ _ I)) IN). }
  destruct (c113_steps w rs sched (step_file r pl t s) R ND D NL) as [H _].
  apply (H (flat_map (saved_at rs sched) (seq 0 k) ++ map (fun s => (step_file r pl t s, i)) s1) i
           (map (fun s => (step_file r pl t s, i)) s2 ++ flat_map (saved_at rs sched) (seq (S k) (length sched - S k)))).
  - unfold saved. replace (length sched) with (k + S (length sched - S k)) at 1 by lia. rewrite seq_app, flat_map_app. cbn [Nat.add seq flat_map].
    rewrite <- app_assoc. f_equal. unfold saved_at at 1. rewrite K, I, F, P, O, map_app. cbn [map]. rewrite <- app_assoc. reflexivity.
  - rewrite map_app, in_app_iff. intros [X|X].
    + rewrite map_map in X. apply in_map_iff in X as (x & E & X). cbn [fst] in E. apply N1.
      destruct (SAME k i o r pl t x K I IN) as (_ & _ & <-); [rewrite O; apply in_or_app; right; right; exact X|exact E|exact X].
    + apply in_map_iff in X as ([q' j] & E & X). cbn [fst] in E. subst q'. apply in_flat_map in X as (k' & S' & X). apply in_seq in S'.
      unfold saved_at in X. destruct (nth_error sched k') as [[i' o']|] eqn:K'; [|destruct X]. destruct (nth_error rs i') as [r'|] eqn:I'; [|destruct X]. cbv zeta in X.
      destruct (existsb fails (own i' (firstn k' sched))); [contradiction|]. destruct (nth_error (stmts (r_script r')) _) as [[| | | |[[pl' t']|]| |]|] eqn:P'; try contradiction.
      apply in_map_iff in X as (x & E & X). assert (E1 := f_equal fst E); clear E; rename E1 into E; cbn [fst] in E. apply nth_error_In in P'.
      destruct (SAME k' i' o' r' pl' t' x K' I' P' X E) as (-> & -> & ->). exact (N2 k' i' o' r' ltac:(lia) K' I' P' X).
Qed.
Print Assumptions c113_kept.

(** * Cases. *)
Definition ex_step_time (s : N) : string := timestamp (2024, 2, 28)%N (at_once (s * 1000000)).
Definition ex_done (l : list (string * string)) : outcome := {| o_lines := []; o_steps := l; o_fail := None; o_torn := false |}.
Definition ex_bf : run := {| r_script := sv_eilat_simluated_data_entropy_bf_decoders; r_stamp := "t4"; r_args := ex_args |}.
Definition ex_entropy : run := {| r_script := sv_eilat_simulated_data_classifying_entropy_decoder; r_stamp := "t5"; r_args := ex_args |}.
Lemma ex_two_ready : ready ex_disk [ex_bf; ex_entropy] /\ NoDup (map r_stamp [ex_bf; ex_entropy]).
Proof.
  split.
  - apply ex_ready. constructor; [|constructor; [|constructor]]; cbn [r_script ex_bf ex_entropy].
    + exists (fst (nth 8 saving_scripts ("", sv_classifier_analysis))). apply (nth_error_In saving_scripts 8). reflexivity.
    + exists (fst (nth 11 saving_scripts ("", sv_classifier_analysis))). apply (nth_error_In saving_scripts 11). reflexivity.
  - constructor; [intros [X|[]]; discriminate X|]. constructor; [intros []|constructor].
Qed.
(** The simulation fails at its third level: the files of the first two are there, whole. *)
Definition ex_broken : list (nat * outcome) := repeat (0, ex_fine) 7 ++
  [(0, {| o_lines := []; o_steps := [(ex_step_time 0, "0.001"); (ex_step_time 7, "0.002")]; o_fail := Some (Failed "killed"); o_torn := false |}); (0, ex_fine)].
Example c113_ex_broken : let s := sys_run (ex_disk, launch [ex_bf; ex_entropy]) ex_broken in
  map (fun x => snd (fst x)) (saved [ex_bf; ex_entropy] ex_broken) = ["2024-02-28_0_0_0_0.001_simulation_classifying_entropy.pickle"; "2024-02-28_0_0_7_0.002_simulation_classifying_entropy.pickle"] /\
  content (fst s) (Results, "2024-02-28_0_0_7_0.002_simulation_classifying_entropy.pickle") = Some [Written 0 "2024-02-28_0_0_7_0.002_simulation_classifying_entropy.pickle"] /\
  content (fst s) (RunDir "t4", "t4_simulation_BF_comparison_entropy_decoder.xz") = None.
Proof. vm_compute. auto. Qed.

(** It is not so that the steps of runs of different timestamps are all kept: two scripts name their files alike, and a step of one replaces that of
    the other if both end in the same second at the same level, although nothing fails. *)
Theorem c113_lost_refuted : exists w rs sched r pl t s, ready w rs /\ NoDup (map r_stamp rs) /\ Forall (fun x => o_fail (snd x) = None) sched /\
  nth_error rs 0 = Some r /\ In (step_file r pl t s, 0) (saved rs sched) /\
  content (fst (sys_run (w, launch rs) sched)) (step_file r pl t s) = Some [Written 1 (snd (step_file r pl t s))].
Proof.
  exists ex_disk, [ex_bf; ex_entropy].
  exists (repeat (0, ex_fine) 7 ++ repeat (1, ex_fine) 7 ++ [(0, ex_done [(ex_step_time 5, "0.01")]); (1, ex_done [(ex_step_time 5, "0.01")])]).
  exists ex_bf, AtResults, [Hole "timestamp"; Lit "_"; Hole "p"; Lit "_simulation_classifying_entropy.pickle"], (ex_step_time 5, "0.01").
  split; [apply ex_two_ready|]. split; [apply ex_two_ready|]. split; [repeat constructor|]. split; [reflexivity|]. split; [left; reflexivity|]. vm_compute. reflexivity.
Qed.
Print Assumptions c113_lost_refuted.

(** The hypotheses of c113_kept and c113_names hold in the first case. *)
Example c113_ex_kept : ready ex_disk [ex_bf; ex_entropy] /\ NoDup (map r_stamp [ex_bf; ex_entropy]) /\
  (forall i o s, In (i, o) ex_broken -> In s (o_steps o) -> exists a, fst s = timestamp (2024, 2, 28)%N a) /\
  In (SPool (Some (AtResults, [Hole "timestamp"; Lit "_"; Hole "p"; Lit "_simulation_classifying_entropy.pickle"]))) (stmts (r_script ex_bf)) /\
  In (SPool (Some (AtResults, [Hole "timestamp"; Lit "_"; Hole "p"; Lit "_simulation_classifying_entropy.pickle"]))) (stmts (r_script ex_entropy)) /\
  existsb fails (own 0 (firstn 7 ex_broken)) = false /\ length (own 0 (firstn 7 ex_broken)) = 7.
Proof.
  split; [apply ex_two_ready|]. split; [apply ex_two_ready|]. split.
  - intros i o s I J. unfold ex_broken in I. apply in_app_or in I as [I|[I|[I|[]]]].
    + apply repeat_spec in I. injection I as -> ->. destruct J.
    + injection I as <- <-. destruct J as [<-|[<-|[]]]; eexists; reflexivity.
    + injection I as <- <-. destruct J.
  - split; [apply (nth_error_In (stmts (r_script ex_bf)) 7); reflexivity|]. split; [apply (nth_error_In (stmts (r_script ex_entropy)) 7); reflexivity|].
    vm_compute. auto.
Qed.
