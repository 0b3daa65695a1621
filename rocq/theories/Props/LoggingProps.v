(** C101: where log messages go. *)
From Coq Require Import String.
From Coq Require Import List Arith ZArith Bool Lia.
From Verif.Model Require Import Py Logging.
From Verif.Spec Require Import LoggingSpec.
From Verif.Proofs Require Import LoggingP.
Import ListNotations.

(** After any calls there is exactly one threshold for each name. *)
Theorem c101_threshold : forall h n, exists v, threshold h n v /\ forall w, threshold h n w -> w = v.
Proof. intros h n. eexists. split; [exact (threshold_is (fun _ => true) h n)|]. intros w T. eapply threshold_unique; [exact T|apply threshold_is]. Qed.
Print Assumptions c101_threshold.

(** A message of at least that level is written to a file as often as the logger or one above it was set up with this file, to the console as often as
    these were set up at all; if never, to the standard error stream, if it is a warning at least.  A message below the level is written nowhere. *)
Theorem c101_message : forall can_open h n level text v, threshold h n v ->
  let w := process can_open h in let w' := process can_open (h ++ [Log n level text]) in let x := Line n level text in
  (forall f, content w' (File f) = content w (File f) ++ repeat x (if (v <=? level)%Z then setups_with can_open h n f else 0)) /\
  content w' Stdout = content w Stdout ++ repeat x (if (v <=? level)%Z then setups can_open h n else 0) /\
  content w' Stderr = content w Stderr ++ repeat x (if (v <=? level)%Z && (30 <=? level)%Z && Nat.eqb (setups can_open h n) 0 then 1 else 0).
Proof.
  intros can_open h n level text v T. cbv zeta. split; [intros f|split]; rewrite (content_log _ _ _ _ _ _ _ T); f_equal; (destruct (v <=? level)%Z; [|reflexivity]); rewrite reached_is; rewrite <- ?(all_files_with can_open h n), <- ?(all_files_length can_open h n).
  - destruct (all_files can_open h n) as [|g l] eqn:E; [destruct (30 <=? level)%Z; reflexivity|]. rewrite written_files. reflexivity.
  - destruct (all_files can_open h n) as [|g l] eqn:E; [destruct (30 <=? level)%Z; reflexivity|]. rewrite written_stdout. reflexivity.
  - destruct (all_files can_open h n) as [|g l] eqn:E; [destruct (30 <=? level)%Z; reflexivity|]. rewrite written_stderr. cbn [length Nat.eqb]. rewrite andb_false_r. reflexivity.
Qed.
Print Assumptions c101_message.

(** Setting up writes nothing, and a logger is returned exactly if the file can be opened. *)
Theorem c101_setup : forall can_open h n f level t,
  content (process can_open (h ++ [Setup n f level])) t = content (process can_open h) t /\ snd (setup_logger can_open (process can_open h) n f level) = can_open f.
Proof.
  intros can_open h n f level t. unfold process. rewrite fold_left_app. cbn [fold_left step]. fold (process can_open h). unfold setup_logger. destruct (can_open f); split; reflexivity.
Qed.
Print Assumptions c101_setup.

(** What has been written stays as it is. *)
Theorem c101_append : forall can_open h h' t, exists more, content (process can_open (h ++ h')) t = content (process can_open h) t ++ more.
Proof.
  intros can_open h h' t. induction h' as [|e h' IH] using rev_ind; [exists []; rewrite !app_nil_r; reflexivity|]. destruct IH as (more & IH). rewrite app_assoc. destruct e as [n f l|n l x].
  - exists more. destruct (c101_setup can_open (h ++ h') n f l t) as [-> _]. exact IH.
  - eexists. rewrite (content_log _ _ _ _ _ _ _ (threshold_is can_open (h ++ h') n)), IH, <- app_assoc. reflexivity.
Qed.
Print Assumptions c101_append.

Lemma setups_app can_open h h' n : setups can_open (h ++ h') n = setups can_open h n + setups can_open h' n.
Proof. unfold setups. rewrite filter_app, app_length. reflexivity. Qed.
Lemma level_of_app h h' a : level_of (h ++ h') a = fold_left (fun v e => match e with Setup n _ l => if name_eqb n a then l else v | Log _ _ _ => v end) h' (level_of h a).
Proof. unfold level_of. apply fold_left_app. Qed.
Lemma own_level h n v : level_of h n = v -> v <> 0%Z -> threshold h n v.
Proof. intros E Nz. left. exists n. split; [exists []; symmetry; apply app_nil_r|]. split; [exact E|]. split; [exact Nz|]. intros b (r & ->) L. rewrite app_length in L. lia. Qed.

(** Calling setup_logger [k] times in a fresh process makes each message appear [k] times. *)
Theorem c101_repeated : forall can_open n f l k level text, can_open f = true -> l <> 0%Z -> (l <= level)%Z -> 0 < k ->
  let w := process can_open (repeat (Setup n f l) k ++ [Log n level text]) in
  content w (File f) = repeat (Line n level text) k /\ content w Stdout = repeat (Line n level text) k.
Proof.
  intros can_open n f l k level text O Nz Hl Hk. cbv zeta.
  assert (Lv : level_of (repeat (Setup n f l) k) n = l).
  { unfold level_of. destruct k as [|k]; [lia|]. clear Hk. cbn [repeat fold_left]. rewrite name_eqb_refl. induction k as [|k IH]; [reflexivity|]. cbn [repeat fold_left]. rewrite name_eqb_refl. exact IH. }
  assert (Ab : aboveb n n = true) by (apply aboveb_spec; exists []; symmetry; apply app_nil_r).
  assert (S1 : setups can_open (repeat (Setup n f l) k) n = k). { unfold setups. clear Hk Lv. induction k as [|k IH]; [reflexivity|]. cbn [repeat filter]. rewrite Ab, O. cbn [andb length]. f_equal. exact IH. }
  assert (S2 : setups_with can_open (repeat (Setup n f l) k) n f = k). { unfold setups_with. clear Hk Lv S1. induction k as [|k IH]; [reflexivity|]. cbn [repeat filter]. rewrite Ab, O, String.eqb_refl. cbn [andb length]. f_equal. exact IH. }
  assert (Em : forall t, content (process can_open (repeat (Setup n f l) k)) t = []).
  { intros t. clear Hk Lv S1 S2. induction k as [|k IH]; [reflexivity|]. replace (repeat (Setup n f l) (S k)) with (repeat (Setup n f l) k ++ [Setup n f l]) by (clear; induction k as [|k IH]; [reflexivity|cbn [repeat app]; f_equal; exact IH]). destruct (c101_setup can_open (repeat (Setup n f l) k) n f l t) as [-> _]. exact IH. }
  destruct (c101_message can_open (repeat (Setup n f l) k) n level text l (own_level _ _ _ Lv Nz)) as (A & B & _). rewrite A, B, !Em, S1, S2. rewrite (proj2 (Z.leb_le _ _) Hl). split; reflexivity.
Qed.
Print Assumptions c101_repeated.

(** The level of the last call holds for all the files, those of the calls before too. *)
Theorem c101_last_level : forall can_open h n f l level text g, l <> 0%Z -> let h' := h ++ [Setup n f l] in
  content (process can_open (h' ++ [Log n level text])) (File g) = content (process can_open h') (File g) ++ repeat (Line n level text) (if (l <=? level)%Z then setups_with can_open h' n g else 0).
Proof.
  intros can_open h n f l level text g Nz h'. assert (T : threshold h' n l). { apply own_level; [|exact Nz]. unfold h'. rewrite level_of_app. cbn [fold_left]. rewrite name_eqb_refl. reflexivity. }
  destruct (c101_message can_open h' n level text l T) as (A & _). apply A.
Qed.
Print Assumptions c101_last_level.

(** A call that cannot open its file changes the level all the same, but adds no place to write to. *)
Theorem c101_failed : forall can_open h n f l, can_open f = false -> let h' := h ++ [Setup n f l] in
  level_of h' n = l /\ (forall a, a <> n -> level_of h' a = level_of h a) /\ (forall m, setups can_open h' m = setups can_open h m) /\ (forall m g, setups_with can_open h' m g = setups_with can_open h m g).
Proof.
  intros can_open h n f l O h'. unfold h'. split; [rewrite level_of_app; cbn [fold_left]; rewrite name_eqb_refl; reflexivity|]. split; [|split].
  - intros a Na. rewrite level_of_app. cbn [fold_left]. destruct (name_eqb_spec n a); [congruence|reflexivity].
  - intros m. rewrite setups_app. unfold setups at 2. cbn [filter]. rewrite O, andb_false_r. cbn. lia.
  - intros m g. unfold setups_with. rewrite filter_app, app_length. cbn [filter]. rewrite O, andb_false_r. cbn. lia.
Qed.
Print Assumptions c101_failed.

(** Two runs in one process with the same logger, and a logger whose name extends another one's. *)
Local Open Scope string_scope.
Example c101_ex_twice : content (process (fun _ => true) [Setup ["/x/run"; "py"] "a.log" 20; Log ["/x/run"; "py"] 20 "one"; Setup ["/x/run"; "py"] "b.log" 30; Log ["/x/run"; "py"] 20 "two"; Log ["/x/run"; "py"] 30 "three"]) (File "a.log") =
  [Line ["/x/run"; "py"] 20 "one"; Line ["/x/run"; "py"] 30 "three"].
Proof. vm_compute. reflexivity. Qed.
Example c101_ex_child : content (process (fun _ => true) [Setup ["utils"] "a.log" 20; Setup ["utils"; "common_logging"] "a.log" 20; Log ["utils"; "common_logging"] 20 "m"]) (File "a.log") =
  [Line ["utils"; "common_logging"] 20 "m"; Line ["utils"; "common_logging"] 20 "m"].
Proof. vm_compute. reflexivity. Qed.
Example c101_ex_failed : map (content (process (fun _ => false) [Setup ["run"] "none/a.log" 20; Log ["run"] 20 "m"; Log ["run"] 40 "e"])) [Stdout; Stderr; File "none/a.log"] = [[]; [Line ["run"] 40 "e"]; []].
Proof. vm_compute. reflexivity. Qed.
Example c101_ex_threshold : threshold [Setup ["run"] "a.log" 20] ["run"; "part"] 20.
Proof. left. exists ["run"]. split; [exists ["part"]; reflexivity|]. split; [reflexivity|]. split; [discriminate|]. intros b (r & E) L. destruct b as [|x [|y b]]; cbn in L; try lia. injection E as Ex Ey E. rewrite <- Ex, <- Ey. destruct b; [reflexivity|discriminate]. Qed.
