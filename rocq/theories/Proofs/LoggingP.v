(** Lemmas on logging. *)
From Coq Require Import String.
From Coq Require Import List Arith ZArith Bool Lia.
From Verif.Model Require Import Py Logging.
From Verif.Spec Require Import LoggingSpec.
Import ListNotations.

Lemma name_eqb_spec a b : reflect (a = b) (name_eqb a b).
Proof. unfold name_eqb. destruct (list_eq_dec string_dec a b); constructor; assumption. Qed.
Lemma name_eqb_refl a : name_eqb a a = true.
Proof. destruct (name_eqb_spec a a); congruence. Qed.
Lemma aboveb_spec a n : aboveb a n = true <-> above a n.
Proof.
  unfold aboveb, above. destruct (name_eqb_spec a (firstn (length a) n)) as [E|E]; split; try discriminate; try reflexivity.
  - intros _. exists (skipn (length a) n). rewrite E at 1. symmetry. apply firstn_skipn.
  - intros (rest & ->). exfalso. apply E. rewrite firstn_app, Nat.sub_diag, firstn_all. cbn. symmetry. apply app_nil_r.
Qed.

Lemma get_put loggers n g a : get_logger (put_logger loggers n g) a = if name_eqb n a then g else get_logger loggers a.
Proof.
  unfold get_logger, put_logger. cbn [find fst snd]. destruct (name_eqb_spec n a) as [E|E]; [reflexivity|].
  induction loggers as [|[m x] l IH]; [reflexivity|]. cbn [filter fst]. destruct (name_eqb_spec m n) as [Em|Em]; cbn [negb find fst].
  - rewrite IH. destruct (name_eqb_spec m a); [congruence|reflexivity].
  - destruct (name_eqb_spec m a); [reflexivity|exact IH].
Qed.

Definition pair_of (f : string) : list target := [Stdout; File f].
Lemma known can_open h a : get_logger (w_loggers (process can_open h)) a = Logger (level_of h a) (flat_map pair_of (files_of can_open h a)).
Proof.
  induction h as [|e h IH] using rev_ind; [reflexivity|]. unfold process. rewrite fold_left_app. cbn [fold_left]. fold (process can_open h).
  unfold level_of, files_of. rewrite fold_left_app, flat_map_app. cbn [fold_left flat_map]. fold (level_of h a). fold (files_of can_open h a). destruct e as [n f l|n l t]; cbn [step].
  - unfold setup_logger. destruct (can_open f) eqn:O; cbn [fst w_loggers]; rewrite get_put; (destruct (name_eqb_spec n a) as [E|E]; cbn [andb]; [|rewrite !app_nil_r; exact IH]).
    + subst n. rewrite IH. cbn [g_handlers]. f_equal. rewrite flat_map_app. reflexivity.
    + subst n. rewrite IH. cbn [g_handlers]. rewrite !app_nil_r. reflexivity.
  - rewrite !app_nil_r. unfold log. destruct (_ <=? _)%Z; exact IH.
Qed.

Lemma ancestry_in : forall n a, In a (ancestry (rev n)) <-> above a n.
Proof.
  intros n. induction n as [|x n IH] using rev_ind; intros a.
  - cbn. split; [intros [<- |[]]; exists []; reflexivity|]. intros (rest & E). left. symmetry in E. apply app_eq_nil in E as [-> _]. reflexivity.
  - rewrite rev_app_distr. cbn [rev app]. change (ancestry (x :: rev n)) with (rev (x :: rev n) :: ancestry (rev n)). cbn [In rev]. rewrite rev_involutive, IH. split.
    + intros [<- |(rest & ->)]; [exists []; rewrite app_nil_r; reflexivity|]. exists (rest ++ [x]). rewrite app_assoc. reflexivity.
    + intros (rest & E). destruct rest as [|y rest _] using rev_ind; [left; rewrite app_nil_r in E; exact E|]. right. rewrite app_assoc in E. apply app_inj_tail in E as [-> _]. exists rest. reflexivity.
Qed.
(** From the longest to the root. *)
Lemma ancestry_shorter : forall n a, In a (ancestry n) -> length a <= length n.
Proof. induction n as [|x n IH]; intros a H; [destruct H as [<- |[]]; cbn; lia|]. destruct H as [<- |H]; [rewrite rev_length; lia|]. apply IH in H. cbn. lia. Qed.
Lemma ancestry_nodup n : NoDup (ancestry n).
Proof. induction n as [|x n IH]; [repeat constructor; intros []|]. cbn [ancestry]. constructor; [|exact IH]. intros H. apply ancestry_shorter in H. rewrite rev_length in H. cbn in H. lia. Qed.
Lemma effective loggers n : exists v, effective_level loggers (ancestry n) = v /\
  ((exists a, In a (ancestry n) /\ g_level (get_logger loggers a) = v /\ v <> 0%Z /\ forall b, In b (ancestry n) -> length a < length b -> g_level (get_logger loggers b) = 0%Z) \/
   (v = 0%Z /\ forall a, In a (ancestry n) -> g_level (get_logger loggers a) = 0%Z)).
Proof.
  exists (effective_level loggers (ancestry n)). split; [reflexivity|]. induction n as [|x n IH].
  - cbn [ancestry effective_level]. cbv zeta. destruct (Z.eqb_spec (g_level (get_logger loggers [])) 0) as [E|E].
    + right. split; [reflexivity|]. intros a [<- |[]]. exact E.
    + left. exists []. split; [left; reflexivity|]. split; [reflexivity|]. split; [exact E|]. intros b [<- |[]] H. cbn in H. lia.
  - cbn [ancestry effective_level]. cbv zeta. destruct (Z.eqb_spec (g_level (get_logger loggers (rev (x :: n)))) 0) as [E|E].
    + destruct IH as [(a & Ia & La & Nz & Sh)|[Z0 Al]].
      * left. exists a. split; [right; exact Ia|]. split; [exact La|]. split; [exact Nz|]. intros b [<- |Hb]; [intros _; exact E|apply Sh; exact Hb].
      * right. split; [exact Z0|]. intros a [<- |Ha]; [exact E|apply Al; exact Ha].
    + left. exists (rev (x :: n)). split; [left; reflexivity|]. split; [reflexivity|]. split; [exact E|]. intros b [<- |Hb] Hl; [lia|]. apply ancestry_shorter in Hb. rewrite rev_length in Hl. cbn in Hl. lia.
Qed.

(** Counting the setups of a list of names. *)
Lemma count_names (ok : string -> bool) h : forall l, NoDup l ->
  length (flat_map (fun a => filter ok (flat_map (fun e => match e with Setup n f _ => if name_eqb n a then [f] else [] | Log _ _ _ => [] end) h)) l) =
  length (filter (fun e => match e with Setup n f _ => existsb (name_eqb n) l && ok f | Log _ _ _ => false end) h).
Proof.
  intros l Nd. induction h as [|e h IH]; [cbn; clear; induction l; [reflexivity|exact IHl]|].
  assert (Q : forall m, length (flat_map (fun a => filter ok (flat_map (fun e => match e with Setup n f _ => if name_eqb n a then [f] else [] | Log _ _ _ => [] end) (e :: h))) m) =
    length (flat_map (fun a => filter ok (match e with Setup n f _ => if name_eqb n a then [f] else [] | Log _ _ _ => [] end)) m) +
    length (flat_map (fun a => filter ok (flat_map (fun e => match e with Setup n f _ => if name_eqb n a then [f] else [] | Log _ _ _ => [] end) h)) m)).
  { induction m as [|a m IHm]; [reflexivity|]. cbn [flat_map]. rewrite filter_app, !app_length. cbn [flat_map] in IHm. rewrite IHm. lia. }
  rewrite Q, IH. cbn [filter]. destruct e as [n f v|n v t].
  - assert (P : length (flat_map (fun a => filter ok (if name_eqb n a then [f] else [])) l) = if existsb (name_eqb n) l && ok f then 1 else 0).
    { clear Q IH. induction l as [|a l IHl]; [reflexivity|]. inversion Nd as [|? ? Na Nd']; subst. specialize (IHl Nd'). cbn [flat_map existsb]. rewrite app_length, IHl. destruct (name_eqb_spec n a) as [E|E]; cbn [orb filter length].
      - assert (X : existsb (name_eqb n) l = false). { apply not_true_is_false. intros K. apply existsb_exists in K as (b & Hb & Eb). destruct (name_eqb_spec n b); congruence. } rewrite X. cbn [andb]. destruct (ok f); cbn; lia.
      - reflexivity. }
    rewrite P. destruct (existsb (name_eqb n) l && ok f); cbn [length]; lia.
  - replace (flat_map (fun a => filter ok []) l) with (@nil string); [reflexivity|]. clear. induction l; [reflexivity|exact IHl].
Qed.
Lemma above_existsb n a : existsb (name_eqb a) (ancestry (rev n)) = aboveb a n.
Proof.
  destruct (aboveb a n) eqn:A.
  - apply aboveb_spec in A. apply ancestry_in in A. apply existsb_exists. exists a. split; [exact A|apply name_eqb_refl].
  - apply not_true_is_false. intros K. apply existsb_exists in K as (b & Hb & Eb). destruct (name_eqb_spec a b) as [E|E]; [|discriminate]. subst b. apply ancestry_in, aboveb_spec in Hb. congruence.
Qed.
Lemma files_filter can_open h a : files_of can_open h a = filter can_open (flat_map (fun e => match e with Setup n f _ => if name_eqb n a then [f] else [] | Log _ _ _ => [] end) h).
Proof.
  unfold files_of. induction h as [|e h IH]; [reflexivity|]. cbn [flat_map]. rewrite filter_app, <- IH. f_equal. destruct e as [n f v|n v t]; [|reflexivity]. destruct (name_eqb n a); cbn [andb filter]; reflexivity.
Qed.
Definition all_files can_open h n := flat_map (files_of can_open h) (ancestry (rev n)).
Lemma all_files_length can_open h n : length (all_files can_open h n) = setups can_open h n.
Proof.
  unfold all_files, setups. rewrite (flat_map_ext _ _ (files_filter can_open h)). rewrite count_names by apply ancestry_nodup. f_equal. apply filter_ext. intros [a f v|a v t]; [rewrite above_existsb; reflexivity|reflexivity].
Qed.
Lemma filter_flat_map {A B} (p : B -> bool) (f : A -> list B) l : filter p (flat_map f l) = flat_map (fun a => filter p (f a)) l.
Proof. induction l as [|x l IH]; [reflexivity|]. cbn [flat_map]. rewrite filter_app, IH. reflexivity. Qed.
Lemma all_files_with can_open h n f : length (filter (fun g => String.eqb g f) (all_files can_open h n)) = setups_with can_open h n f.
Proof.
  unfold all_files, setups_with. rewrite filter_flat_map.
  rewrite (flat_map_ext _ (fun a => filter (fun g => can_open g && String.eqb g f) (flat_map (fun e => match e with Setup n f _ => if name_eqb n a then [f] else [] | Log _ _ _ => [] end) h))).
  - rewrite count_names by apply ancestry_nodup. f_equal. apply filter_ext. intros [a g v|a v t]; [rewrite above_existsb, andb_assoc; reflexivity|reflexivity].
  - intros a. rewrite files_filter. generalize (flat_map (fun e => match e with Setup n f _ => if name_eqb n a then [f] else [] | Log _ _ _ => [] end) h). intros l. induction l as [|x l IH]; [reflexivity|]. cbn [filter]. destruct (can_open x); cbn [andb filter]; [|exact IH]. destruct (String.eqb x f); [f_equal|]; exact IH.
Qed.
Lemma reached_is can_open h n level : reached (w_loggers (process can_open h)) n level = match all_files can_open h n with [] => if (30 <=? level)%Z then [Stderr] else [] | _ => flat_map pair_of (all_files can_open h n) end.
Proof.
  unfold reached. rewrite (flat_map_ext _ (fun a => flat_map pair_of (files_of can_open h a))) by (intros a; rewrite known; reflexivity).
  assert (E : flat_map (fun a => flat_map pair_of (files_of can_open h a)) (ancestry (rev n)) = flat_map pair_of (all_files can_open h n)).
  { unfold all_files. induction (ancestry (rev n)) as [|a l IH]; [reflexivity|]. cbn [flat_map]. rewrite flat_map_app, IH. reflexivity. }
  rewrite E. destruct (all_files can_open h n); reflexivity.
Qed.
Lemma written_files l x f : map snd (filter (fun p => target_eqb (fst p) (File f)) (map (fun t => (t, x)) (flat_map pair_of l))) = repeat x (length (filter (fun g => String.eqb g f) l)) :> list line.
Proof. induction l as [|g l IH]; [reflexivity|]. cbn [flat_map pair_of app map filter fst target_eqb]. destruct (String.eqb g f); cbn [map snd length repeat]; [f_equal|]; exact IH. Qed.
Lemma written_stdout l x : map snd (filter (fun p => target_eqb (fst p) Stdout) (map (fun t => (t, x)) (flat_map pair_of l))) = repeat x (length l) :> list line.
Proof. induction l as [|g l IH]; [reflexivity|]. cbn [flat_map pair_of app map filter fst target_eqb]. cbn [map snd length repeat]. f_equal. exact IH. Qed.
Lemma written_stderr l x : map snd (filter (fun p => target_eqb (fst p) Stderr) (map (fun t => (t, x)) (flat_map pair_of l))) = [] :> list line.
Proof. induction l as [|g l IH]; [reflexivity|]. cbn [flat_map pair_of app map filter fst target_eqb]. exact IH. Qed.

(** The threshold. *)
Lemma threshold_is can_open h n : threshold h n (effective_level (w_loggers (process can_open h)) (ancestry (rev n))).
Proof.
  destruct (effective (w_loggers (process can_open h)) (rev n)) as (v & -> & [(a & Ia & La & Nz & Sh)|[Z0 Al]]).
  - left. exists a. split; [apply ancestry_in; exact Ia|]. rewrite known in La. split; [exact La|]. split; [exact Nz|]. intros b Hb Hl. apply ancestry_in in Hb. specialize (Sh b Hb Hl). rewrite known in Sh. exact Sh.
  - right. split; [exact Z0|]. intros a Ha. apply ancestry_in in Ha. specialize (Al a Ha). rewrite known in Al. exact Al.
Qed.
Lemma above_same a b n : above a n -> above b n -> length a = length b -> a = b.
Proof. intros (r & ->) (s & E) L. revert b s E L. induction a as [|x a IH]; intros [|y b] s E L; try discriminate; [reflexivity|]. cbn in E. injection E as <- E. f_equal. eapply IH; eauto. Qed.
Lemma threshold_unique h n v w : threshold h n v -> threshold h n w -> v = w.
Proof.
  intros [(a & Aa & Va & Na & Sa)|[Zv Av]] [(b & Ab & Vb & Nb & Sb)|[Zw Aw]].
  - destruct (Nat.lt_trichotomy (length a) (length b)) as [L|[L|L]].
    + exfalso. apply Nb. rewrite <- Vb. apply Sa; assumption.
    + rewrite (above_same a b n Aa Ab L) in Va. congruence.
    + exfalso. apply Na. rewrite <- Va. apply Sb; assumption.
  - exfalso. apply Na. rewrite <- Va. apply Aw. exact Aa.
  - exfalso. apply Nb. rewrite <- Vb. apply Av. exact Ab.
  - congruence.
Qed.
Lemma content_log can_open h n level text t v : threshold h n v ->
  content (process can_open (h ++ [Log n level text])) t = content (process can_open h) t ++
    if (v <=? level)%Z then map snd (filter (fun p => target_eqb (fst p) t) (map (fun t => (t, Line n level text)) (reached (w_loggers (process can_open h)) n level))) else [].
Proof.
  intros T. unfold process. rewrite fold_left_app. cbn [fold_left step]. fold (process can_open h). rewrite (threshold_unique _ _ _ _ T (threshold_is can_open h n)). unfold log. destruct (_ <=? _)%Z; [|rewrite app_nil_r; reflexivity].
  unfold content. cbn [w_written]. rewrite filter_app, map_app. reflexivity.
Qed.
