(** What is in the files of steps. *)
From Coq Require Import String Ascii List Bool Arith Lia.
From Verif Require Import Model.Py Model.Saving Model.SaveTable Model.Timestamp Spec.SavingSpec Spec.StepSpec Spec.TimestampSpec
  Proofs.SavingNames Proofs.SavingWorld Proofs.SavingFrame Proofs.SavingResults Proofs.SavingFates Proofs.TimestampP.
Import ListNotations.
Local Open Scope list_scope.

Definition last_of (q : path) (l : list (path * nat)) (old : option (list item)) : option (list item) :=
  fold_left (fun a x => if path_eqb (fst x) q then Some [Written (snd x) (snd q)] else a) l old.

Lemma last_split : forall q a i b old, ~ In q (map fst b) -> last_of q (a ++ (q, i) :: b) old = Some [Written i (snd q)].
Proof.
  intros q a i b old N. unfold last_of. rewrite fold_left_app. cbn [fold_left fst snd]. rewrite path_eqb_refl. generalize (Some [Written i (snd q)]).
  induction b as [|x b IH]; intros v; [reflexivity|]. cbn [fold_left]. destruct (path_eqb (fst x) q) eqn:E.
  - apply path_eqb_eq in E. exfalso. apply N. left. exact E.
  - apply IH. intros I. apply N. right. exact I.
Qed.
Lemma last_none : forall q l old, ~ In q (map fst l) -> last_of q l old = old.
Proof.
  intros q l. induction l as [|x l IH]; intros old N; [reflexivity|]. unfold last_of. cbn [fold_left]. destruct (path_eqb (fst x) q) eqn:E.
  - apply path_eqb_eq in E. exfalso. apply N. left. exact E.
  - apply IH. intros I. apply N. right. exact I.
Qed.

Definition outside (q : path) : Prop := (fst q = Cwd \/ fst q = Results) /\ snd q <> logname.

Lemma steps_content : forall i stamp args pl t l w q, sane w ->
  content (write_steps i stamp args (Some (pl, t)) l w) q =
  last_of q (map (fun s => ((dir_of stamp pl, render (step_env args s) t), i)) l) (content w q).
Proof.
  intros i stamp args pl t l. unfold write_steps, last_of. induction l as [|s l IH]; intros w q S; [reflexivity|].
  cbn [fold_left map fst snd]. rewrite IH by (apply write_sane; exact S). rewrite (write_content _ _ _ _ S).
  destruct (path_eqb _ q) eqn:E; [|reflexivity]. apply path_eqb_eq in E. subst q. reflexivity.
Qed.

Lemma exec_outside : forall i p o s w w' h e q, sane w -> outside q -> exec_stmt i p o s w = (w', h, e) ->
  content w' q = match s with
                 | SPool (Some (pl, t)) => last_of q (map (fun s => ((dir_of (p_stamp p) pl, render (step_env (p_args p) s) t), i)) (o_steps o)) (content w q)
                 | _ => content w q
                 end.
Proof.
  intros i p o s w w' h e q S [D N] E. unfold exec_stmt in E. cbv zeta in E.
  assert (R : forall t n, path_eqb (RunDir t, n) q = false).
  { intros t n. apply path_eqb_neq. intros <-. cbn in D. destruct D; discriminate. }
  destruct s as [pl| |t|t|step| |].
  - destruct (o_fail o); [injection E as <- <- <-; reflexivity|]. destruct (w_dirs w _); [|injection E as <- <- <-; reflexivity].
    destruct (open_file _ w) as [w1 j] eqn:F. injection E as <- <- <-. rewrite (open_content _ _ _ _ _ S F).
    destruct (path_eqb _ _) eqn:PQ; [|reflexivity]. apply path_eqb_eq in PQ. exfalso. apply N. rewrite <- PQ. reflexivity.
  - destruct (o_fail o); [injection E as <- <- <-; reflexivity|]. destruct (w_dirs w _); [injection E as <- <- <-; reflexivity|].
    destruct (w_dirs w Results); injection E as <- <- <-; reflexivity.
  - destruct (o_fail o); [injection E as <- <- <-; reflexivity|]. destruct (w_dirs w _); [injection E as <- <- <-; reflexivity|].
    destruct (w_dirs w _); injection E as <- <- <-; reflexivity.
  - assert (X : forall n l, content (write_file (RunDir (p_stamp p), n) l w) q = content w q) by (intros; rewrite (write_content _ _ _ _ S), R; reflexivity).
    destruct (o_fail o); [destruct (o_torn o)|]; try (destruct (w_dirs w _)); injection E as <- <- <-; rewrite ?X; reflexivity.
  - injection E as <- <- <-. destruct step as [[pl t]|]; [|reflexivity]. apply steps_content. exact S.
  - destruct (o_fail o); [injection E as <- <- <-; reflexivity|].
    change (Results, "log.log"%string) with slog in E. destruct (w_files w slog) as [j|]; [|injection E as <- <- <-; reflexivity].
    destruct (w_dirs w _); injection E as <- <- <-; [|reflexivity]. apply (move_content (p_stamp p) j w). exact N.
  - injection E as <- <- <-. reflexivity.
Qed.

Lemma firstn_snoc : forall {A} (l : list A) x k, k <= length l -> firstn k (l ++ [x]) = firstn k l.
Proof. intros A l x k L. rewrite firstn_app. replace (k - length l) with 0 by lia. cbn. apply app_nil_r. Qed.

Lemma saved_snoc : forall rs l i o, saved rs (l ++ [(i, o)]) = saved rs l ++
  match nth_error rs i with
  | None => []
  | Some r => if existsb fails (own i l) then [] else
      match nth_error (stmts (r_script r)) (length (own i l)) with
      | Some (SPool (Some (pl, t))) => map (fun s => (step_file r pl t s, i)) (o_steps o)
      | _ => []
      end
  end.
Proof.
  intros rs l i o. unfold saved. rewrite app_length. cbn [length]. rewrite Nat.add_1_r, seq_S, flat_map_app. cbn [Nat.add flat_map]. rewrite app_nil_r. f_equal.
  - rewrite !flat_map_concat_map. f_equal. apply map_ext_in. intros k I. apply in_seq in I. unfold saved_at. rewrite nth_error_app1 by lia. rewrite firstn_snoc by lia. reflexivity.
  - unfold saved_at. rewrite nth_error_app2, Nat.sub_diag by lia. cbn [nth_error]. rewrite firstn_snoc, firstn_all by lia. reflexivity.
Qed.

Lemma steps_anywhere : forall w rs, ready w rs -> NoDup (map r_stamp rs) -> forall q, outside q -> forall sched,
  content (fst (sys_run (w, launch rs) sched)) q = last_of q (saved rs sched) (content w q).
Proof.
  intros w rs (S & NB & T & U) ND q Q sched. induction sched as [|[i o] l IH] using rev_ind; [reflexivity|].
  rewrite sys_run_app, saved_snoc. unfold last_of. rewrite fold_left_app. fold (last_of q (saved rs l) (content w q)). rewrite <- IH.
  destruct (sys_ind rs w PR S T ND) with (sched := l) as (S1 & L1 & H).
  { intros k r' K. apply PR_init; [rewrite Forall_forall in T; exact (T _ (nth_error_In _ _ K))|rewrite Forall_forall in U; exact (U _ (nth_error_In _ _ K))]. }
  { intros k r' outs w1 p o1 w2 p' _ S1 K1 P1 E1. exact (PR_own _ _ _ _ _ _ _ _ S1 K1 P1 E1). }
  { intros k r' outs w1 p k2 r2 w2 _ _ _ N _ _ P1 F _. exact (PR_frame _ _ _ _ _ _ _ _ N P1 F). }
  destruct (sys_run (w, launch rs) l) as [w1 ps]. cbn [fst snd] in *. unfold sys_step. cbn [fst snd].
  destruct (nth_error ps i) as [p|] eqn:P.
  - assert (IL : i < length rs) by (rewrite <- L1; apply nth_error_Some; congruence).
    destruct (nth_error rs i) as [r|] eqn:R; [|apply nth_error_None in R; lia].
    destruct (H _ _ R) as (p2 & E2 & KP & (TT & A & _)). assert (p2 = p) by congruence. subst p2. clear E2 H.
    destruct (step_proc i o w1 p) as [w' p'] eqn:E. cbn [fst]. pose proof KP as (K1 & K2 & K3 & K4 & K5).
    assert (SC : content (said w1 (p_handle p) (map (Line i) (o_lines o))) q = content w1 q) by (apply said_content; [exact K5|exact (proj2 Q)]).
    assert (SS := said_sane w1 (p_handle p) (map (Line i) (o_lines o)) S1).
    destruct A as [A|[F A]].
    + destruct (active_next _ _ _ _ TT A) as (g & s & E1 & E2 & ST & _). destruct A as (A1 & _). rewrite A1, E2.
      destruct (step_running _ _ _ _ _ _ _ _ _ ST E) as (w2 & h & e & X & RR).
      assert (OK : stmt_ok s) by (pose proof (stmts_ok _ TT) as Z; rewrite Forall_forall in Z; exact (Z _ (nth_error_In _ _ E2))).
      pose proof (exec_outside _ _ _ _ _ _ _ _ q SS Q X) as C. rewrite SC in C.
      assert (C' : content w' q = content w2 q).
      { destruct e as [e|]; [destruct (g && catchable e)|]; destruct RR as [-> _]; try reflexivity. apply said_content; [|exact (proj2 Q)].
        intros j J. destruct (exec_quiet _ _ _ _ _ _ _ _ SS OK X) as [Z _]. apply (q_loggy _ _ _ Z). apply said_loggy. exact (K5 _ J). }
      rewrite C', C. destruct s as [| | | |[[pl t]|]| |]; try reflexivity. cbn [spoken p_stamp p_args]. rewrite K1, K2. reflexivity.
    + assert (NO : (if existsb fails (own i l) then [] else
                      match nth_error (stmts (r_script r)) (length (own i l)) with
                      | Some (SPool (Some (pl, t))) => map (fun s => (step_file r pl t s, i)) (o_steps o)
                      | _ => [] end) = []).
      { destruct F as [->|F]; [reflexivity|]. destruct (existsb fails (own i l)); [reflexivity|]. apply nth_error_None in F. rewrite F. reflexivity. }
      rewrite NO. cbn [fold_left].
      destruct A as [A|[A|(l' & e & A & M)]]; [destruct (step_over _ _ _ _ _ _ (or_introl A) E) as [-> _]; reflexivity|destruct (step_over _ _ _ _ _ _ (or_intror A) E) as [-> _]; reflexivity|].
      destruct l' as [|s l']; [unfold step_proc in E; rewrite A in E; injection E as <- _; reflexivity|].
      inversion M as [|x y M1 M2]. subst x y s. destruct (step_handling _ _ _ _ _ _ _ _ _ A E) as (h & e' & X & _).
      rewrite (exec_outside _ _ _ _ _ _ _ _ q SS Q X). exact SC.
  - apply nth_error_None in P. rewrite L1 in P. apply nth_error_None in P. rewrite P. reflexivity.
Qed.

(** ** Names of the files of steps *)
Definition step_form (t : template) : bool :=
  match t with
  | [Hole a; Lit b; Hole c; Lit d] => String.eqb a "timestamp" && String.eqb b "_" && (String.eqb c "p" || String.eqb c "snr")
  | _ => false
  end.
Definition same_template (s t : template) : bool :=
  match s, t with
  | [_; _; Hole c; Lit d], [_; _; Hole c'; Lit d'] => (String.eqb c c' && String.eqb d d') || tails_differ s t
  | _, _ => false
  end.
Definition step_templates : list template :=
  flat_map (fun x => flat_map (fun s => match s with SPool (Some (_, t)) => [t] | _ => [] end) (stmts (snd x))) saving_scripts.
Lemma step_templates_ok : (forallb step_form step_templates && forallb (fun s => forallb (same_template s) step_templates) step_templates)%bool = true.
Proof. vm_compute. reflexivity. Qed.
Lemma step_template_in : forall sc pl t, in_table sc -> In (SPool (Some (pl, t))) (stmts sc) -> In t step_templates.
Proof.
  intros sc pl t [n I] J. unfold step_templates. apply in_flat_map. exists (n, sc). split; [exact I|]. apply in_flat_map. exists (SPool (Some (pl, t))). split; [exact J|left; reflexivity].
Qed.

Lemma stamp_cut : forall start a b x y, (chars (timestamp start a) ++ "_"%char :: x = chars (timestamp start b) ++ "_"%char :: y) ->
  timestamp start a = timestamp start b /\ x = y.
Proof.
  intros start a b x y E. unfold timestamp in *. rewrite !TimestampP.chars_app in E. cbn [list_ascii_of_string app] in E. rewrite <- !app_assoc in E. cbn [app] in E. rewrite <- !app_assoc in E. cbn [app] in E. rewrite <- !app_assoc in E.
  apply cut_at in E as [E1 E]; try apply show_date_plain. apply cut_at in E as [E2 E]; try apply dec_plain. apply cut_at in E as [E3 E]; try apply dec_plain.
  apply cut_at in E as [E4 E]; try apply dec_plain.
  apply TimestampP.chars_inj in E1, E2, E3, E4. rewrite E1, E2, E3, E4. auto.
Qed.

Lemma step_names : forall start sc sc' pl pl' t t' args args' a b p q, in_table sc -> in_table sc' ->
  In (SPool (Some (pl, t))) (stmts sc) -> In (SPool (Some (pl', t'))) (stmts sc') ->
  (render (step_env args (timestamp start a, p)) t = render (step_env args' (timestamp start b, q)) t' <-> t = t' /\ timestamp start a = timestamp start b /\ p = q).
Proof.
  intros start sc sc' pl pl' t t' args args' a b p q T T' I I'. pose proof step_templates_ok as K. apply andb_true_iff in K as [K1 K2].
  rewrite forallb_forall in K1, K2. pose proof (step_template_in _ _ _ T I) as J. pose proof (step_template_in _ _ _ T' I') as J'.
  specialize (K2 _ J). rewrite forallb_forall in K2. specialize (K2 _ J'). pose proof (K1 _ J) as F. pose proof (K1 _ J') as F'. clear K1 J J'.
  assert (G : forall t, step_form t = true -> exists c d, t = [Hole "timestamp"; Lit "_"; Hole c; Lit d] /\ (c = "p"%string \/ c = "snr"%string)).
  { clear. intros t H. destruct t as [|[x|x] [|[y|y] [|[z|z] [|[u|u] [|]]]]]; try discriminate H. cbn in H. rewrite !andb_true_iff, orb_true_iff, !String.eqb_eq in H.
    destruct H as [[-> ->] H]. eauto. }
  destruct (G _ F) as (c & d & -> & Hc). destruct (G _ F') as (c' & d' & -> & Hc'). clear G F F'.
  assert (R : forall ar s c d, c = "p"%string \/ c = "snr"%string -> chars (render (step_env ar s) [Hole "timestamp"; Lit "_"; Hole c; Lit d]) = chars (fst s) ++ "_"%char :: chars (snd s) ++ chars d).
  { intros ar s u v Hu. rewrite chars_render. cbn [map concat chars_piece]. rewrite app_nil_r. destruct Hu as [-> | ->]; reflexivity. }
  split.
  - intros E. apply (f_equal chars) in E. rewrite !R in E by assumption. cbn [fst snd] in E. apply stamp_cut in E as [E1 E2].
    cbn [same_template] in K2. apply orb_true_iff in K2 as [K2|K2].
    + apply andb_true_iff in K2 as [C D]. apply String.eqb_eq in C, D. subst c' d'. apply app_inv_tail in E2. apply TimestampP.chars_inj in E2. auto.
    + exfalso. unfold tails_differ in K2. cbn [rev app] in K2. apply (f_equal (@rev _)) in E2. rewrite !rev_app_distr in E2. exact (differ_sound _ _ _ _ K2 E2).
  - intros (E1 & E2 & ->). injection E1 as -> ->. apply TimestampP.chars_inj. rewrite !R by assumption. cbn [fst snd]. rewrite E2. reflexivity.
Qed.

Definition step_places : list place :=
  flat_map (fun x => flat_map (fun s => match s with SPool (Some (pl, _)) => [pl] | _ => [] end) (stmts (snd x))) saving_scripts.
Lemma step_place : forall sc pl t, in_table sc -> In (SPool (Some (pl, t))) (stmts sc) -> pl = AtCwd \/ pl = AtResults.
Proof.
  intros sc pl t [n I] J.
  assert (K : forallb (fun x => match x with AtRun => false | _ => true end) step_places = true) by (vm_compute; reflexivity).
  rewrite forallb_forall in K. specialize (K pl). destruct pl; auto. enough (false = true) by discriminate. apply K.
  apply in_flat_map. exists (n, sc). split; [exact I|]. apply in_flat_map. exists (SPool (Some (AtRun, t))). split; [exact J|left; reflexivity].
Qed.

Lemma step_not_log : forall start sc pl t args a p, in_table sc -> In (SPool (Some (pl, t))) (stmts sc) ->
  render (step_env args (timestamp start a, p)) t <> logname.
Proof.
  intros start sc pl t args a p T I E. pose proof (step_template_in _ _ _ T I) as J.
  assert (K : forallb (fun t => tails_differ t [Lit logname]) step_templates = true) by (vm_compute; reflexivity).
  rewrite forallb_forall in K. specialize (K _ J). apply (apart_sound t [Lit logname]) with (e := step_env args (timestamp start a, p)) (f := fun v => v).
  - unfold apart. rewrite K. apply orb_true_r.
  - rewrite E. reflexivity.
Qed.
