(** The results of a run among any others. *)
From Coq Require Import String List Bool Arith Lia.
From Verif Require Import Model.Py Model.Saving Model.SaveTable Spec.SavingSpec Proofs.SavingNames Proofs.SavingWorld Proofs.SavingFrame.
Import ListNotations.
Local Open Scope list_scope.

(** ** The checks on the table, as facts. *)
Lemma stmts_ok : forall sc, in_table sc -> Forall stmt_ok (stmts sc).
Proof.
  intros sc T. apply in_table_check in T. unfold check in T. rewrite !andb_true_iff in T. destruct T as [[[[[A B] _] _] _] _].
  apply Forall_forall. intros s I. destruct s as [pl| |n|n|[[pl n]|]| |]; cbn; auto.
  - intros e E. pose proof (all_apart_sound _ A e) as N. inversion N as [|x l N1 N2]. subst x l. apply N1.
    change "log.log"%string with logname. rewrite <- E. apply in_map.
    clear -I. induction (stmts sc) as [|s l IH]; [contradiction|]. destruct I as [->|I]; [left; reflexivity|].
    destruct s; cbn; auto.
  - unfold steps_apart in B. rewrite forallb_forall in B. specialize (B _ I). cbn in B. destruct pl; try discriminate B.
    + split; [discriminate|]. intros e. exact (apart_sound _ _ B e e).
    + split; [discriminate|]. intros e. exact (apart_sound _ _ B e e).
Qed.

Definition handler_of (sc : script) : list stmt := match sc_handler sc with Some l => l | None => [] end.

Lemma handler_moves : forall sc, in_table sc -> Forall (fun s => s = SMove) (handler_of sc).
Proof.
  intros sc T. apply in_table_check in T. unfold check in T. rewrite !andb_true_iff in T. destruct T as [[[_ B] _] _].
  unfold handler_of. destruct (existsb is_open_results (stmts sc)), (sc_handler sc) as [[|[] [|]]|]; try discriminate B; auto.
Qed.

Lemma moves_ok : forall l, Forall (fun s => s = SMove) l -> Forall stmt_ok l.
Proof. intros l F. eapply Forall_impl; [|exact F]. intros s ->. exact Logic.I. Qed.

Lemma table_order : forall sc, in_table sc -> in_order false false false (stmts sc) = true.
Proof. intros sc T. apply in_table_check in T. unfold check in T. rewrite !andb_true_iff in T. tauto. Qed.

Definition is_sub (s : stmt) : bool := match s with SMkdirIn _ => true | _ => false end.
Definition is_open (s : stmt) : bool := match s with SOpenLog _ => true | _ => false end.

Lemma order_at : forall l1 s l2 m u op, in_order m u op (l1 ++ s :: l2) = true ->
  Forall (fun x => x <> SMove) l1 /\
  match s with
  | SMkdir => m || existsb is_mkdir l1 = false
  | SMkdirIn _ => m || existsb is_mkdir l1 = true /\ u || existsb is_sub l1 = false
  | SWrite _ => m || existsb is_mkdir l1 = true
  | SOpenLog pl => op || existsb is_open l1 = false /\ pl <> AtCwd /\ (pl = AtRun -> m || existsb is_mkdir l1 = true)
  | SMove => l2 = [] /\ m || existsb is_mkdir l1 = true /\ op || existsb is_open l1 = true
  | _ => True
  end.
Proof.
  induction l1 as [|x l1 IH]; intros s l2 m u op H.
  - split; [constructor|]. rewrite app_nil_l in H. cbn [existsb]. rewrite !orb_false_r.
    destruct s as [[]| | | | | |]; cbn [in_order] in H; rewrite ?andb_true_iff, ?negb_true_iff in H; auto; try discriminate H.
    + destruct H. split; [tauto|]. split; [discriminate|discriminate].
    + destruct H as [[A B] _]. split; [exact B|]. split; [discriminate|auto].
    + tauto.
    + tauto.
    + tauto.
    + destruct l2; [tauto|]. destruct H as [_ H]. discriminate H.
  - assert (G : x <> SMove /\ in_order (m || is_mkdir x) (u || is_sub x) (op || is_open x) (l1 ++ s :: l2) = true).
    { destruct x as [[]| | | | | |]; cbn [in_order app is_mkdir is_sub is_open] in H |- *;
        rewrite ?andb_true_iff, ?negb_true_iff, ?orb_false_r, ?orb_true_r in *; try (split; [discriminate|]); try tauto; try discriminate H.
      destruct H as [_ H]. destruct l1; discriminate H. }
    destruct G as [N G]. destruct (IH _ _ _ _ _ G) as [F K]. split; [constructor; auto|].
    cbn [existsb]. rewrite !orb_assoc. exact K.
Qed.

Lemma table_at : forall sc j s, in_table sc -> nth_error (stmts sc) j = Some s ->
  let l1 := firstn j (stmts sc) in
  match s with
  | SMkdir => existsb is_mkdir l1 = false
  | SMkdirIn _ => existsb is_mkdir l1 = true /\ existsb is_sub l1 = false
  | SWrite _ => existsb is_mkdir l1 = true
  | SOpenLog pl => existsb is_open l1 = false /\ pl <> AtCwd /\ (pl = AtRun -> existsb is_mkdir l1 = true)
  | SMove => S j = length (stmts sc) /\ existsb is_mkdir l1 = true /\ existsb is_open l1 = true
  | _ => True
  end.
Proof.
  intros sc j s T E l1. pose proof (table_order _ T) as O. destruct (nth_error_split _ _ E) as (a & b & Q & L).
  assert (l1 = a). { unfold l1. rewrite Q, <- L, firstn_app, firstn_all, Nat.sub_diag. cbn. apply app_nil_r. }
  rewrite Q in O. destruct (order_at _ _ _ _ _ _ O) as [_ K]. rewrite H. destruct s; try exact K.
  destruct K as (-> & K). split; [|exact K]. rewrite Q, app_length. cbn. lia.
Qed.

Lemma names_differ : forall sc e j k s t, in_table sc ->
  nth_error (stmts sc) j = Some (SWrite s) -> nth_error (stmts sc) k = Some (SWrite t) -> render e s = render e t -> j = k.
Proof.
  intros sc e j k s t T. apply in_table_check in T. unfold check in T. rewrite !andb_true_iff in T. destruct T as [[[[[A _] _] _] _] _].
  pose proof (all_apart_sound _ A e) as N. inversion N as [|x l _ N2]. subst x l. clear N A. revert j k.
  induction (stmts sc) as [|x l IH]; intros j k J K E; [destruct j; discriminate J|].
  assert (M : forall i u, nth_error l i = Some (SWrite u) -> In (render e u) (map (render e) (names_in l))).
  { intros i u I. apply in_map. apply nth_error_In in I. clear -I. induction l as [|y l IH]; [contradiction|].
    destruct I as [->|I]; [left; reflexivity|]. destruct y; cbn; auto. }
  assert (N3 : NoDup (map (render e) (names_in l))) by (destruct x; cbn in N2; try exact N2; inversion N2; assumption).
  destruct j as [|j], k as [|k]; cbn in J, K; [reflexivity| | |f_equal; eapply IH; eauto].
  - injection J as ->. cbn in N2. inversion N2 as [|? ? N4 _]. destruct N4. rewrite E. eauto.
  - injection K as ->. cbn in N2. inversion N2 as [|? ? N4 _]. destruct N4. rewrite <- E. eauto.
Qed.

(** ** Runs side by side. *)
Lemma sys_run_app : forall l s x, sys_run s (l ++ [x]) = sys_step (sys_run s l) x.
Proof. intros l s x. unfold sys_run. rewrite fold_left_app. reflexivity. Qed.

Lemma own_app : forall i l x, own i (l ++ [x]) = own i l ++ if Nat.eqb (fst x) i then [snd x] else [].
Proof.
  intros i l x. unfold own. rewrite filter_app, map_app. cbn. destruct (Nat.eqb (fst x) i); reflexivity.
Qed.

Lemma nth_set_nth : forall {A} (l : list A) i j v, nth_error (set_nth l i v) j =
  if Nat.eqb i j then match nth_error l j with Some _ => Some v | None => None end else nth_error l j.
Proof.
  induction l as [|x l IH]; intros i j v; [destruct i, j; cbn; try reflexivity; destruct (Nat.eqb i j); reflexivity|].
  destruct i as [|i], j as [|j]; cbn; try reflexivity. apply IH.
Qed.

Lemma set_nth_length : forall {A} (l : list A) i v, length (set_nth l i v) = length l.
Proof. induction l as [|x l IH]; intros [|i] v; cbn; auto. Qed.

(** What every run keeps. *)
Definition kept (r : run) (w : world) (p : proc) : Prop :=
  p_stamp p = r_stamp r /\ p_args p = r_args r /\ p_handler p = handler_of (r_script r) /\ state_ok p /\
  (forall j, p_handle p = Some j -> loggy w j).

Lemma flagged_ok : forall sc, Forall stmt_ok (stmts sc) ->
  Forall (fun x : bool * stmt => stmt_ok (snd x))
    (map (pair false) (sc_pre sc) ++ map (pair (match sc_handler sc with Some _ => true | None => false end)) (sc_body sc)).
Proof.
  intros sc F. unfold stmts in F. apply Forall_app in F as [F1 F2]. apply Forall_app. split; apply Forall_map; [exact F1|exact F2].
Qed.

Lemma start_kept : forall r w, in_table (r_script r) -> kept r w (start (r_script r) (r_stamp r) (r_args r)).
Proof.
  intros r w T. split; [reflexivity|]. split; [reflexivity|]. split; [reflexivity|]. split; [|discriminate].
  split; [exact (moves_ok _ (handler_moves _ T))|]. cbn. apply flagged_ok, stmts_ok. exact T.
Qed.

Section Induction.
  Variable rs : list run.
  Variable w0 : world.
  Variable P : nat -> run -> list outcome -> world -> proc -> Prop.
  Hypothesis Hsane : sane w0.
  Hypothesis Htab : Forall (fun r => in_table (r_script r)) rs.
  Hypothesis Hdis : NoDup (map r_stamp rs).
  Hypothesis Hinit : forall i r, nth_error rs i = Some r -> P i r [] w0 (start (r_script r) (r_stamp r) (r_args r)).
  Hypothesis Hown : forall i r outs w p o w' p', nth_error rs i = Some r -> sane w -> kept r w p -> P i r outs w p ->
    step_proc i o w p = (w', p') -> P i r (outs ++ [o]) w' p'.
  Hypothesis Hframe : forall i r outs w p k r' w', nth_error rs i = Some r -> nth_error rs k = Some r' -> k <> i -> r_stamp r' <> r_stamp r ->
    sane w -> kept r w p -> P i r outs w p -> framed k (r_stamp r') w w' ->
    (exists o q q', step_proc k o w q = (w', q') /\ kept r' w q /\ exists outs', P k r' outs' w q) -> P i r outs w' p.

  Lemma sys_ind : forall sched, let s := sys_run (w0, launch rs) sched in
    sane (fst s) /\ length (snd s) = length rs /\
    forall i r, nth_error rs i = Some r -> exists p, nth_error (snd s) i = Some p /\ kept r (fst s) p /\ P i r (own i sched) (fst s) p.
  Proof using All.
    induction sched as [|x l IH] using rev_ind.
    - cbn. split; [exact Hsane|]. split; [apply map_length|]. intros i r E. unfold launch. rewrite nth_error_map, E. cbn.
      eexists. split; [reflexivity|]. split; [|exact (Hinit _ _ E)]. apply start_kept.
      rewrite Forall_forall in Htab. exact (Htab _ (nth_error_In _ _ E)).
    - cbv zeta in *. rewrite sys_run_app. destruct (sys_run (w0, launch rs) l) as [w ps]. cbn [fst snd] in IH.
      destruct IH as (S & L & IH). destruct x as [k o]. unfold sys_step. cbn [fst snd].
      destruct (nth_error ps k) as [q|] eqn:K.
      + destruct (step_proc k o w q) as [w' q'] eqn:ST. cbn [fst snd].
        assert (KL : k < length rs) by (rewrite <- L; apply nth_error_Some; congruence).
        destruct (nth_error rs k) as [r'|] eqn:R; [|apply nth_error_None in R; lia].
        destruct (IH _ _ R) as (q2 & E2 & KE & PE). assert (q2 = q) by congruence. subst q2. clear E2.
        pose proof KE as (K1 & K2 & K3 & K4 & K5).
        destruct (step_framed _ _ _ _ _ _ S K5 K4 ST) as (F & F1 & F2 & F3 & F4 & F5).
        split; [exact (f_sane _ _ _ _ F)|]. split; [rewrite set_nth_length; exact L|].
        intros i r E. rewrite nth_set_nth, own_app. cbn [fst snd]. destruct (Nat.eqb k i) eqn:KI.
        * apply Nat.eqb_eq in KI. subst i. rewrite K. assert (r' = r) by congruence. subst r'.
          exists q'. split; [reflexivity|]. split; [|exact (Hown _ _ _ _ _ _ _ _ E S KE PE ST)].
          repeat split; try congruence; try (apply F2); apply F1; assumption.
        * apply Nat.eqb_neq in KI. rewrite app_nil_r. destruct (IH _ _ E) as (p & E2 & KP & PP).
          exists p. split; [exact E2|]. split.
          -- destruct KP as (P1 & P2 & P3 & P4 & P5). split; [exact P1|]. split; [exact P2|]. split; [exact P3|]. split; [exact P4|].
             intros j J. exact (f_loggy _ _ _ _ F _ (P5 _ J)).
          -- assert (ND : r_stamp r' <> r_stamp r).
             { intro X. apply KI. apply (NoDup_nth_error (map r_stamp rs)); [exact Hdis|rewrite map_length; exact KL|].
               rewrite !nth_error_map, R, E. cbn. congruence. }
             rewrite K1 in F. apply (Hframe _ _ _ _ _ _ _ _ E R KI ND S KP PP F). exists o, q, q'. split; [exact ST|]. split; [exact KE|]. eauto.
      + split; [exact S|]. split; [exact L|]. intros i r E. rewrite own_app. cbn [fst snd].
        destruct (Nat.eqb k i) eqn:KI; [|rewrite app_nil_r; exact (IH _ _ E)].
        apply Nat.eqb_eq in KI. subst i. destruct (IH _ _ E) as (p & E2 & _). congruence.
  Qed.
End Induction.

(** ** One statement of a run. *)
Definition flagged (sc : script) : list (bool * stmt) :=
  map (pair false) (sc_pre sc) ++ map (pair (match sc_handler sc with Some _ => true | None => false end)) (sc_body sc).

Lemma flagged_snd : forall sc, map snd (flagged sc) = stmts sc.
Proof. intro sc. unfold flagged, stmts. rewrite map_app, !map_map. cbn. rewrite !map_id. reflexivity. Qed.

Lemma flagged_length : forall sc, length (flagged sc) = length (stmts sc).
Proof. intro sc. rewrite <- flagged_snd, map_length. reflexivity. Qed.

Lemma skipn_nth : forall {A} (l : list A) n, n < length l -> exists x, nth_error l n = Some x /\ skipn n l = x :: skipn (S n) l.
Proof.
  induction l as [|a l IH]; intros n L; [cbn in L; lia|]. destruct n as [|n]; [exists a; auto|].
  cbn in L. destruct (IH n ltac:(lia)) as (x & E & F). exists x. split; [exact E|]. exact F.
Qed.

Definition write_result (i : nat) (n : string) (o : outcome) (old : option (list item)) : option (list item) :=
  match o_fail o with
  | None => Some [Written i n]
  | Some _ => if o_torn o then Some [Torn i n] else old
  end.

(** The results in the run's directory and its directories, after a statement at its place. *)
Lemma exec_results : forall i r p o s w w' h e, sane w -> kept r w p -> stmt_ok s -> exec_stmt i p o s w = (w', h, e) ->
  (match s with SWrite _ => w_dirs w (RunDir (r_stamp r)) = true | _ => True end) ->
  forall n, n <> logname -> content w' (RunDir (r_stamp r), n) =
    match s with
    | SWrite t => if String.eqb n (result_name r t) then write_result i n o (content w (RunDir (r_stamp r), n)) else content w (RunDir (r_stamp r), n)
    | _ => content w (RunDir (r_stamp r), n)
    end.
Proof.
  intros i r p o s w w' h e S (K1 & K2 & _) OK E D n N. unfold exec_stmt in E. cbv zeta in E. rewrite K1, K2 in E.
  destruct s as [pl| |t|t|step| |].
  - destruct (o_fail o); [injection E as <- <- <-; reflexivity|]. destruct (w_dirs w (dir_of (r_stamp r) pl)); [|injection E as <- <- <-; reflexivity].
    destruct (open_file (dir_of (r_stamp r) pl, "log.log"%string) w) as [w1 j] eqn:F. injection E as <- <- <-.
    rewrite (open_content _ _ _ _ _ S F). destruct (path_eqb _ _) eqn:PQ; [|reflexivity]. apply path_eqb_eq in PQ.
    injection PQ as _ PQ. destruct N. symmetry. exact PQ.
  - destruct (o_fail o); [injection E as <- <- <-; reflexivity|]. destruct (w_dirs w (RunDir (r_stamp r))); [injection E as <- <- <-; reflexivity|].
    destruct (w_dirs w Results); injection E as <- <- <-; reflexivity.
  - destruct (o_fail o); [injection E as <- <- <-; reflexivity|]. destruct (w_dirs w (SubDir _ _)); [injection E as <- <- <-; reflexivity|].
    destruct (w_dirs w (RunDir (r_stamp r))); injection E as <- <- <-; reflexivity.
  - rewrite D in E. unfold write_result. fold (result_name r t) in E.
    assert (X : forall l, content (write_file (RunDir (r_stamp r), result_name r t) l w) (RunDir (r_stamp r), n) =
                if String.eqb n (result_name r t) then Some l else content w (RunDir (r_stamp r), n)).
    { intro l. rewrite (write_content _ _ _ _ S). destruct (String.eqb n (result_name r t)) eqn:F.
      - apply String.eqb_eq in F. rewrite F, path_eqb_refl. reflexivity.
      - destruct (path_eqb _ _) eqn:G; [|reflexivity]. apply path_eqb_eq in G. injection G as G. rewrite G, String.eqb_refl in F. discriminate F. }
    destruct (o_fail o) as [f|].
    + destruct (o_torn o); injection E as <- <- <-; [rewrite X|]; destruct (String.eqb n (result_name r t)) eqn:F; try reflexivity.
      apply String.eqb_eq in F. rewrite F. reflexivity.
    + injection E as <- <- <-. rewrite X. destruct (String.eqb n (result_name r t)) eqn:F; [|reflexivity]. apply String.eqb_eq in F. rewrite F. reflexivity.
  - injection E as <- <- <-.
    apply (steps_ind (fun w' => sane w' /\ content w' (RunDir (r_stamp r), n) = content w (RunDir (r_stamp r), n)) i (r_stamp r) (r_args r) step (o_steps o) w); [auto|].
    intros w1 pl t s -> _ [S1 C]. split; [apply write_sane; exact S1|]. rewrite (write_content _ _ _ _ S1).
    destruct (path_eqb _ _) eqn:PQ; [|exact C]. apply path_eqb_eq in PQ. destruct OK as [OK _]. destruct pl; try discriminate PQ. destruct (OK eq_refl).
  - destruct (o_fail o); [injection E as <- <- <-; reflexivity|].
    change (Results, "log.log"%string) with slog in E. destruct (w_files w slog) as [j|]; [|injection E as <- <- <-; reflexivity].
    destruct (w_dirs w (RunDir (r_stamp r))); injection E as <- <- <-; [|reflexivity]. apply (move_content (r_stamp r) j w). exact N.
  - injection E as <- <- <-. reflexivity.
Qed.

(** Where nothing but the given failures can go wrong. *)
Definition can_do (t : string) (w : world) (s : stmt) : Prop :=
  match s with
  | SMkdir => w_dirs w (RunDir t) = false
  | SMkdirIn _ => w_dirs w (RunDir t) = true /\ forall n, w_dirs w (SubDir t n) = false
  | SWrite _ => w_dirs w (RunDir t) = true
  | SOpenLog pl => pl <> AtCwd /\ (pl = AtRun -> w_dirs w (RunDir t) = true)
  | SMove => False
  | _ => True
  end.

Lemma exec_goes : forall i r p o s w w' h e, sane w -> kept r w p -> can_do (r_stamp r) w s -> exec_stmt i p o s w = (w', h, e) ->
  e = o_fail o /\
  (e = None -> w_dirs w' (RunDir (r_stamp r)) = (w_dirs w (RunDir (r_stamp r)) || is_mkdir s) /\
               forall n, w_dirs w' (SubDir (r_stamp r) n) = true -> w_dirs w (SubDir (r_stamp r) n) = true \/ is_sub s = true).
Proof.
  intros i r p o s w w' h e S (K1 & K2 & _) C E. unfold exec_stmt in E. cbv zeta in E. rewrite K1, K2 in E. pose proof S as (D & _).
  destruct s as [pl| |t|t|step| |]; cbn [is_mkdir is_sub] in *.
  - destruct (o_fail o); [injection E as <- <- <-; split; [reflexivity|discriminate]|].
    destruct C as [C1 C2].
    assert (X : w_dirs w (dir_of (r_stamp r) pl) = true) by (destruct pl; [destruct (C1 eq_refl)|exact D|exact (C2 eq_refl)]).
    rewrite X in E. destruct (open_file _ w) as [w1 j] eqn:F. injection E as <- <- <-.
    split; [reflexivity|]. intros _. destruct (open_facts _ _ _ _ S F) as (_ & G & _). rewrite G, orb_false_r. auto.
  - destruct (o_fail o); [injection E as <- <- <-; split; [reflexivity|discriminate]|].
    cbn in C. rewrite C, D in E. injection E as <- <- <-. split; [reflexivity|]. intros _. cbn. rewrite String.eqb_refl, orb_true_r.
    split; [reflexivity|]. auto.
  - destruct (o_fail o); [injection E as <- <- <-; split; [reflexivity|discriminate]|].
    destruct C as [C1 C2]. rewrite C2, C1 in E. injection E as <- <- <-. split; [reflexivity|]. intros _. cbn. rewrite C1. auto.
  - cbn in C. rewrite C in E. destruct (o_fail o); [destruct (o_torn o)|]; injection E as <- <- <-; (split; [reflexivity|]); intros X; try discriminate X.
    rewrite write_dirs, orb_false_r. auto.
  - injection E as <- <- <-. split; [reflexivity|]. intros _. rewrite orb_false_r.
    assert (Y : w_dirs (write_steps i (r_stamp r) (r_args r) step (o_steps o) w) = w_dirs w); [|rewrite Y; auto].
    apply (steps_ind (fun w' => w_dirs w' = w_dirs w)); [reflexivity|]. intros w1 pl t s _ _ X. rewrite write_dirs. exact X.
  - destruct C.
  - injection E as <- <- <-. split; [reflexivity|]. intros _. rewrite orb_false_r. auto.
Qed.
