(** An analysis of the names which are bound at every statement, and its soundness. *)
From Coq Require Import String ZArith NArith List Bool Lia.
From Verif Require Import Model.Names.
Import ListNotations.
Local Open Scope list_scope.

(** ** Statements and lists of statements *)
Fixpoint size (s : stmt) : nat :=
  let sizes := fix sizes (l : list stmt) := match l with [] => 0 | s :: l => size s + sizes l end in
  S match s with
    | If _ a b => sizes a + sizes b
    | Loop a => sizes a
    | Try a h => sizes a + sizes h
    | Call _ _ a => sizes a
    | _ => 0
    end.
Fixpoint sizes (l : list stmt) : nat := match l with [] => 0 | s :: l => size s + sizes l end.
Lemma size_eq : forall s, size s = S match s with If _ a b => sizes a + sizes b | Loop a => sizes a | Try a h => sizes a + sizes h | Call _ _ a => sizes a | _ => 0 end.
Proof. destruct s; reflexivity. Qed.
Lemma stmt_both (P : stmt -> Prop) (Q : list stmt -> Prop) :
  (forall xs, P (Eval xs)) -> (forall xs, P (Bind xs)) -> (forall c a b, Q a -> Q b -> P (If c a b)) -> (forall a, Q a -> P (Loop a)) ->
  (forall a h, Q a -> Q h -> P (Try a h)) -> (forall ls ps a, Q a -> P (Call ls ps a)) -> P Raise -> P Return -> P Continue -> P Break ->
  Q [] -> (forall s l, P s -> Q l -> Q (s :: l)) -> (forall s, P s) /\ forall l, Q l.
Proof.
  intros H1 H2 H3 H4 H5 H6 H7 H8 H9 H10 N C.
  assert (A : forall n, (forall s, size s <= n -> P s) /\ forall l, sizes l <= n -> Q l).
  { induction n as [|n [IP IQ]].
    - assert (Z : forall s, ~ size s <= 0) by (intros s; rewrite size_eq; lia). split; [intros s L; destruct (Z s L)|].
      intros [|s l] L; [exact N|]. cbn in L. destruct (Z s). lia.
    - assert (A : forall s, size s <= S n -> P s).
      { intros s L. rewrite size_eq in L. destruct s; auto; try (apply H3 || apply H5; apply IQ; lia); try (apply H4 || apply H6; apply IQ; lia). }
      split; [exact A|]. induction l as [|s l IH]; intros L; [exact N|]. cbn in L. apply C; [apply A; lia|apply IH; lia]. }
  split; [intros s; exact (proj1 (A (size s)) s (le_n _))|intros l; exact (proj2 (A (sizes l)) l (le_n _))].
Qed.

(** ** The parts of a run *)
Definition exec_loop (opts : string -> value) (a : list stmt) : nat -> state -> ending * state :=
  fix loop (n : nat) (st : state) {struct n} : ending * state :=
    match n with
    | O => (Done, st)
    | S n => match exec_block opts a st with
             | (Done, st1) | (Continued, st1) => loop n st1
             | (Broke, st1) => (Done, st1)
             | r => r
             end
    end.
Lemma exec_if opts c a b e l : exec opts (If c a b) (e, l) =
  let '(t, l) := match test opts c with Some t => (t, l) | None => next_pick l end in if t then exec_block opts a (e, l) else exec_block opts b (e, l).
Proof. reflexivity. Qed.
Lemma exec_for opts a e l : exec opts (Loop a) (e, l) = let '(n, l) := next_turn l in exec_loop opts a n (e, l).
Proof. reflexivity. Qed.
Lemma exec_try opts a h e l : exec opts (Try a h) (e, l) =
  match exec_block opts a (e, l) with
  | (Raised, (e, l)) => let '(t, l) := next_pick l in if t then exec_block opts h (e, l) else (Raised, (e, l))
  | r => r
  end.
Proof. reflexivity. Qed.
Lemma exec_call opts ls ps a e l : exec opts (Call ls ps a) (e, l) =
  match exec_block opts a (bind_names ps (unbind_names ls e), l) with
  | (Raised, st) => (Raised, st)
  | (Unbound x, st) => (Unbound x, st)
  | (_, st) => (Done, st)
  end.
Proof. reflexivity. Qed.
Lemma block_cons opts s l st : exec_block opts (s :: l) st = match exec opts s st with (Done, st1) => exec_block opts l st1 | r => r end.
Proof. reflexivity. Qed.

(** ** Options which decide all conditions alike lead to the same runs *)
Fixpoint conds (s : stmt) : list cond :=
  let go := fix go (l : list stmt) := match l with [] => [] | s :: l => conds s ++ go l end in
  match s with
  | If c a b => c :: go a ++ go b
  | Loop a => go a
  | Try a h => go a ++ go h
  | Call _ _ a => go a
  | _ => []
  end.
Definition conds_in : list stmt -> list cond := fix go (l : list stmt) := match l with [] => [] | s :: l => conds s ++ go l end.

Definition alike (o o' : string -> value) (cs : list cond) : Prop := forall c, In c cs -> test o c = test o' c.
Lemma alike_app o o' a b : alike o o' (a ++ b) <-> alike o o' a /\ alike o o' b.
Proof. unfold alike. split; [intros H; split; intros c I; apply H, in_or_app; auto|intros [H1 H2] c I; apply in_app_or in I as [I|I]; auto]. Qed.
Lemma exec_alike o o' : (forall s st, alike o o' (conds s) -> exec o s st = exec o' s st) /\ forall l st, alike o o' (conds_in l) -> exec_block o l st = exec_block o' l st.
Proof.
  enough (H : (forall s, (fun s => forall st, alike o o' (conds s) -> exec o s st = exec o' s st) s) /\ forall l, (fun l => forall st, alike o o' (conds_in l) -> exec_block o l st = exec_block o' l st) l)
    by (split; intros; apply H; assumption).
  apply stmt_both; try reflexivity.
  - intros c a b A B [e l] K. change (alike o o' (c :: conds_in a ++ conds_in b)) in K. rewrite !exec_if, (K c (or_introl eq_refl)).
    assert (K1 : alike o o' (conds_in a ++ conds_in b)) by (intros d D; apply K; right; exact D). apply alike_app in K1 as [Ka Kb].
    destruct (match test o' c with Some t => (t, l) | None => next_pick l end) as [[] l']; auto.
  - intros a A [e l] K. rewrite !exec_for. destruct (next_turn l) as [n l']. generalize (e, l'). induction n as [|n IH]; intros st; [reflexivity|].
    cbn [exec_loop]. rewrite (A st K). destruct (exec_block o' a st) as [[] st1]; auto; apply IH.
  - intros a h A B [e l] K. change (alike o o' (conds_in a ++ conds_in h)) in K. apply alike_app in K as [Ka Kh]. rewrite !exec_try, (A _ Ka).
    destruct (exec_block o' a (e, l)) as [[] [e1 l1]]; auto. destruct (next_pick l1) as [[] l2]; auto.
  - intros ls ps a A [e l] K. rewrite !exec_call, (A _ K). reflexivity.
  - intros s l A B st K. change (alike o o' (conds s ++ conds_in l)) in K. apply alike_app in K as [K1 K2]. rewrite !block_cons, (A _ K1).
    destruct (exec o' s st) as [[] st1]; auto.
Qed.

(** ** The analysis: names as bits; for every way to end the names bound for sure, None if it does not happen; the names which may be read unbound *)
Definition meet (a b : option N) : option N :=
  match a, b with
  | None, x => x
  | x, None => x
  | Some m, Some k => Some (N.land m k)
  end.
Record flow := Flow { fl_done : option N; fl_ret : option N; fl_con : option N; fl_exc : option N; fl_bad : list N }.
Definition join (f g : flow) : flow := Flow (meet (fl_done f) (fl_done g)) (meet (fl_ret f) (fl_ret g)) (meet (fl_con f) (fl_con g)) (meet (fl_exc f) (fl_exc g)) (fl_bad f ++ fl_bad g).
Definition followed (f g : flow) : flow := Flow (fl_done g) (meet (fl_ret f) (fl_ret g)) (meet (fl_con f) (fl_con g)) (meet (fl_exc f) (fl_exc g)) (fl_bad f ++ fl_bad g).
Definition setbits (xs : list N) (m : N) : N := fold_right (fun x m => N.setbit m x) m xs.
Definition clearbits (xs : list N) (m : N) : N := fold_right (fun x m => N.clearbit m x) m xs.

(** The names calls within may unbind. *)
Fixpoint unbinds (s : stmt) : list N :=
  let go := fix go (l : list stmt) := match l with [] => [] | s :: l => unbinds s ++ go l end in
  match s with
  | If _ a b => go a ++ go b
  | Loop a => go a
  | Try a h => go a ++ go h
  | Call ls _ a => ls ++ go a
  | _ => []
  end.
Definition unbinds_in : list stmt -> list N := fix go (l : list stmt) := match l with [] => [] | s :: l => unbinds s ++ go l end.

Section Flow.
Variable opts : string -> value.
Variable quiet : bool.
Variable hi : N.

(** The names which may be bound. *)
Fixpoint binds (s : stmt) (m : N) : N :=
  let go := fix go (l : list stmt) (m : N) := match l with [] => m | s :: l => go l (binds s m) end in
  match s with
  | Bind xs => setbits xs m
  | If c a b => match test opts c with Some true => go a m | Some false => go b m | None => go b (go a m) end
  | Loop a => go a m
  | Try a h => go h (go a m)
  | Call _ ps a => go a (setbits ps m)
  | _ => m
  end.
Definition binds_in : list stmt -> N -> N := fix go (l : list stmt) (m : N) := match l with [] => m | s :: l => go l (binds s m) end.

Fixpoint reads (xs : list N) (m : N) : option N * list N :=
  match xs with
  | [] => (Some m, [])
  | x :: xs => if N.testbit m x then reads xs m
               else if N.testbit hi x then let '(r, b) := reads xs (N.setbit m x) in (r, x :: b) else (None, [x])
  end.

Fixpoint flow_of (s : stmt) (m : N) {struct s} : flow :=
  let block := fix block (l : list stmt) (m : N) {struct l} : flow :=
    match l with
    | [] => Flow (Some m) None None None []
    | s :: l => let f := flow_of s m in match fl_done f with None => f | Some m1 => followed f (block l m1) end
    end in
  match s with
  | Eval xs => let '(r, b) := reads xs m in Flow r None None (if quiet then None else Some m) b
  | Bind xs => Flow (Some (setbits xs m)) None None None []
  | If c a b => match test opts c with Some true => block a m | Some false => block b m | None => join (block a m) (block b m) end
  | Loop a =>
      let m0 := clearbits (unbinds_in a) m in
      let f := block a m0 in
      Flow (if quiet then meet (fl_done f) (fl_con f) else Some m0) (fl_ret f) None (fl_exc f) (fl_bad f)
  | Try a h =>
      let f := block a m in
      match fl_exc f with
      | None => f
      | Some me => join f (block h me)
      end
  | Call ls ps a =>
      let f := block a (setbits ps (clearbits ls m)) in
      Flow (meet (fl_done f) (meet (fl_ret f) (fl_con f))) None None (fl_exc f) (fl_bad f)
  | Raise => Flow None None None (Some m) []
  | Return => Flow None (Some m) None None []
  | Continue | Break => Flow None None (Some m) None []
  end.
Definition flow_block : list stmt -> N -> flow :=
  fix block (l : list stmt) (m : N) {struct l} : flow :=
    match l with
    | [] => Flow (Some m) None None None []
    | s :: l => let f := flow_of s m in match fl_done f with None => f | Some m1 => followed f (block l m1) end
    end.

(** ** Soundness *)
Definition below (m : N) (e : N -> bool) : Prop := forall x, N.testbit m x = true -> e x = true.
Definition above (e : N -> bool) : Prop := forall x, e x = true -> N.testbit hi x = true.
Definition within (a b : N) : Prop := forall x, N.testbit a x = true -> N.testbit b x = true.
Definition obelow (o : option N) (e : N -> bool) : Prop := match o with Some m => below m e | None => False end.
Definition lucky (l : luck) : Prop := quiet = true -> Forall (fun b => b = false) (fails l) /\ Forall (fun n => 1 <= n) (turns l).

Lemma meet_l a b e : obelow a e -> obelow (meet a b) e.
Proof. destruct a as [m|], b as [k|]; cbn; intros H; auto; try contradiction. intros x. rewrite N.land_spec, andb_true_iff. intros [X _]. exact (H x X). Qed.
Lemma meet_r a b e : obelow b e -> obelow (meet a b) e.
Proof. destruct a as [m|], b as [k|]; cbn; intros H; auto; try contradiction. intros x. rewrite N.land_spec, andb_true_iff. intros [_ X]. exact (H x X). Qed.
Lemma setbits_spec xs m x : N.testbit (setbits xs m) x = existsb (N.eqb x) xs || N.testbit m x.
Proof. induction xs as [|y xs IH]; [reflexivity|]. cbn [setbits fold_right existsb]. rewrite N.setbit_eqb, N.eqb_sym, <- orb_assoc. f_equal. exact IH. Qed.
Lemma clearbits_spec xs m x : N.testbit (clearbits xs m) x = negb (existsb (N.eqb x) xs) && N.testbit m x.
Proof.
  induction xs as [|y xs IH]; [reflexivity|]. cbn [clearbits fold_right existsb]. rewrite N.clearbit_eqb, N.eqb_sym. fold (clearbits xs m). rewrite IH.
  destruct (x =? y)%N, (existsb (N.eqb x) xs), (N.testbit m x); reflexivity.
Qed.
Lemma binds_grow : (forall s m, within m (binds s m)) /\ forall l m, within m (binds_in l m).
Proof.
  apply (stmt_both (fun s => forall m, within m (binds s m)) (fun l => forall m, within m (binds_in l m))); try (intros; intros ? ?; assumption).
  - intros xs m x X. cbn [binds]. rewrite setbits_spec, X. apply orb_true_r.
  - intros c a b A B m x X. change (N.testbit (match test opts c with Some true => binds_in a m | Some false => binds_in b m | None => binds_in b (binds_in a m) end) x = true).
    destruct (test opts c) as [[]|]; [apply A|apply B|apply B, A]; exact X.
  - intros a A m. exact (A m).
  - intros a h A B m x X. apply B, A, X.
  - intros ls ps a A m x X. apply A. rewrite setbits_spec, X. apply orb_true_r.
  - intros s l A B m x X. apply B, A, X.
Qed.
Lemma binds_mono : (forall s m k, within m k -> within (binds s m) (binds s k)) /\ forall l m k, within m k -> within (binds_in l m) (binds_in l k).
Proof.
  apply (stmt_both (fun s => forall m k, within m k -> within (binds s m) (binds s k)) (fun l => forall m k, within m k -> within (binds_in l m) (binds_in l k))); try (intros; assumption).
  - intros xs m k K x. cbn [binds]. rewrite !setbits_spec, !orb_true_iff. intros [X|X]; auto.
  - intros c a b A B m k K. change (within (match test opts c with Some true => binds_in a m | Some false => binds_in b m | None => binds_in b (binds_in a m) end)
      (match test opts c with Some true => binds_in a k | Some false => binds_in b k | None => binds_in b (binds_in a k) end)).
    destruct (test opts c) as [[]|]; auto.
  - intros a A. exact A.
  - intros a h A B m k K. apply B, A, K.
  - intros ls ps a A m k K. apply A. intros x. rewrite !setbits_spec, !orb_true_iff. intros [X|X]; auto.
  - intros s l A B m k K. apply B, A, K.
Qed.

(** Calls unbind just their own names. *)
Definition keeps (xs : list N) (e e' : N -> bool) : Prop := forall x, existsb (N.eqb x) xs = false -> e x = true -> e' x = true.
Lemma keeps_refl xs e : keeps xs e e.
Proof. intros x _ X. exact X. Qed.
Lemma keeps_trans xs e e' e'' : keeps xs e e' -> keeps xs e' e'' -> keeps xs e e''.
Proof. intros A B x N X. apply B; auto. Qed.
Lemma keeps_more xs ys e e' : (forall x, existsb (N.eqb x) ys = false -> existsb (N.eqb x) xs = false) -> keeps xs e e' -> keeps ys e e'.
Proof. intros S A x N X. apply A; auto. Qed.
Lemma app_false {A} (f : A -> bool) xs ys : existsb f (xs ++ ys) = false -> existsb f xs = false /\ existsb f ys = false.
Proof. rewrite existsb_app. apply orb_false_iff. Qed.
Lemma exec_keeps : (forall s e l, keeps (unbinds s) e (fst (snd (exec opts s (e, l))))) /\ forall b e l, keeps (unbinds_in b) e (fst (snd (exec_block opts b (e, l)))).
Proof.
  apply (stmt_both (fun s => forall e l, keeps (unbinds s) e (fst (snd (exec opts s (e, l))))) (fun b => forall e l, keeps (unbinds_in b) e (fst (snd (exec_block opts b (e, l)))))); try (intros; apply keeps_refl).
  - intros xs e l. cbn [exec]. destruct (next_fail l) as [[] l']; [apply keeps_refl|]. destruct (first_unbound xs e); apply keeps_refl.
  - intros xs e l x _ X. cbn [exec fst snd]. unfold bind_names. rewrite X. apply orb_true_r.
  - intros c a b A B e l. change (unbinds (If c a b)) with (unbinds_in a ++ unbinds_in b). rewrite exec_if.
    destruct (match test opts c with Some t => (t, l) | None => next_pick l end) as [[] l'].
    + eapply keeps_more; [|apply A]. intros x X. apply app_false in X. apply X.
    + eapply keeps_more; [|apply B]. intros x X. apply app_false in X. apply X.
  - intros a A e l. rewrite exec_for. change (unbinds (Loop a)) with (unbinds_in a). destruct (next_turn l) as [n l']. clear l. revert e l'.
    induction n as [|n IH]; intros e l; [apply keeps_refl|]. cbn [exec_loop]. specialize (A e l). destruct (exec_block opts a (e, l)) as [r [e1 l1]]. cbn [fst snd] in A.
    destruct r; cbn [fst snd]; try exact A; (eapply keeps_trans; [exact A|apply IH]).
  - intros a h A B e l. rewrite exec_try. change (unbinds (Try a h)) with (unbinds_in a ++ unbinds_in h). specialize (A e l). destruct (exec_block opts a (e, l)) as [r [e1 l1]]. cbn [fst snd] in A.
    assert (A1 : keeps (unbinds_in a ++ unbinds_in h) e e1) by (eapply keeps_more; [|exact A]; intros x X; apply app_false in X; apply X).
    destruct r; cbn [fst snd]; try exact A1. destruct (next_pick l1) as [[] l2]; [|exact A1]. eapply keeps_trans; [exact A1|]. eapply keeps_more; [|apply B]. intros x X. apply app_false in X. apply X.
  - intros ls ps a A e l. rewrite exec_call. change (unbinds (Call ls ps a)) with (ls ++ unbinds_in a). specialize (A (bind_names ps (unbind_names ls e)) l).
    destruct (exec_block opts a _) as [r [e1 l1]]. cbn [fst snd] in A.
    assert (A1 : keeps (ls ++ unbinds_in a) e e1).
    { intros x X E. apply app_false in X as [X1 X2]. apply A; [exact X2|]. unfold bind_names, unbind_names. rewrite X1, E. apply orb_true_r. }
    destruct r; exact A1.
  - intros s b A B e l. rewrite block_cons. change (unbinds_in (s :: b)) with (unbinds s ++ unbinds_in b). specialize (A e l). destruct (exec opts s (e, l)) as [r [e1 l1]]. cbn [fst snd] in A.
    assert (A1 : keeps (unbinds s ++ unbinds_in b) e e1) by (eapply keeps_more; [|exact A]; intros x X; apply app_false in X; apply X).
    destruct r; cbn [fst snd]; try exact A1. eapply keeps_trans; [exact A1|]. eapply keeps_more; [|apply B]. intros x X. apply app_false in X. apply X.
Qed.

Definition ends (f : flow) (r : ending) (e : N -> bool) : Prop :=
  match r with
  | Done => obelow (fl_done f) e
  | Raised => obelow (fl_exc f) e
  | Returned => obelow (fl_ret f) e
  | Continued | Broke => obelow (fl_con f) e
  | Unbound x => In x (fl_bad f)
  end.
Definition good (f : flow) (r : ending * state) : Prop := ends f (fst r) (fst (snd r)) /\ above (fst (snd r)) /\ lucky (snd (snd r)).

Lemma join_l f g r e : ends f r e -> ends (join f g) r e.
Proof. destruct r; cbn; intros H; try (apply meet_l; exact H). apply in_or_app; auto. Qed.
Lemma join_r f g r e : ends g r e -> ends (join f g) r e.
Proof. destruct r; cbn; intros H; try (apply meet_r; exact H). apply in_or_app; auto. Qed.

Lemma fail_lucky l b l' : lucky l -> next_fail l = (b, l') -> lucky l' /\ (quiet = true -> b = false).
Proof.
  intros L E. unfold next_fail in E. destruct (fails l) as [|c r] eqn:F; injection E as <- <-; [split; [exact L|reflexivity]|].
  split; [intros Q; destruct (L Q) as [L1 L2]; rewrite F in L1; inversion L1; subst; split; assumption|intros Q; destruct (L Q) as [L1 _]; rewrite F in L1; inversion L1; assumption].
Qed.
Lemma turn_lucky l n l' : lucky l -> next_turn l = (n, l') -> lucky l' /\ (quiet = true -> 1 <= n).
Proof.
  intros L E. unfold next_turn in E. destruct (turns l) as [|c r] eqn:F; injection E as <- <-; [split; [exact L|intros _; apply le_n]|].
  split; [intros Q; destruct (L Q) as [L1 L2]; rewrite F in L2; inversion L2; subst; split; assumption|intros Q; destruct (L Q) as [_ L2]; rewrite F in L2; inversion L2; assumption].
Qed.
Lemma pick_lucky l b l' : lucky l -> next_pick l = (b, l') -> lucky l'.
Proof. intros L E. unfold next_pick in E. destruct (picks l) as [|c r] eqn:F; injection E as <- <-; exact L. Qed.

Lemma reads_sound xs : forall m e, below m e -> above e ->
  match first_unbound xs e with Some x => In x (snd (reads xs m)) | None => obelow (fst (reads xs m)) e end.
Proof.
  induction xs as [|x xs IH]; intros m e B A; [exact B|]. cbn [first_unbound reads]. destruct (N.testbit m x) eqn:T.
  - rewrite (B x T). apply IH; assumption.
  - destruct (e x) eqn:X.
    + rewrite (A x X). assert (B1 : below (N.setbit m x) e). { intros y. rewrite N.setbit_eqb, orb_true_iff. intros [Y|Y]; [apply N.eqb_eq in Y; subst y; exact X|exact (B y Y)]. }
      specialize (IH _ _ B1 A). destruct (reads xs (N.setbit m x)) as [r b]. cbn [fst snd] in *. destruct (first_unbound xs e); [right; exact IH|exact IH].
    + destruct (N.testbit hi x); [destruct (reads xs (N.setbit m x))|]; left; reflexivity.
Qed.

Lemma sound : (forall s m e l, within (binds s 0) hi -> below m e -> above e -> lucky l -> good (flow_of s m) (exec opts s (e, l))) /\
  forall b m e l, within (binds_in b 0) hi -> below m e -> above e -> lucky l -> good (flow_block b m) (exec_block opts b (e, l)).
Proof.
  apply (stmt_both (fun s => forall m e l, within (binds s 0) hi -> below m e -> above e -> lucky l -> good (flow_of s m) (exec opts s (e, l)))
    (fun b => forall m e l, within (binds_in b 0) hi -> below m e -> above e -> lucky l -> good (flow_block b m) (exec_block opts b (e, l))));
    try (intros m e l _ B A L; split; [exact B|split; [exact A|exact L]]).
  - intros xs m e l _ B A L. cbn [exec flow_of]. destruct (next_fail l) as [b l'] eqn:F. destruct (fail_lucky _ _ _ L F) as [L1 L2].
    pose proof (reads_sound xs m e B A) as R. destruct (reads xs m) as [r bad]. cbn [fst snd] in R. destruct b.
    + split; [|split; assumption]. cbn. destruct quiet; [discriminate (L2 eq_refl)|exact B].
    + destruct (first_unbound xs e); (split; [exact R|split; assumption]).
  - intros xs m e l W B A L. cbn [exec flow_of]. split; [|split; [|exact L]].
    + intros x. rewrite setbits_spec. cbn [fst snd]. unfold bind_names. rewrite !orb_true_iff. intros [X|X]; [left; exact X|right; exact (B x X)].
    + intros x. cbn [fst snd]. unfold bind_names. rewrite orb_true_iff. intros [X|X]; [|exact (A x X)]. apply W. cbn [binds]. rewrite setbits_spec, X. reflexivity.
  - intros c a b HA HB m e l W B A L. rewrite exec_if.
    change (within (match test opts c with Some true => binds_in a 0 | Some false => binds_in b 0 | None => binds_in b (binds_in a 0) end) hi) in W.
    change (flow_of (If c a b) m) with (match test opts c with Some true => flow_block a m | Some false => flow_block b m | None => join (flow_block a m) (flow_block b m) end).
    destruct (test opts c) as [[]|]; [apply HA; assumption|apply HB; assumption|].
    destruct (next_pick l) as [t l'] eqn:P. pose proof (pick_lucky _ _ _ L P) as L1.
    assert (Wa : within (binds_in a 0) hi) by (intros x X; apply W; apply binds_grow; exact X).
    assert (Wb : within (binds_in b 0) hi). { intros x X. apply W. revert x X. apply binds_mono. intros x X. rewrite N.bits_0 in X. discriminate. }
    destruct t.
    + destruct (HA m e l' Wa B A L1) as (H1 & H2). split; [apply join_l; exact H1|exact H2].
    + destruct (HB m e l' Wb B A L1) as (H1 & H2). split; [apply join_r; exact H1|exact H2].
  - intros a HA m e l W B A L. rewrite exec_for. change (within (binds_in a 0) hi) in W.
    change (flow_of (Loop a) m) with (let m0 := clearbits (unbinds_in a) m in let f := flow_block a m0 in Flow (if quiet then meet (fl_done f) (fl_con f) else Some m0) (fl_ret f) None (fl_exc f) (fl_bad f)).
    cbv zeta. set (m0 := clearbits (unbinds_in a) m). destruct (next_turn l) as [n l'] eqn:T. destruct (turn_lucky _ _ _ L T) as [L1 LN]. clear L T l.
    assert (B0 : below m0 e). { intros x. unfold m0. rewrite clearbits_spec, andb_true_iff. intros [_ X]. exact (B x X). } clear B.
    assert (G : forall n e l, below m0 e -> above e -> lucky l -> (quiet = true -> 1 <= n \/ obelow (meet (fl_done (flow_block a m0)) (fl_con (flow_block a m0))) e) ->
      good (Flow (if quiet then meet (fl_done (flow_block a m0)) (fl_con (flow_block a m0)) else Some m0) (fl_ret (flow_block a m0)) None (fl_exc (flow_block a m0)) (fl_bad (flow_block a m0))) (exec_loop opts a n (e, l))).
    { clear n e l' A LN B0 L1. induction n as [|n IH]; intros e l B A L Q.
      - split; [|split; assumption]. cbn. destruct quiet; [destruct (Q eq_refl) as [Z|Z]; [lia|exact Z]|exact B].
      - cbn [exec_loop]. destruct (HA m0 e l W B A L) as (H1 & H2 & H3). pose proof (proj2 exec_keeps a e l) as K. destruct (exec_block opts a (e, l)) as [r [e1 l1]]. cbn [fst snd] in *.
        assert (B1 : below m0 e1). { intros x X. apply K; [|exact (B x X)]. unfold m0 in X. rewrite clearbits_spec, andb_true_iff, negb_true_iff in X. apply X. }
        destruct r; cbn [ends] in H1.
        + apply IH; auto. intros _. right. apply meet_l. exact H1.
        + split; [exact H1|split; assumption].
        + split; [exact H1|split; assumption].
        + apply IH; auto. intros _. right. apply meet_r. exact H1.
        + split; [|split; assumption]. cbn. destruct quiet; [apply meet_r; exact H1|exact B1].
        + split; [exact H1|split; assumption]. }
    apply G; auto.
  - intros a h HA HB m e l W B A L. rewrite exec_try. change (within (binds_in h (binds_in a 0)) hi) in W.
    change (flow_of (Try a h) m) with (let f := flow_block a m in match fl_exc f with None => f | Some me => join f (flow_block h me) end). cbv zeta.
    assert (Wa : within (binds_in a 0) hi) by (intros x X; apply W; apply binds_grow; exact X).
    assert (Wb : within (binds_in h 0) hi). { intros x X. apply W. revert x X. apply binds_mono. intros x X. rewrite N.bits_0 in X. discriminate. }
    destruct (HA m e l Wa B A L) as (H1 & H2 & H3). destruct (exec_block opts a (e, l)) as [r [e1 l1]]. cbn [fst snd] in *.
    assert (J : forall f, ends f r e1 -> ends (match fl_exc f with None => f | Some me => join f (flow_block h me) end) r e1).
    { intros f F. destruct (fl_exc f); [apply join_l|]; exact F. }
    destruct r; try (split; [apply J; exact H1|split; assumption]).
    destruct (next_pick l1) as [t l2] eqn:P. pose proof (pick_lucky _ _ _ H3 P) as L2. destruct t; [|split; [apply J; exact H1|split; assumption]].
    cbn [ends] in H1. destruct (fl_exc (flow_block a m)) as [me|] eqn:FE; [|destruct H1]. destruct (HB me e1 l2 Wb H1 H2 L2) as (K1 & K2). split; [apply join_r; exact K1|exact K2].
  - intros ls ps a HA m e l W B A L. rewrite exec_call. change (within (binds_in a (setbits ps 0)) hi) in W.
    change (flow_of (Call ls ps a) m) with (let f := flow_block a (setbits ps (clearbits ls m)) in Flow (meet (fl_done f) (meet (fl_ret f) (fl_con f))) None None (fl_exc f) (fl_bad f)). cbv zeta.
    assert (Wa : within (binds_in a 0) hi). { intros x X. apply W. revert x X. apply binds_mono. intros x X. rewrite N.bits_0 in X. discriminate. }
    assert (B1 : below (setbits ps (clearbits ls m)) (bind_names ps (unbind_names ls e))).
    { intros x. unfold bind_names, unbind_names. rewrite setbits_spec, clearbits_spec, !orb_true_iff, !andb_true_iff. intros [X|[X Y]]; [left; exact X|right; split; [exact X|exact (B x Y)]]. }
    assert (A1 : above (bind_names ps (unbind_names ls e))).
    { intros x. unfold bind_names, unbind_names. rewrite orb_true_iff, andb_true_iff. intros [X|[_ X]]; [|exact (A x X)]. apply W. apply (proj2 binds_grow). rewrite setbits_spec, X. reflexivity. }
    destruct (HA _ _ l Wa B1 A1 L) as (H1 & H2 & H3). destruct (exec_block opts a _) as [r [e1 l1]]. cbn [fst snd] in *.
    destruct r; (split; [cbn [ends fst snd fl_done fl_exc fl_bad] in *|split; assumption]); auto; [apply meet_l; exact H1|apply meet_r, meet_l; exact H1|apply meet_r, meet_r; exact H1|apply meet_r, meet_r; exact H1].
  - intros s b HA HB m e l W B A L. rewrite block_cons. change (within (binds_in b (binds s 0)) hi) in W.
    change (flow_block (s :: b) m) with (let f := flow_of s m in match fl_done f with None => f | Some m1 => followed f (flow_block b m1) end). cbv zeta.
    assert (Wa : within (binds s 0) hi) by (intros x X; apply W; apply binds_grow; exact X).
    assert (Wb : within (binds_in b 0) hi). { intros x X. apply W. revert x X. apply binds_mono. intros x X. rewrite N.bits_0 in X. discriminate. }
    destruct (HA m e l Wa B A L) as (H1 & H2 & H3). destruct (exec opts s (e, l)) as [r [e1 l1]]. cbn [fst snd] in *.
    assert (J : r <> Done -> ends (match fl_done (flow_of s m) with None => flow_of s m | Some m1 => followed (flow_of s m) (flow_block b m1) end) r e1).
    { intros ND. destruct (fl_done (flow_of s m)); [|exact H1]. destruct r; cbn [ends followed fl_ret fl_con fl_exc fl_bad] in *; try (apply meet_l; exact H1); [congruence|apply in_or_app; left; exact H1]. }
    destruct r; try (split; [apply J; discriminate|split; assumption]).
    cbn [ends] in H1. destruct (fl_done (flow_of s m)) as [m1|] eqn:FD; [|destruct H1]. destruct (HB m1 e1 l1 Wb H1 H2 H3) as (K1 & K2). split; [|exact K2].
    destruct (fst (exec_block opts b (e1, l1))); cbn [ends followed fl_done fl_ret fl_con fl_exc fl_bad] in *; try (apply meet_r; exact K1); [exact K1|apply in_or_app; right; exact K1].
Qed.
End Flow.

(** What the analysis says of a file. *)
Definition file_flow (opts : string -> value) (quiet : bool) (f : file) : flow := flow_block opts quiet (binds_in opts (f_body f) 0) (f_body f) 0.
Lemma file_sound opts quiet f l : lucky quiet l ->
  match run_file opts f l with
  | Done => fl_done (file_flow opts quiet f) <> None
  | Unbound x => In x (fl_bad (file_flow opts quiet f))
  | _ => True
  end.
Proof.
  intros L. unfold run_file, file_flow. destruct (proj2 (sound opts quiet (binds_in opts (f_body f) 0)) (f_body f) 0%N (fun _ => false) l) as [H _]; auto.
  - intros x X. exact X.
  - intros x X. rewrite N.bits_0 in X. discriminate.
  - intros x X. discriminate.
  - destruct (fst (exec_block opts (f_body f) (fun _ => false, l))); auto. cbn [ends] in H. intros E. rewrite E in H. exact H.
Qed.
