(** What single operations on files leave as it was. *)
From Coq Require Import String List Bool Arith Lia.
From Verif Require Import Model.Py Model.Saving Model.SaveTable Spec.SavingSpec Proofs.SavingNames.
Import ListNotations.
Local Open Scope list_scope.

Lemma dir_eqb_eq : forall a b, dir_eqb a b = true <-> a = b.
Proof.
  intros [| |s|s m] [| |t|t n]; cbn; split; intro E; try congruence; try discriminate; try reflexivity.
  - apply String.eqb_eq in E. congruence.
  - injection E as ->. apply String.eqb_refl.
  - apply andb_true_iff in E as [E1 E2]. apply String.eqb_eq in E1, E2. congruence.
  - injection E as -> ->. rewrite !String.eqb_refl. reflexivity.
Qed.

Lemma path_eqb_eq : forall a b, path_eqb a b = true <-> a = b.
Proof.
  intros [a m] [b n]. unfold path_eqb. cbn. rewrite andb_true_iff, dir_eqb_eq, String.eqb_eq. split; [intros [-> ->]|intro E; injection E as -> ->]; auto.
Qed.
Lemma path_eqb_refl : forall a, path_eqb a a = true.
Proof. intro a. apply path_eqb_eq. reflexivity. Qed.
Lemma path_eqb_neq : forall a b, path_eqb a b = false <-> a <> b.
Proof.
  intros a b. rewrite <- path_eqb_eq. destruct (path_eqb a b); split; congruence.
Qed.

Definition logname : string := "log.log"%string.
Definition slog : path := (Results, logname).
Definition rlog (t : string) : path := (RunDir t, logname).

(** A file all of whose names are log.log: what the handle of a run stands for. *)
Definition loggy (w : world) (h : nat) : Prop := h < w_next w /\ forall q, w_files w q = Some h -> snd q = logname.

(** write_file *)
Lemma write_dirs : forall p l w, w_dirs (write_file p l w) = w_dirs w.
Proof. intros p l w. unfold write_file, open_file. destruct (w_files w p); reflexivity. Qed.

Lemma write_next : forall p l w, w_next w <= w_next (write_file p l w).
Proof. intros p l w. unfold write_file, open_file. destruct (w_files w p); cbn; lia. Qed.

Lemma write_files : forall p l w q, p <> q -> w_files (write_file p l w) q = w_files w q.
Proof.
  intros p l w q N. unfold write_file, open_file. destruct (w_files w p); cbn; [reflexivity|].
  apply path_eqb_neq in N. rewrite N. reflexivity.
Qed.

Lemma write_files_same : forall p l w, exists i, w_files (write_file p l w) p = Some i /\ w_data (write_file p l w) i = l /\
  (w_files w p = Some i \/ w_files w p = None /\ i = w_next w /\ w_next (write_file p l w) = S (w_next w)).
Proof.
  intros p l w. unfold write_file, open_file. destruct (w_files w p) as [i|] eqn:E.
  - exists i. cbn. rewrite Nat.eqb_refl. auto.
  - exists (w_next w). cbn. rewrite path_eqb_refl, Nat.eqb_refl. auto 6.
Qed.

Lemma write_data : forall p l w j, w_files w p <> Some j -> j < w_next w -> w_data (write_file p l w) j = w_data w j.
Proof.
  intros p l w j N B. unfold write_file, open_file. destruct (w_files w p) as [i|] eqn:E; cbn.
  - destruct (Nat.eqb i j) eqn:F; [|reflexivity]. apply Nat.eqb_eq in F. congruence.
  - destruct (Nat.eqb (w_next w) j) eqn:F; [|reflexivity]. apply Nat.eqb_eq in F. lia.
Qed.

Lemma write_sane : forall p l w, sane w -> sane (write_file p l w).
Proof.
  intros p l w (D & B & J). split; [rewrite write_dirs; exact D|].
  pose proof (write_next p l w) as N. destruct (write_files_same p l w) as (i & E & _ & F).
  assert (Q : forall q j, w_files (write_file p l w) q = Some j -> p <> q -> w_files w q = Some j)
    by (intros q j E1 NE; rewrite (write_files p l w q NE) in E1; exact E1).
  assert (I : forall q, w_files (write_file p l w) q = Some i -> q = p).
  { intros q E1. destruct (path_eqb p q) eqn:PQ; [apply path_eqb_eq in PQ; auto|].
    apply path_eqb_neq in PQ. pose proof (Q _ _ E1 PQ) as E2. destruct F as [F|(F & -> & _)].
    - exact (J _ _ _ E2 F).
    - pose proof (B _ _ E2). lia. }
  split.
  - intros q j E1. destruct (path_eqb p q) eqn:PQ.
    + apply path_eqb_eq in PQ. subst q. assert (j = i) by congruence. subst j.
      destruct F as [F|(F & -> & F2)]; [pose proof (B _ _ F); lia|lia].
    + apply path_eqb_neq in PQ. pose proof (B _ _ (Q _ _ E1 PQ)). lia.
  - intros q r j E1 E2. destruct (path_eqb p q) eqn:PQ; [apply path_eqb_eq in PQ; subst q; assert (j = i) by congruence; subst j; symmetry; auto|].
    destruct (path_eqb p r) eqn:PR; [apply path_eqb_eq in PR; subst r; assert (j = i) by congruence; subst j; auto|].
    apply path_eqb_neq in PQ, PR. exact (J _ _ _ (Q _ _ E1 PQ) (Q _ _ E2 PR)).
Qed.

Lemma write_content : forall p l w q, sane w ->
  content (write_file p l w) q = if path_eqb p q then Some l else content w q.
Proof.
  intros p l w q (D & B & J). unfold content. destruct (path_eqb p q) eqn:PQ.
  - apply path_eqb_eq in PQ. subst q. destruct (write_files_same p l w) as (i & -> & E & _). cbn. rewrite E. reflexivity.
  - apply path_eqb_neq in PQ. rewrite (write_files p l w q PQ). destruct (w_files w q) as [j|] eqn:E; [|reflexivity].
    cbn. rewrite write_data; [reflexivity| |exact (B _ _ E)]. intro F. apply PQ. exact (J _ _ _ F E).
Qed.

Lemma write_loggy : forall p l w h, snd p <> logname -> loggy w h -> loggy (write_file p l w) h.
Proof.
  intros p l w h N [B L]. pose proof (write_next p l w) as NX. split; [lia|].
  intros q E. destruct (path_eqb p q) eqn:PQ.
  - apply path_eqb_eq in PQ. subst q. destruct (write_files_same p l w) as (i & F & _ & G). assert (i = h) by congruence. subst i.
    destruct G as [G|(_ & -> & _)]; [exact (L _ G)|lia].
  - apply path_eqb_neq in PQ. rewrite (write_files p l w q PQ) in E. exact (L _ E).
Qed.

Lemma write_log_data : forall p l w h, snd p <> logname -> loggy w h -> w_data (write_file p l w) h = w_data w h.
Proof. intros p l w h N [B L]. apply write_data; [|exact B]. intro F. exact (N (L _ F)). Qed.

(** open_file *)
Lemma open_facts : forall p w w1 j, sane w -> open_file p w = (w1, j) ->
  sane w1 /\ w_dirs w1 = w_dirs w /\ w_next w <= w_next w1 /\ w_files w1 p = Some j /\ j < w_next w1 /\
  (forall q, p <> q -> w_files w1 q = w_files w q) /\
  (forall k, k < w_next w -> w_data w1 k = w_data w k) /\
  (w_files w p = Some j \/ w_files w p = None /\ j = w_next w /\ w_data w1 j = []) /\
  (forall q, w_files w1 q = Some j -> q = p).
Proof.
  intros p w w1 j (D & B & J) E. unfold open_file in E. destruct (w_files w p) as [i|] eqn:F.
  - injection E as <- <-. repeat split; auto.
    + exact (B _ _ F).
    + intros q G. exact (J _ _ _ G F).
  - injection E as <- <-. cbn. rewrite path_eqb_refl, Nat.eqb_refl.
    assert (Q : forall q k, (if path_eqb p q then Some (w_next w) else w_files w q) = Some k ->
                q = p /\ k = w_next w \/ q <> p /\ w_files w q = Some k /\ k < w_next w).
    { intros q k G. destruct (path_eqb p q) eqn:PQ.
      - apply path_eqb_eq in PQ. left. split; [auto|congruence].
      - apply path_eqb_neq in PQ. right. split; [auto|]. split; [exact G|exact (B _ _ G)]. }
    repeat split; auto; cbn.
    + intros q k G. destruct (Q _ _ G) as [[_ ->]|(_ & _ & X)]; lia.
    + intros q r k G H. destruct (Q _ _ G) as [[-> ->]|(_ & X & Y)]; destruct (Q _ _ H) as [[-> Z]|(_ & X' & Y')]; try reflexivity; try lia.
      exact (J _ _ _ X X').
    + intros q N. apply path_eqb_neq in N. rewrite N. reflexivity.
    + intros k L. destruct (Nat.eqb (w_next w) k) eqn:G; [apply Nat.eqb_eq in G; lia|reflexivity].
    + intros q G. destruct (Q _ _ G) as [[-> _]|(_ & _ & X)]; [reflexivity|lia].
Qed.

Lemma open_content : forall p w w1 j q, sane w -> open_file p w = (w1, j) ->
  content w1 q = if path_eqb p q then Some (match content w p with Some l => l | None => [] end) else content w q.
Proof.
  intros p w w1 j q S E. destruct (open_facts _ _ _ _ S E) as (_ & _ & _ & F & _ & G & H & I & _).
  destruct S as (_ & B & _). unfold content. destruct (path_eqb p q) eqn:PQ.
  - apply path_eqb_eq in PQ. subst q. rewrite F. cbn. destruct I as [I|(I & -> & K)].
    + rewrite I. cbn. rewrite H; [reflexivity|exact (B _ _ I)].
    + rewrite I. cbn. congruence.
  - apply path_eqb_neq in PQ. rewrite (G _ PQ). destruct (w_files w q) as [k|] eqn:K; [|reflexivity].
    cbn. rewrite (H _ (B _ _ K)). reflexivity.
Qed.

Lemma open_loggy : forall p w w1 j h, sane w -> snd p = logname -> open_file p w = (w1, j) -> h = j \/ loggy w h -> loggy w1 h.
Proof.
  intros p w w1 j h S N E C. destruct (open_facts _ _ _ _ S E) as (_ & _ & NX & F & L & G & _ & I & K).
  destruct C as [->|[B X]].
  - split; [exact L|]. intros q M. rewrite (K _ M). exact N.
  - split; [lia|]. intros q M. destruct (path_eqb p q) eqn:PQ.
    + apply path_eqb_eq in PQ. subst q. exact N.
    + apply path_eqb_neq in PQ. rewrite (G _ PQ) in M. exact (X _ M).
Qed.

(** add_dir *)
Lemma add_dir_sane : forall d w, sane w -> sane (add_dir d w).
Proof. intros d w (D & B & J). repeat split; auto. cbn. rewrite D. apply orb_true_r. Qed.
Lemma add_dir_content : forall d w q, content (add_dir d w) q = content w q.
Proof. reflexivity. Qed.

(** The move of the log. *)
Definition move_log (t : string) (j : nat) (w : world) : world := set_file (rlog t) (Some j) (set_file slog None w).

Lemma move_files : forall t j w q, w_files (move_log t j w) q =
  if path_eqb (rlog t) q then Some j else if path_eqb slog q then None else w_files w q.
Proof. reflexivity. Qed.

Lemma move_sane : forall t j w, sane w -> w_files w slog = Some j -> sane (move_log t j w).
Proof.
  intros t j w (D & B & J) E. split; [exact D|].
  assert (Q : forall q k, w_files (move_log t j w) q = Some k -> q = rlog t /\ k = j \/ q <> slog /\ q <> rlog t /\ w_files w q = Some k).
  { intros q k G. rewrite move_files in G. destruct (path_eqb (rlog t) q) eqn:P1.
    - apply path_eqb_eq in P1. left. split; [auto|congruence].
    - destruct (path_eqb slog q) eqn:P2; [discriminate|]. apply path_eqb_neq in P1, P2. right. auto. }
  split.
  - intros q k G. cbn. destruct (Q _ _ G) as [[_ ->]|(_ & _ & X)]; [exact (B _ _ E)|exact (B _ _ X)].
  - intros q r k G H. destruct (Q _ _ G) as [[-> ->]|(X & _ & Y)]; destruct (Q _ _ H) as [[-> Z]|(X' & _ & Y')]; try reflexivity.
    + destruct (X' (J _ _ _ Y' E)).
    + subst k. destruct (X (J _ _ _ Y E)).
    + exact (J _ _ _ Y Y').
Qed.

Lemma move_content : forall t j w q, snd q <> logname -> content (move_log t j w) q = content w q.
Proof.
  intros t j w q N. unfold content. rewrite move_files.
  destruct (path_eqb (rlog t) q) eqn:P1; [apply path_eqb_eq in P1; subst q; destruct (N eq_refl)|].
  destruct (path_eqb slog q) eqn:P2; [apply path_eqb_eq in P2; subst q; destruct (N eq_refl)|]. reflexivity.
Qed.

Lemma move_loggy : forall t j w h, loggy w h -> loggy (move_log t j w) h.
Proof.
  intros t j w h [B L]. split; [exact B|]. intros q E. rewrite move_files in E.
  destruct (path_eqb (rlog t) q) eqn:P1; [apply path_eqb_eq in P1; subst q; reflexivity|].
  destruct (path_eqb slog q) eqn:P2; [discriminate|]. exact (L _ E).
Qed.

(** say *)
Definition said (w : world) (h : option nat) (l : list item) : world :=
  match h with None => w | Some h => set_data h (w_data w h ++ l) w end.

Lemma said_sane : forall w h l, sane w -> sane (said w h l).
Proof. intros w [h|] l S; exact S. Qed.
Lemma said_content : forall w h l q, (forall j, h = Some j -> loggy w j) -> snd q <> logname -> content (said w h l) q = content w q.
Proof.
  intros w [h|] l q L N; [|reflexivity]. destruct (L _ eq_refl) as [_ X]. unfold content, said. cbn [w_files set_data].
  destruct (w_files w q) as [j|] eqn:E; [|reflexivity]. cbn. destruct (Nat.eqb h j) eqn:F; [|reflexivity].
  apply Nat.eqb_eq in F. subst j. destruct (N (X _ E)).
Qed.
Lemma said_loggy : forall w h l k, loggy w k -> loggy (said w h l) k.
Proof. intros w [h|] l k L; exact L. Qed.

Lemma say_eq : forall i lines w p, say i lines w p =
  (said w (p_handle p) (map (Line i) lines),
   {| p_stamp := p_stamp p; p_args := p_args p; p_handler := p_handler p; p_handle := p_handle p;
      p_out := p_out p ++ match p_handle p with Some _ => lines | None => [] end; p_state := p_state p |}).
Proof. intros i lines w [s a hd [h|] o st]; unfold say; cbn; [reflexivity|]. rewrite app_nil_r. reflexivity. Qed.

(** The files of the steps. *)
Lemma steps_ind : forall (R : world -> Prop) i stamp args step l w,
  R w ->
  (forall w pl t s, step = Some (pl, t) -> In s l -> R w ->
     R (write_file (dir_of stamp pl, render (step_env args s) t) [Written i (render (step_env args s) t)] w)) ->
  R (write_steps i stamp args step l w).
Proof.
  intros R i stamp args [[pl t]|] l; [|intros w Rw _; exact Rw]. unfold write_steps.
  induction l as [|s l IH]; intros w Rw H; [exact Rw|].
  cbn [fold_left]. apply IH; [apply (H w pl t s eq_refl (or_introl eq_refl) Rw)|].
  intros w' pl' t' s' E I. exact (H w' pl' t' s' E (or_intror I)).
Qed.
