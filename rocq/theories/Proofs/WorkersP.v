(** Lemmas on pools of processes. *)
From Coq Require Import List Arith ZArith Bool Lia.
From Verif.Model Require Import Py Float Workers.
From Verif.Spec Require Import WorkersSpec.
From Verif.Proofs Require Import Base.
Import ListNotations.

Lemma nth_error_ext'' {A} (l m : list A) : (forall i, nth_error l i = nth_error m i) -> l = m.
Proof. revert m. induction l as [|x l IH]; intros [|y m] H; [reflexivity|specialize (H 0); discriminate|specialize (H 0); discriminate|]. f_equal; [specialize (H 0); cbn in H; congruence|]. apply IH. intros i. apply (H (S i)). Qed.

Lemma cut_nil {A} fuel size : cut fuel size (@nil A) = [].
Proof. destruct fuel; reflexivity. Qed.
Lemma cut_concat {A} size : 0 < size -> forall fuel (l : list A), length l <= fuel -> concat (cut fuel size l) = l.
Proof.
  intros Hs. induction fuel as [|fuel IH]; intros [|x l] H; try reflexivity; [cbn in H; lia|]. cbn [cut concat]. rewrite IH; [apply firstn_skipn|]. rewrite skipn_length. cbn [length] in *. lia.
Qed.
Lemma cut_chunks {A} size : 0 < size -> forall fuel (l : list A), length l <= fuel -> Forall (fun c => 0 < length c <= size) (cut fuel size l).
Proof.
  intros Hs. induction fuel as [|fuel IH]; intros [|x l] H; try (constructor; fail). cbn [cut]. constructor; [rewrite firstn_length; cbn [length]; lia|]. apply IH. rewrite skipn_length. cbn [length] in *. lia.
Qed.
Lemma cut_count {A} size : 0 < size -> forall fuel (l : list A), length l <= fuel -> length (cut fuel size l) = chunk_count (length l) size.
Proof.
  intros Hs. unfold chunk_count. induction fuel as [|fuel IH]; intros [|x l] H; try (cbn in H; lia); try (cbn [cut length]; symmetry; apply Nat.div_small; lia). cbn [cut]. set (m := x :: l) in *. cbn [length]. rewrite IH by (rewrite skipn_length; unfold m in *; cbn [length] in *; lia).
  rewrite skipn_length. assert (Hm : 0 < length m) by (cbn; lia). destruct (Nat.le_gt_cases size (length m)) as [L|L].
  - replace (length m + size - 1) with (1 * size + (length m - size + size - 1)) by lia. rewrite Nat.div_add_l by lia. reflexivity.
  - replace (length m - size) with 0 by lia. replace (length m + size - 1) with (1 * size + (length m - 1)) by lia. rewrite Nat.div_add_l by lia. rewrite !Nat.div_small by lia. reflexivity.
Qed.
Lemma chunk_size_pos tasks workers : 0 < workers -> 0 < tasks -> 0 < chunk_size tasks workers.
Proof.
  intros Hw Ht. unfold chunk_size. destruct (Nat.eqb_spec (tasks mod (4 * workers)) 0) as [E|E]; [|lia]. apply Nat.mod_divides in E; [|lia]. destruct E as (c & ->). rewrite Nat.mul_comm, Nat.div_mul by lia. nia.
Qed.

Section PoolP.
Context {S X Y : Type}.
Variable step : S -> X -> res Y * S.
Notation mem_t := (nat -> S).
Notation upd mem w s := (fun v => if Nat.eqb v w then s else mem v).
Notation after := (memory step).

(** Task by task. *)
Fixpoint run_tasks (ts : list (nat * X)) (mem : mem_t) : list (res Y) :=
  match ts with [] => [] | (w, x) :: ts => fst (step (mem w) x) :: run_tasks ts (upd mem w (snd (step (mem w) x))) end.

Lemma run_tasks_ext ts : forall m1 m2, (forall v, m1 v = m2 v) -> run_tasks ts m1 = run_tasks ts m2.
Proof. induction ts as [|[w x] ts IH]; intros m1 m2 H; [reflexivity|]. cbn [run_tasks]. rewrite H. f_equal. apply IH. intros v. destruct (Nat.eqb v w); auto. Qed.
Lemma run_tasks_length ts : forall mem, length (run_tasks ts mem) = length ts.
Proof. induction ts as [|[w x] ts IH]; intros mem; [reflexivity|]. cbn. rewrite IH. reflexivity. Qed.

Lemma chunk_tasks w : forall xs mem rest zs, run_tasks (map (pair w) xs ++ rest) mem = map Ok zs <->
  exists ys zs', zs = ys ++ zs' /\ run_chunk step (mem w) xs = (Ok ys, after (mem w) xs) /\ run_tasks rest (upd mem w (after (mem w) xs)) = map Ok zs'.
Proof.
  induction xs as [|x xs IH]; intros mem rest zs.
  - cbn [map app run_chunk]. unfold after. cbn [fold_left]. assert (E : run_tasks rest (upd mem w (mem w)) = run_tasks rest mem) by (apply run_tasks_ext; intros v; destruct (Nat.eqb_spec v w); congruence). rewrite E. split.
    + intros H. exists [], zs. auto.
    + intros (ys & zs' & -> & H & H2). injection H as <-. exact H2.
  - cbn [map app run_tasks run_chunk]. unfold memory. cbn [fold_left]. destruct (step (mem w) x) as [r s'] eqn:Es. cbn [fst snd].
    specialize (IH (upd mem w s') rest). cbv beta in IH. rewrite Nat.eqb_refl in IH. unfold memory in IH.
    assert (E : forall s2, run_tasks rest (upd (upd mem w s') w s2) = run_tasks rest (upd mem w s2)) by (intros s2; apply run_tasks_ext; intros v; destruct (Nat.eqb v w); reflexivity). cbv beta in E.
    split.
    + intros H. destruct zs as [|z zs]; [discriminate|]. cbn [map] in H. injection H as -> H. apply IH in H. destruct H as (ys & zs' & -> & H1 & H2). rewrite E in H2. rewrite H1. exists (z :: ys), zs'. auto.
    + intros (ys & zs' & -> & H1 & H2). destruct r as [y|e]; [|discriminate]. destruct (run_chunk step s' xs) as [[ys1|e1] s1] eqn:Ec; [|discriminate]. injection H1 as <- E1. subst s1. cbn [app map]. f_equal. apply IH. exists ys1, zs'. rewrite E. auto.
Qed.

Definition flat (sched : list nat) (cs : list (list X)) : list (nat * X) := concat (map (fun wc => map (pair (fst wc)) (snd wc)) (combine sched cs)).

Lemma run_chunk_length : forall xs s ys s', run_chunk step s xs = (Ok ys, s') -> length ys = length xs.
Proof.
  induction xs as [|x xs IH]; intros s ys s' H; cbn [run_chunk] in H; [injection H as <- <-; reflexivity|]. destruct (step s x) as [[y|e] s1]; [|discriminate]. destruct (run_chunk step s1 xs) as [[ys1|e1] s2] eqn:E; [|discriminate]. injection H as <- <-. cbn. f_equal. eapply IH. exact E.
Qed.
Lemma run_chunk_after : forall xs s ys s', run_chunk step s xs = (Ok ys, s') -> s' = after s xs.
Proof.
  induction xs as [|x xs IH]; intros s ys s' H; cbn [run_chunk] in H; [injection H as <- <-; reflexivity|]. unfold memory. cbn [fold_left]. destruct (step s x) as [[y|e] s1]; [|discriminate]. destruct (run_chunk step s1 xs) as [[ys1|e1] s2] eqn:E; [|discriminate]. injection H as <- <-. apply (IH s1 ys1). exact E.
Qed.

Lemma run_chunks_ext sched : forall cs m1 m2, (forall v, m1 v = m2 v) -> run_chunks step sched cs m1 = run_chunks step sched cs m2.
Proof.
  induction sched as [|w sched IH]; intros [|c cs] m1 m2 H; try reflexivity. cbn [run_chunks]. rewrite H. destruct (run_chunk step (m2 w) c) as [r s']. f_equal. apply IH. intros v. destruct (Nat.eqb v w); auto.
Qed.

Lemma chunks_tasks : forall sched cs mem, length sched = length cs -> forall zs,
  run_tasks (flat sched cs) mem = map Ok zs <-> exists yss, run_chunks step sched cs mem = map Ok yss /\ zs = concat yss.
Proof.
  induction sched as [|w sched IH]; intros [|c cs] mem L zs; try discriminate.
  - cbn. split; [intros H; destruct zs; [|discriminate]; exists []; auto|]. intros (yss & H & ->). destruct yss; [reflexivity|discriminate].
  - cbn in L. unfold flat. cbn [combine map concat fst snd run_chunks]. fold (flat sched cs). rewrite chunk_tasks. destruct (run_chunk step (mem w) c) as [r s'] eqn:Ec. split.
    + intros (ys & zs' & -> & H1 & H2). injection H1 as -> ->. apply IH in H2; [|lia]. destruct H2 as (yss & H2 & ->). exists (ys :: yss). cbn [map concat]. rewrite H2. auto.
    + intros (yss & H & ->). destruct yss as [|ys yss]; [discriminate|]. cbn [map] in H. injection H as -> H. pose proof (run_chunk_after c (mem w) ys s' Ec) as ->. exists ys, (concat yss). split; [reflexivity|]. split; [reflexivity|]. apply IH; [lia|]. exists yss. auto.
Qed.

Lemma flat_nth size : 0 < size -> forall fuel (xs : list X) sched t, length xs <= fuel -> length sched = length (cut fuel size xs) ->
  nth_error (flat sched (cut fuel size xs)) t = option_map (pair (owner sched size t)) (nth_error xs t).
Proof.
  intros Hs. induction fuel as [|fuel IH]; intros [|x xs] sched t H L; try (cbn in H; lia); try (destruct sched; [|discriminate]; cbn; destruct t; reflexivity).
  destruct sched as [|w sched]; [discriminate|]. cbn [cut] in *. set (m := x :: xs) in *. unfold flat. cbn [combine map concat fst snd]. fold (flat sched (cut fuel size (skipn size m))).
  assert (Lf : length (firstn size m) = Nat.min size (length m)) by apply firstn_length.
  destruct (Nat.lt_ge_cases t size) as [Ht|Ht].
  - unfold owner. rewrite Nat.div_small by exact Ht. cbn [nth]. destruct (Nat.lt_ge_cases t (length m)) as [Hm|Hm].
    + rewrite nth_error_app1 by (rewrite map_length; lia). rewrite nth_error_map. f_equal. rewrite <- (firstn_skipn size m) at 2. rewrite nth_error_app1 by lia. reflexivity.
    + rewrite (proj2 (nth_error_None m t)) by exact Hm. cbn [option_map]. rewrite skipn_all2 by lia. rewrite cut_nil. unfold flat. rewrite combine_nil. cbn [map concat]. rewrite app_nil_r. apply nth_error_None. rewrite map_length. lia.
  - assert (E : owner (w :: sched) size t = owner sched size (t - size)).
    { unfold owner. replace t with (1 * size + (t - size)) at 1 by lia. rewrite Nat.div_add_l by lia. reflexivity. }
    rewrite E. destruct (Nat.lt_ge_cases (length m) size) as [Hm|Hm].
    + rewrite (proj2 (nth_error_None m t)) by lia. cbn [option_map]. rewrite skipn_all2 by lia. rewrite cut_nil. unfold flat. rewrite combine_nil. cbn [map concat]. rewrite app_nil_r. apply nth_error_None. rewrite map_length. lia.
    + rewrite nth_error_app2 by (rewrite map_length; lia). rewrite map_length, Lf. replace (Nat.min size (length m)) with size by lia. rewrite IH.
      * f_equal. rewrite <- (firstn_skipn size m) at 2. rewrite nth_error_app2 by lia. f_equal. lia.
      * rewrite skipn_length. unfold m in *. cbn [length] in *. lia.
      * cbn in L. lia.
Qed.

(** The memory with which a task runs. *)
Lemma tasks_nth : forall (ts : list (nat * X)) mem t w x, nth_error ts t = Some (w, x) ->
  nth_error (run_tasks ts mem) t = Some (fst (step (after (mem w) (map snd (filter (fun p => Nat.eqb (fst p) w) (firstn t ts)))) x)).
Proof.
  induction ts as [|[w0 x0] ts IH]; intros mem t w x H; [destruct t; discriminate|]. destruct t as [|t]; cbn [nth_error] in H.
  - injection H as -> ->. reflexivity.
  - cbn [run_tasks nth_error firstn filter fst]. rewrite (IH _ t w x H). f_equal. f_equal. f_equal. rewrite (Nat.eqb_sym w0 w). destruct (Nat.eqb_spec w w0) as [-> |N]; reflexivity.
Qed.

Lemma before_values sched size (xs : list X) t : forall ts, length ts = length xs -> t <= length xs -> (forall u, nth_error ts u = option_map (pair (owner sched size u)) (nth_error xs u)) ->
  map snd (filter (fun p => Nat.eqb (fst p) (owner sched size t)) (firstn t ts)) = values xs (before sched size t).
Proof.
  unfold before. generalize (owner sched size t) as w. intros w ts L Ht H. induction t as [|t IH]; [reflexivity|].
  rewrite seq_S. cbn [plus]. rewrite filter_app. unfold values. rewrite flat_map_app. fold (values xs (filter (fun u => Nat.eqb (owner sched size u) w) (seq 0 t))).
  rewrite <- IH by lia. destruct (nth_error xs t) as [x|] eqn:E; [|apply nth_error_None in E; lia]. specialize (H t). rewrite E in H. cbn [option_map] in H.
  assert (F : firstn (Datatypes.S t) ts = firstn t ts ++ [(owner sched size t, x)]).
  { revert H. generalize (owner sched size t, x) as a0. clear. intros a0. revert t. induction ts as [|a ts IH]; intros [|t] H; try discriminate; cbn [nth_error] in H; [injection H as ->; reflexivity|]. cbn [firstn app]. f_equal. apply IH. exact H. }
  rewrite F, filter_app, map_app. f_equal. cbn [filter fst]. destruct (Nat.eqb (owner sched size t) w); [|reflexivity]. cbn [flat_map map snd app]. rewrite E. reflexivity.
Qed.

Lemma pool_iff workers init (xs : list X) sched ys : 0 < workers ->
  let size := chunk_size (length xs) workers in
  pool_map step workers init xs sched (Ok ys) <->
  length sched = length (cut (length xs) size xs) /\ Forall (fun w => w < workers) sched /\ length ys = length xs /\
  forall t x, nth_error xs t = Some x -> exists y, nth_error ys t = Some y /\ fst (step (after (init (owner sched size t)) (values xs (before sched size t))) x) = Ok y.
Proof.
  intros Hw size. destruct xs as [|x0 xs0].
  - split.
    + intros H. inversion H as [yss L F E|]; subst. cbn in L. destruct sched; [|discriminate]. destruct yss; [|discriminate]. repeat split; auto. intros t x Hx. destruct t; discriminate.
    + intros (L & F & Ly & _). destruct ys; [|discriminate]. destruct sched; [|discriminate]. apply (pool_done step workers init [] [] []); auto.
  - set (xs := x0 :: xs0) in *. assert (Hs : 0 < size) by (apply chunk_size_pos; [exact Hw|cbn; lia]).
    set (cs := cut (length xs) size xs).
    assert (Fn : length sched = length cs -> forall t, nth_error (flat sched cs) t = option_map (pair (owner sched size t)) (nth_error xs t)) by (intros L t; apply flat_nth; auto).
    assert (Fl : length sched = length cs -> length (flat sched cs) = length xs).
    { intros L. apply Nat.le_antisymm; apply Nat.nlt_ge; intros C.
      - assert (N : nth_error (flat sched cs) (length xs) <> None) by (apply nth_error_Some; exact C). rewrite Fn in N by exact L. rewrite (proj2 (nth_error_None xs (length xs))) in N by lia. apply N. reflexivity.
      - assert (N : nth_error xs (length (flat sched cs)) <> None) by (apply nth_error_Some; exact C). pose proof (Fn L (length (flat sched cs))) as E. rewrite (proj2 (nth_error_None _ _)) in E by lia. destruct (nth_error xs (length (flat sched cs))); [discriminate|congruence]. }
    assert (K : length sched = length cs -> forall t x, nth_error xs t = Some x -> nth_error (run_tasks (flat sched cs) init) t = Some (fst (step (after (init (owner sched size t)) (values xs (before sched size t))) x))).
    { intros L t x Hx. rewrite (tasks_nth (flat sched cs) init t (owner sched size t) x) by (rewrite Fn by exact L; rewrite Hx; reflexivity). rewrite (before_values sched size xs t (flat sched cs)); auto.
      apply Nat.lt_le_incl, nth_error_Some. rewrite Hx. discriminate. }
    split.
    + intros H. inversion H as [yss L F E|]; subst. split; [exact L|]. split; [exact F|].
      assert (R : run_tasks (flat sched cs) init = map Ok (concat yss)) by (apply (chunks_tasks sched cs init L); exists yss; auto). split.
      * apply (f_equal (@length _)) in R. rewrite run_tasks_length, map_length, Fl in R by exact L. symmetry. exact R.
      * intros t x Hx. specialize (K L t x Hx). rewrite R, nth_error_map in K. destruct (nth_error (concat yss) t) as [y|]; [|discriminate]. cbn [option_map] in K. exists y. split; [reflexivity|]. congruence.
    + intros (L & F & Ly & H). assert (R : run_tasks (flat sched cs) init = map Ok ys).
      { apply nth_error_ext''. intros t. rewrite nth_error_map. destruct (nth_error xs t) as [x|] eqn:E.
        - rewrite (K L t x E). destruct (H t x E) as (y & -> & ->). reflexivity.
        - apply nth_error_None in E. rewrite (proj2 (nth_error_None ys t)) by lia. apply nth_error_None. rewrite run_tasks_length, Fl by exact L. exact E. }
      apply (chunks_tasks sched cs init L) in R. destruct R as (yss & E & ->). apply (pool_done step workers init xs sched yss); assumption.
Qed.
End PoolP.

Lemma outcome {S X Y} (step : S -> X -> res Y * S) workers init xs sched : length sched = length (cut (length xs) (chunk_size (length xs) workers) xs) -> Forall (fun w => w < workers) sched ->
  exists r, pool_map step workers init xs sched r.
Proof.
  intros L F. destruct (existsb (fun r => match r with Ok _ => false | Err _ => true end) (run_chunks step sched (cut (length xs) (chunk_size (length xs) workers) xs) init)) eqn:E.
  - apply existsb_exists in E. destruct E as ([ys|e] & I & H); [discriminate|]. exists (Err e). apply pool_failed; assumption.
  - assert (K : forall l : list (res (list Y)), existsb (fun r => match r with Ok _ => false | Err _ => true end) l = false -> exists yss, l = map Ok yss).
    { induction l as [|[ys|e] l IH]; intros H; [exists []; reflexivity| |discriminate]. destruct (IH H) as (yss & ->). exists (ys :: yss). reflexivity. }
    destruct (K _ E) as (yss & H). exists (Ok (concat yss)). apply pool_done; assumption.
Qed.

Lemma chunk_error {S X Y} (step : S -> X -> res Y * S) : forall xs s e s', run_chunk step s xs = (Err e, s') -> exists s0 x, In x xs /\ fst (step s0 x) = Err e.
Proof.
  induction xs as [|x xs IH]; intros s e s' H; cbn [run_chunk] in H; [discriminate|]. destruct (step s x) as [[y|e1] s1] eqn:E.
  - destruct (run_chunk step s1 xs) as [[ys|e2] s2] eqn:E2; [discriminate|]. injection H as -> ->. destruct (IH s1 e s' E2) as (s0 & x1 & I & H). exists s0, x1. split; [right; exact I|exact H].
  - injection H as -> ->. exists s, x. split; [left; reflexivity|]. rewrite E. reflexivity.
Qed.
Lemma chunks_error {S X Y} (step : S -> X -> res Y * S) e : forall sched cs mem, In (Err e) (run_chunks step sched cs mem) -> exists s0 x, In x (concat cs) /\ fst (step s0 x) = Err e.
Proof.
  induction sched as [|w sched IH]; intros [|c cs] mem H; try (destruct H; fail). cbn [run_chunks] in H. destruct (run_chunk step (mem w) c) as [r s'] eqn:E. destruct H as [-> |H].
  - destruct (chunk_error step c (mem w) e s' E) as (s0 & x & I & Hx). exists s0, x. split; [cbn; apply in_or_app; auto|exact Hx].
  - destruct (IH cs _ H) as (s0 & x & I & Hx). exists s0, x. split; [cbn; apply in_or_app; auto|exact Hx].
Qed.

Lemma noise_draws FO {G} (normal : G -> nat -> list (F FO) * G) sigma nn : forall n g,
  noise_rows FO normal sigma n nn g = (map (map (fmul FO sigma)) (fst (draws (fun g => normal g nn) n g)), snd (draws (fun g => normal g nn) n g)).
Proof. induction n as [|n IH]; intros g; [reflexivity|]. cbn [noise_rows draws]. destruct (normal g nn) as [u g']. rewrite IH. destruct (draws (fun g => normal g nn) n g') as [l g'']. reflexivity. Qed.
Lemma error_draws {G} (choice : G -> nat -> nat -> list nat * G) nn size : forall n g, error_rows choice nn size n g = draws (fun g => choice g nn size) n g.
Proof. induction n as [|n IH]; intros g; [reflexivity|]. cbn [error_rows draws]. destruct (choice g nn size) as [u g']. rewrite IH. reflexivity. Qed.

Lemma iter_in {A} (f : A -> A) n a : Nat.iter n f (f a) = Nat.iter (S n) f a.
Proof. induction n as [|n IH]; [reflexivity|]. exact (f_equal f IH). Qed.
Lemma gauss_memory FO {G X Y} normal (sigma : X -> F FO) n nn (finish : X -> _ -> res Y) : forall xs (g : G),
  memory (gauss_step FO normal sigma n nn finish) g xs = Nat.iter (length xs) (fun g => snd (draws (fun g => normal g nn) n g)) g.
Proof.
  unfold memory. induction xs as [|x xs IH]; intros g; [reflexivity|]. cbn [fold_left length]. rewrite IH. unfold gauss_step. rewrite noise_draws. cbn [snd].
  set (f := fun g => snd (draws (fun g => normal g nn) n g)). change (snd (draws (fun g => normal g nn) n g)) with (f g). apply iter_in.
Qed.
Lemma bf_memory FO {G X Y} normal (sigma : X -> F FO) need n nn (finish : X -> Z -> _ -> res Y) : forall xs it (g : G),
  memory (bf_step FO normal sigma need n nn finish) (it, g) xs = (fold_right Z.max it (map need xs), Nat.iter (length xs) (fun g => snd (draws (fun g => normal g nn) n g)) g).
Proof.
  unfold memory. induction xs as [|x xs IH]; intros it g; [reflexivity|]. cbn [fold_left length map fold_right]. unfold bf_step at 2. cbn [fst snd]. rewrite noise_draws. cbn [snd]. rewrite IH.
  set (f := fun g => snd (draws (fun g => normal g nn) n g)). change (snd (draws (fun g => normal g nn) n g)) with (f g). f_equal.
  - clear. induction xs as [|y xs IH]; cbn [map fold_right]; [reflexivity|]. rewrite IH. lia.
  - apply iter_in.
Qed.
Lemma flip_memory {G X Y} choice (size : X -> nat) nn n (finish : X -> _ -> res Y) : forall xs (g : G),
  memory (flip_step choice size nn n finish) g xs = fold_left (fun g m => snd (draws (fun g => choice g nn m) n g)) (map size xs) g.
Proof. unfold memory. induction xs as [|x xs IH]; intros g; [reflexivity|]. cbn [fold_left map]. rewrite IH. unfold flip_step. rewrite error_draws. destruct (draws (fun g0 : G => choice g0 nn (size x)) n g); reflexivity. Qed.
Lemma values_length {X} (xs : list X) ts : Forall (fun t => t < length xs) ts -> length (values xs ts) = length ts.
Proof. induction 1 as [|t ts H F IH]; [reflexivity|]. unfold values. cbn [flat_map]. fold (values xs ts). rewrite app_length, IH. destruct (nth_error xs t) eqn:E; [reflexivity|]. apply nth_error_None in E. lia. Qed.
Lemma before_bound sched size {X} (xs : list X) t : t < length xs -> Forall (fun u => u < length xs) (before sched size t).
Proof. intros H. apply Forall_forall. intros u Hu. apply filter_In in Hu. destruct Hu as [Hu _]. apply in_seq in Hu. lia. Qed.
