(** Lemmas about relabelling and about cutting buffers. *)
From Coq Require Import List ZArith Arith Bool Lia Sorted Permutation.
From Verif.Model Require Import Py InfoTheory Perf Clustering Relabel.
From Verif.Spec Require Import Info RelabelSpec.
From Verif.Proofs Require Import Base InfoP PerfP.
Import ListNotations.

Lemma argmax_from_spec l : forall best at_ next (full : list Z),
  at_ < next -> skipn next full = l -> length full = next + length l -> nth at_ full 0%Z = best ->
  (forall i, i < next -> (nth i full 0 <= best)%Z) -> (forall i, i < at_ -> (nth i full 0 < best)%Z) ->
  let r := argmax_from best at_ next l in
  r < length full /\ (forall i, i < length full -> (nth i full 0 <= nth r full 0)%Z) /\ (forall i, i < r -> (nth i full 0 < nth r full 0)%Z).
Proof.
  induction l as [|x t IH]; intros best at_ next full Ha Hs Hl Hb Hle Hlt; cbn [argmax_from].
  - cbn [length] in Hl. cbn. rewrite Hb. split; [lia|]. split; [|exact Hlt]. intros i Hi. apply Hle. lia.
  - cbn [length] in Hl. assert (Hx : nth next full 0%Z = x). { rewrite <- (Nat.add_0_r next), <- nth_skipn, Hs. reflexivity. }
    assert (Ht : skipn (S next) full = t). { revert Hs. clear. revert full. induction next; intros [|y full]; cbn [skipn]; intro H; try congruence; try discriminate. apply IHnext. exact H. }
    destruct (Z.ltb_spec best x).
    + apply IH; [lia|exact Ht|lia|exact Hx| |].
      * intros i Hi. destruct (Nat.eq_dec i next) as [->|]; [lia|]. specialize (Hle i ltac:(lia)). lia.
      * intros i Hi. specialize (Hle i Hi). lia.
    + apply IH; [lia|exact Ht|lia|exact Hb| |exact Hlt].
      intros i Hi. destruct (Nat.eq_dec i next) as [->|]; [lia|]. apply Hle. lia.
Qed.

Lemma argmax_flat_spec l : l <> [] -> exists r, argmax_flat l = Ok r /\ r < length l /\
  (forall i, i < length l -> (nth i l 0 <= nth r l 0)%Z) /\ (forall i, i < r -> (nth i l 0 < nth r l 0)%Z).
Proof.
  destruct l as [|x t]; [congruence|]. intros _. cbn [argmax_flat]. exists (argmax_from x 0 1 t). split; [reflexivity|].
  apply argmax_from_spec; auto; intros i Hi; [|lia]. assert (i = 0) as -> by lia. cbn. lia.
Qed.

(** The n by n table of a function. *)
Definition table (n : nat) (f : nat -> nat -> Z) : list (list Z) := map (fun t => map (f t) (seq 0 n)) (seq 0 n).

Lemma concat_rows_length m n (f : nat -> nat -> Z) a : length (concat (map (fun t => map (f t) (seq 0 n)) (seq a m))) = m * n.
Proof. revert a. induction m; intro a; cbn [seq map concat]; [reflexivity|]. rewrite app_length, map_length, seq_length, IHm. lia. Qed.

Lemma concat_rows_nth m n (f : nat -> nat -> Z) a t p : t < m -> p < n ->
  nth (t * n + p) (concat (map (fun t => map (f t) (seq 0 n)) (seq a m))) 0%Z = f (a + t) p.
Proof.
  revert a t. induction m; intros a t Ht Hp; [lia|]. cbn [seq map concat].
  assert (L : length (map (f a) (seq 0 n)) = n) by (rewrite map_length, seq_length; reflexivity).
  destruct t as [|t].
  - rewrite app_nth1 by lia. cbn [Nat.mul Nat.add]. rewrite nth_map_seq by exact Hp. f_equal; lia.
  - rewrite app_nth2 by lia. rewrite L. replace (S t * n + p - n) with (t * n + p) by lia. rewrite IHm by lia. f_equal. lia.
Qed.

Lemma largest_cell_spec n f : 0 < n -> exists t p, largest_cell n (table n f) = Ok (t, p) /\ t < n /\ p < n /\
  forall t' p', t' < n -> p' < n -> (f t' p' <= f t p)%Z /\ (f t' p' = f t p -> reads_before t p t' p').
Proof.
  intro Hn. pose proof (concat_rows_length n n f 0) as L. unfold largest_cell, table.
  destruct (argmax_flat_spec (concat (map (fun t => map (f t) (seq 0 n)) (seq 0 n)))) as (r & E & Hr & Hmax & Hfirst).
  { intro Q. rewrite Q in L. cbn in L. nia. }
  rewrite L in *. exists (r / n), (r mod n). rewrite E. cbn [bind].
  assert (H1 : r / n < n) by (apply Nat.div_lt_upper_bound; lia). assert (H2 : r mod n < n) by (apply Nat.mod_upper_bound; lia).
  assert (Er : r = r / n * n + r mod n) by (rewrite Nat.mul_comm; apply Nat.div_mod; lia).
  split; [reflexivity|]. split; [exact H1|]. split; [exact H2|]. intros t' p' Ht Hp.
  assert (V : nth r (concat (map (fun t => map (f t) (seq 0 n)) (seq 0 n))) 0%Z = f (r / n) (r mod n)).
  { rewrite Er at 1. rewrite concat_rows_nth by assumption. reflexivity. }
  assert (V' : nth (t' * n + p') (concat (map (fun t => map (f t) (seq 0 n)) (seq 0 n))) 0%Z = f t' p') by (rewrite concat_rows_nth by assumption; reflexivity).
  specialize (Hmax (t' * n + p') ltac:(nia)). rewrite V, V' in Hmax. split; [exact Hmax|]. intro Q.
  destruct (Nat.lt_ge_cases (t' * n + p') r) as [Hlt|Hge].
  - specialize (Hfirst _ Hlt). rewrite V, V' in Hfirst. lia.
  - unfold reads_before. rewrite Er in Hge. revert Hge. generalize (r / n) (r mod n) H2. intros a b Hb Hge. destruct (Nat.lt_trichotomy a t') as [|[->|]]; nia.
Qed.

Lemma set_table n f p v : map (fun row => set_nth row p v) (table n f) = table n (fun t q => if Nat.eqb q p then v else f t q).
Proof.
  unfold table. rewrite map_map. apply map_ext. intro t. apply nth_ext_eq with (d := 0%Z).
  - rewrite length_set_nth, !map_length. reflexivity.
  - intros i Hi. rewrite length_set_nth, map_length, seq_length in Hi. rewrite Base.nth_set_nth, !nth_map_seq by exact Hi. rewrite map_length, seq_length. cbn [Nat.add].
    destruct (Nat.eqb_spec i p) as [->|]; cbn [andb]; [destruct (Nat.ltb_spec p n); [reflexivity|lia]|reflexivity].
Qed.

Lemma table_ext n f g : (forall t p, t < n -> p < n -> f t p = g t p) -> table n f = table n g.
Proof. intro H. unfold table. apply map_ext_in. intros t Ht. apply in_seq in Ht. apply map_ext_in. intros p Hp. apply in_seq in Hp. apply H; lia. Qed.

(** The counts that are left when the given columns are marked. *)
Definition marked (count : nat -> nat -> nat) (used : list nat) (t p : nat) : Z := if existsb (Nat.eqb p) used then (-1)%Z else Z.of_nat (count t p).

Lemma existsb_eqb p l : existsb (Nat.eqb p) l = true <-> In p l.
Proof. rewrite existsb_exists. split; [intros (x & Hx & E); apply Nat.eqb_eq in E; subst; exact Hx|intro; exists p; split; [auto|apply Nat.eqb_refl]]. Qed.

Lemma missing_one n (l : list nat) : length l < n -> exists x, x < n /\ ~ In x l.
Proof.
  intro H. destruct (existsb (fun x => negb (existsb (Nat.eqb x) l)) (seq 0 n)) eqn:E.
  - apply existsb_exists in E. destruct E as (x & Hx & Q). exists x. apply in_seq in Hx. split; [lia|]. intro I. apply existsb_eqb in I. rewrite I in Q. discriminate.
  - exfalso. assert (I : incl (seq 0 n) l).
    { intros x Hx. destruct (existsb (Nat.eqb x) l) eqn:Q; [apply existsb_eqb; exact Q|]. exfalso. assert (T : existsb (fun x => negb (existsb (Nat.eqb x) l)) (seq 0 n) = true) by (apply existsb_exists; exists x; rewrite Q; auto). congruence. }
    apply NoDup_incl_length in I; [|apply seq_NoDup]. rewrite seq_length in I. lia.
Qed.

Lemma marked_best count n used : 0 < n -> length used < n -> exists t p, largest_cell n (table n (marked count used)) = Ok (t, p) /\ most_frequent count n used p t.
Proof.
  intros Hn Hu. destruct (largest_cell_spec n (marked count used) Hn) as (t & p & E & Ht & Hp & Best). exists t, p. split; [exact E|].
  assert (Np : ~ In p used).
  { intro I. destruct (missing_one n used Hu) as (q & Hq & Nq). destruct (Best 0 q Hn Hq) as [Q _]. unfold marked in Q. apply existsb_eqb in I. rewrite I in Q.
    destruct (existsb (Nat.eqb q) used) eqn:Eq; [apply existsb_eqb in Eq; tauto|lia]. }
  split; [exact Hp|]. split; [exact Ht|]. split; [exact Np|]. intros p' t' Hp' Ht' N'. destruct (Best t' p' Ht' Hp') as [Q1 Q2]. unfold marked in Q1, Q2.
  destruct (existsb (Nat.eqb p') used) eqn:E1; [apply existsb_eqb in E1; tauto|]. destruct (existsb (Nat.eqb p) used) eqn:E2; [apply existsb_eqb in E2; tauto|].
  split; [lia|]. intro Q. apply Q2. lia.
Qed.

Lemma marked_more count n (m : list (nat * nat)) (p t : nat) : table n (fun t' q => if Nat.eqb q p then (-1)%Z else marked count (map fst m) t' q) = table n (marked count (map fst (m ++ [(p, t)]))).
Proof.
  apply table_ext. intros t' q _ _. unfold marked. rewrite map_app, existsb_app. cbn [map fst existsb]. rewrite orb_false_r. destruct (Nat.eqb q p); [rewrite orb_true_r; reflexivity|rewrite orb_false_r; reflexivity].
Qed.

Definition greedily (count : nat -> nat -> nat) (n : nat) (m : list (nat * nat)) : Prop :=
  NoDup (map fst m) /\ forall j, j < length m -> most_frequent count n (firstn j (map fst m)) (fst (nth j m (0, 0))) (snd (nth j m (0, 0))).

Lemma greedily_more count n m p t : greedily count n m -> most_frequent count n (map fst m) p t -> greedily count n (m ++ [(p, t)]).
Proof.
  intros [ND G] B. split.
  - rewrite map_app. cbn [map fst]. apply Permutation_NoDup with (l := p :: map fst m); [apply Permutation_cons_append|]. constructor; [apply B|exact ND].
  - intros j Hj. rewrite app_length in Hj. cbn [length] in Hj. rewrite map_app, firstn_app, map_length. destruct (Nat.eq_dec j (length m)) as [->|].
    + rewrite Nat.sub_diag, app_nth2, Nat.sub_diag by lia. cbn [nth fst snd firstn]. rewrite app_nil_r, <- (map_length fst m), firstn_all. exact B.
    + rewrite app_nth1 by lia. replace (j - length m) with 0 by lia. rewrite firstn_O, app_nil_r. apply G. lia.
Qed.

Lemma rounds_spec count n k m : 0 < n -> length m + k < n -> greedily count n m ->
  exists m', fold_res (fun s (_ : nat) => relabel_round n s) (seq (length m) k) (table n (marked count (map fst m)), m) = Ok (table n (marked count (map fst m')), m') /\
  greedily count n m' /\ length m' = length m + k.
Proof.
  intro Hn. revert m. induction k; intros m Hk G.
  - exists m. split; [reflexivity|]. split; [exact G|lia].
  - destruct (marked_best count n (map fst m) Hn) as (t & p & E & B); [rewrite map_length; lia|].
    cbn [seq fold_res]. unfold relabel_round at 1. cbn [fst snd]. rewrite E. cbn [bind]. rewrite dict_set_fresh; [|intros; apply Nat.eqb_eq|apply B].
    rewrite set_table, (marked_more count n m p t). destruct (IHk (m ++ [(p, t)])) as (m' & E' & G' & L').
    + rewrite app_length. cbn [length]. lia.
    + apply greedily_more; assumption.
    + rewrite app_length in E', L'. cbn [length] in E', L'. replace (S (length m)) with (length m + 1) by lia. exists m'. split; [exact E'|]. split; [exact G'|lia].
Qed.

Lemma filter_head_least (f : nat -> bool) n a : (exists x, a <= x < a + n /\ f x = true) ->
  exists x, nth_error (filter f (seq a n)) 0 = Some x /\ a <= x < a + n /\ f x = true /\ forall y, a <= y < x -> f y = false.
Proof.
  revert a. induction n; intros a (x & Hx & F); [lia|]. cbn [seq filter]. destruct (f a) eqn:E.
  - exists a. split; [reflexivity|]. split; [lia|]. split; [exact E|]. intros y Hy. lia.
  - destruct (IHn (S a)) as (z & E' & Hz & Fz & Least). { exists x. split; [|exact F]. destruct (Nat.eq_dec x a) as [->|]; [congruence|lia]. }
    exists z. split; [exact E'|]. split; [lia|]. split; [exact Fz|]. intros y Hy. destruct (Nat.eq_dec y a) as [->|]; [exact E|apply Least; lia].
Qed.

Lemma unique_range n : unique (map Z.of_nat (seq 0 n)) = map Z.of_nat (seq 0 n).
Proof.
  symmetry. apply alphabet_fun. split; [|tauto].
  assert (H : forall a, StronglySorted Z.lt (map Z.of_nat (seq a n))); [|apply H]. induction n; intro a; cbn [seq map]; constructor; [apply IHn|].
  apply Forall_forall. intros x Hx. apply in_map_iff in Hx. destruct Hx as (y & <- & Hy). apply in_seq in Hy. lia.
Qed.

Lemma least_missing n (l : list nat) : length l < n -> exists t, index (setdiff1d (map Z.of_nat (seq 0 n)) (map Z.of_nat l)) 0 = Ok (Z.of_nat t) /\
  t < n /\ ~ In t l /\ forall u, u < t -> In u l.
Proof.
  intro H. unfold setdiff1d. rewrite unique_range.
  assert (E : filter (fun v => negb (existsb (Z.eqb v) (map Z.of_nat l))) (map Z.of_nat (seq 0 n)) = map Z.of_nat (filter (fun v => negb (existsb (Nat.eqb v) l)) (seq 0 n))).
  { generalize (seq 0 n). induction l0 as [|x q IH]; [reflexivity|]. cbn [map filter].
    replace (existsb (Z.eqb (Z.of_nat x)) (map Z.of_nat l)) with (existsb (Nat.eqb x) l).
    - destruct (existsb (Nat.eqb x) l); cbn [negb map]; rewrite IH; reflexivity.
    - clear. induction l; [reflexivity|]. cbn [existsb map]. rewrite IHl. f_equal. destruct (Nat.eqb_spec x a), (Z.eqb_spec (Z.of_nat x) (Z.of_nat a)); auto; lia. }
  rewrite E. destruct (missing_one n l H) as (x & Hx & Nx).
  destruct (filter_head_least (fun v => negb (existsb (Nat.eqb v) l)) n 0) as (t & Et & Ht & Ft & Least).
  { exists x. split; [lia|]. destruct (existsb (Nat.eqb x) l) eqn:Q; [apply existsb_eqb in Q; tauto|reflexivity]. }
  exists t. unfold index. rewrite nth_error_map, Et. cbn [option_map]. split; [reflexivity|]. split; [lia|]. split.
  - intro I. apply existsb_eqb in I. cbn beta in Ft. rewrite I in Ft. discriminate.
  - intros u Hu. specialize (Least u ltac:(lia)). cbn beta in Least. apply negb_false_iff in Least. apply existsb_eqb. exact Least.
Qed.

(** The final loop. *)
Lemma mapped_length (predicted : list Z) (m : list (nat * nat)) out : length out = length predicted ->
  length (fold_left (fun out pt => zip_with (fun v x => if (v =? Z.of_nat (fst pt))%Z then Z.of_nat (snd pt) else x) predicted out) m out) = length predicted.
Proof.
  revert out. induction m as [|pt m IH]; intros out H; cbn [fold_left]; [exact H|]. apply IH. unfold zip_with. rewrite map_length, combine_length. lia.
Qed.

Lemma mapped_nth (predicted : list Z) (m : list (nat * nat)) out i : length out = length predicted -> i < length predicted -> NoDup (map fst m) ->
  nth i (fold_left (fun out pt => zip_with (fun v x => if (v =? Z.of_nat (fst pt))%Z then Z.of_nat (snd pt) else x) predicted out) m out) 0%Z =
  match find (fun pt => (nth i predicted 0 =? Z.of_nat (fst pt))%Z) m with Some pt => Z.of_nat (snd pt) | None => nth i out 0%Z end.
Proof.
  revert out. induction m as [|[p t] m IH]; intros out H Hi ND; cbn [fold_left find]; [reflexivity|]. inversion ND as [|? ? N1 N2]; subst. cbn [fst snd] in *.
  rewrite IH; [|unfold zip_with; rewrite map_length, combine_length; lia|exact Hi|exact N2].
  assert (E : nth i (zip_with (fun v x => if (v =? Z.of_nat p)%Z then Z.of_nat t else x) predicted out) 0%Z = if (nth i predicted 0 =? Z.of_nat p)%Z then Z.of_nat t else nth i out 0%Z).
  { unfold zip_with. set (g := fun xy : Z * Z => if (fst xy =? Z.of_nat p)%Z then Z.of_nat t else snd xy). rewrite (nth_indep _ 0%Z (g (0, 0)%Z)) by (rewrite map_length, combine_length; lia). rewrite (map_nth g), combine_nth by lia. reflexivity. }
  rewrite E. destruct (Z.eqb_spec (nth i predicted 0%Z) (Z.of_nat p)) as [Q|Q]; [|reflexivity].
  destruct (find (fun pt => (nth i predicted 0 =? Z.of_nat (fst pt))%Z) m) as [[p' t']|] eqn:Fd; [|reflexivity].
  apply find_some in Fd. destruct Fd as [I Q']. cbn [fst] in Q'. apply Z.eqb_eq in Q'. exfalso. apply N1. apply in_map_iff. exists (p', t'). split; [cbn; lia|exact I].
Qed.

(** Everything after the table of counts. *)
Lemma relabel_spec predicted n real rows count : 0 < n -> prediction_rows predicted n real = Ok rows ->
  prediction_counts n rows = table n (fun t p => Z.of_nat (count t p)) ->
  exists out m, relabel predicted n real = Ok (out, m) /\ greedy_table count n m /\ length out = length predicted /\
  forall i, i < length predicted ->
    (forall p t, In (p, t) m -> nth i predicted 0%Z = Z.of_nat p -> nth i out 0%Z = Z.of_nat t) /\
    (~ (0 <= nth i predicted 0 < Z.of_nat n)%Z -> nth i out 0%Z = 255%Z).
Proof.
  intros Hn Er Ec. unfold relabel. rewrite Er. cbn [bind]. rewrite Ec.
  destruct (rounds_spec count n (n - 1) [] Hn) as (m & E & [ND G] & L); [cbn [length]; lia|split; [constructor|cbn [length]; intros; lia]|].
  cbn [length map] in E, L. assert (E0 : table n (fun t p => Z.of_nat (count t p)) = table n (marked count [])) by reflexivity. rewrite E0, E. cbn [bind].
  destruct (marked_best count n (map fst m) Hn) as (tt & p & E1 & B); [rewrite map_length; lia|]. rewrite E1. cbn [bind].
  rewrite <- (map_map snd Z.of_nat). destruct (least_missing n (map snd m)) as (t & E2 & Ht & Nt & Least); [rewrite map_length; lia|]. rewrite E2. cbn [bind].
  rewrite Nat2Z.id, dict_set_fresh; [|intros; apply Nat.eqb_eq|apply B].
  eexists. exists (m ++ [(p, t)]). split; [reflexivity|].
  assert (ND' : NoDup (map fst (m ++ [(p, t)]))). { rewrite map_app. cbn [map fst]. apply Permutation_NoDup with (l := p :: map fst m); [apply Permutation_cons_append|]. constructor; [apply B|exact ND]. }
  assert (G' : greedy_table count n (m ++ [(p, t)])).
  { split; [rewrite app_length; cbn [length]; lia|]. split; [exact ND'|]. split.
    - intros j Hj. rewrite map_app, firstn_app, map_length. replace (j - length m) with 0 by lia. rewrite firstn_O, app_nil_r, app_nth1 by lia. apply G. lia.
    - cbn zeta. rewrite app_nth2 by lia. replace (n - 1 - length m) with 0 by lia. cbn [nth fst snd]. rewrite map_app, firstn_app, map_length. replace (n - 1 - length m) with 0 by lia. rewrite firstn_O, app_nil_r, firstn_all2 by (rewrite map_length; lia).
      split; [apply B|]. split; [exact Ht|]. split; [exact Nt|exact Least]. }
  split; [exact G'|]. split; [apply mapped_length, map_length|]. intros i Hi. rewrite mapped_nth; [|apply map_length|exact Hi|exact ND']. split.
  - intros p' t' I Q. destruct (find (fun pt => (nth i predicted 0 =? Z.of_nat (fst pt))%Z) (m ++ [(p, t)])) as [[p2 t2]|] eqn:Fd.
    + apply find_some in Fd. destruct Fd as [I2 Q2]. cbn [fst snd] in *. apply Z.eqb_eq in Q2. assert (p2 = p') as -> by lia. f_equal.
      pose proof (dict_in_get Nat.eqb (fun x y => Nat.eqb_eq x y) _ _ _ ND' I) as D1. pose proof (dict_in_get Nat.eqb (fun x y => Nat.eqb_eq x y) _ _ _ ND' I2) as D2. congruence.
    + exfalso. apply find_none with (x := (p', t')) in Fd; [|exact I]. cbn [fst] in Fd. apply Z.eqb_neq in Fd. lia.
  - intro Out. destruct (find (fun pt => (nth i predicted 0 =? Z.of_nat (fst pt))%Z) (m ++ [(p, t)])) as [[p2 t2]|] eqn:Fd.
    + exfalso. apply find_some in Fd. destruct Fd as [I2 Q2]. cbn [fst snd] in *. apply Z.eqb_eq in Q2. apply Out. rewrite Q2. assert (p2 < n); [|lia].
      apply in_app_or in I2. destruct I2 as [I2|[Q|[]]]; [|inversion Q; subst; apply B]. apply (In_nth _ _ (0, 0)) in I2. destruct I2 as (j & Hj & Ej). specialize (G j Hj). rewrite Ej in G. apply G.
    + rewrite (nth_indep _ 0%Z ((fun _ : Z => 255%Z) 0%Z)) by (rewrite map_length; exact Hi). rewrite (map_nth (fun _ : Z => 255%Z) predicted 0%Z i). reflexivity.
Qed.

(** The counts. *)
Lemma map_res_all {A B} (f : A -> res B) (g : A -> B) l : (forall x, In x l -> f x = Ok (g x)) -> map_res f l = Ok (map g l).
Proof. induction l as [|x l IH]; intro H; [reflexivity|]. cbn [map_res map]. rewrite H by (left; reflexivity). cbn [bind]. rewrite IH by (intros; apply H; right; assumption). reflexivity. Qed.

Lemma filter_shift (f g : nat -> bool) q : (forall i, f (S i) = g i) -> length (filter f (map S q)) = length (filter g q).
Proof. intro H. induction q as [|i q IH]; [reflexivity|]. cbn [map filter]. rewrite H. destruct (g i); cbn [length]; rewrite IH; reflexivity. Qed.

Lemma count_given predicted real r p : length predicted = length real ->
  length (filter (fun v => (v =? Z.of_nat p)%Z) (map fst (filter (fun pr => (snd pr =? r)%Z) (combine predicted real)))) =
  length (filter (fun i => (andb (nth i real (-1) =? r) (nth i predicted (-1) =? Z.of_nat p))%Z) (seq 0 (length predicted))).
Proof.
  revert real. induction predicted as [|x l IH]; intros [|y real] H; try discriminate; [reflexivity|]. injection H as H. cbn [combine length]. rewrite <- cons_seq, <- seq_shift. cbn [filter snd]. change (nth 0 (y :: real) (-1)%Z) with y. change (nth 0 (x :: l) (-1)%Z) with x.
  assert (S : length (filter (fun i => (andb (nth i (y :: real) (-1) =? r) (nth i (x :: l) (-1) =? Z.of_nat p))%Z) (map S (seq 0 (length l)))) =
              length (filter (fun i => (andb (nth i real (-1) =? r) (nth i l (-1) =? Z.of_nat p))%Z) (seq 0 (length l)))).
  { apply filter_shift. reflexivity. }
  destruct (y =? r)%Z; cbn [andb]; [|rewrite S; apply IH; exact H]. cbn [map fst filter]. destruct (x =? Z.of_nat p)%Z; cbn [length]; rewrite S, IH by exact H; reflexivity.
Qed.

Lemma count_pad p k l : length (filter (fun v => (v =? Z.of_nat p)%Z) (l ++ repeat (-1)%Z k)) = length (filter (fun v => (v =? Z.of_nat p)%Z) l).
Proof.
  rewrite filter_app, app_length. enough (E : filter (fun v => (v =? Z.of_nat p)%Z) (repeat (-1)%Z k) = []) by (rewrite E; cbn [length]; lia).
  induction k; [reflexivity|]. cbn [repeat filter]. destruct (Z.eqb_spec (-1) (Z.of_nat p)); [lia|exact IHk].
Qed.

Lemma rows_given predicted n real : length predicted = length real -> exists rows, prediction_rows predicted n (Some real) = Ok rows /\
  prediction_counts n rows = table n (fun t p => Z.of_nat (together predicted n (Some real) t p)).
Proof.
  intro H. eexists. split.
  - cbn [prediction_rows]. apply map_res_all with (g := fun r => map fst (filter (fun pr => (snd pr =? Z.of_nat r)%Z) (combine predicted real)) ++ repeat (-1)%Z (length predicted - length (map fst (filter (fun pr => (snd pr =? Z.of_nat r)%Z) (combine predicted real))))).
    intros r _. unfold where_real. rewrite H, Nat.eqb_refl. reflexivity.
  - unfold prediction_counts, table. rewrite map_map. apply map_ext. intro t. apply map_ext. intro p. rewrite count_pad, count_given by exact H. reflexivity.
Qed.

Lemma every_count (l : list Z) r n p : 0 < n -> r < n ->
  length (filter (fun v => (v =? Z.of_nat p)%Z) (every l r n)) =
  length (filter (fun i => (andb (Z.of_nat (i mod n) =? Z.of_nat r) (nth i l (-1) =? Z.of_nat p))%Z) (seq 0 (length l))).
Proof.
  intros Hn Hr. unfold every.
  assert (G : forall (q : list Z) a, length (filter (fun v => (v =? Z.of_nat p)%Z) (map snd (filter (fun ix => (Nat.leb r (fst ix) && Nat.eqb ((fst ix - r) mod n) 0)%bool) (combine (seq a (length q)) q)))) =
    length (filter (fun i => (andb (Z.of_nat ((a + i) mod n) =? Z.of_nat r) (nth i q (-1) =? Z.of_nat p))%Z) (seq 0 (length q)))); [|apply (G l 0)].
  induction q as [|x q IH]; intro a; [reflexivity|]. cbn [length]. rewrite <- cons_seq, <- (cons_seq _ 0), <- (seq_shift _ 0). cbn [combine filter fst]. change (nth 0 (x :: q) (-1)%Z) with x. rewrite Nat.add_0_r.
  assert (S : length (filter (fun i => (andb (Z.of_nat ((a + i) mod n) =? Z.of_nat r) (nth i (x :: q) (-1) =? Z.of_nat p))%Z) (map S (seq 0 (length q)))) =
              length (filter (fun i => (andb (Z.of_nat ((S a + i) mod n) =? Z.of_nat r) (nth i q (-1) =? Z.of_nat p))%Z) (seq 0 (length q)))).
  { apply filter_shift. intro i. replace (a + Datatypes.S i) with (Datatypes.S a + i) by lia. reflexivity. }
  assert (C : (Nat.leb r a && Nat.eqb ((a - r) mod n) 0)%bool = (Z.of_nat (a mod n) =? Z.of_nat r)%Z).
  { apply Bool.eq_iff_eq_true. rewrite andb_true_iff, Nat.leb_le, Nat.eqb_eq, Z.eqb_eq. split.
    - intros [H1 H2]. f_equal. apply Nat.mod_divide in H2; [|lia]. destruct H2 as [c Hc]. replace a with (r + c * n) by lia. rewrite Nat.mod_add by lia. apply Nat.mod_small. exact Hr.
    - intro H. apply Nat2Z.inj in H. pose proof (Nat.div_mod a n ltac:(lia)) as D. rewrite H in D. split; [nia|]. replace (a - r) with (a / n * n) by nia. apply Nat.mod_mul. lia. }
  rewrite C. destruct (Z.of_nat (a mod n) =? Z.of_nat r)%Z; cbn [andb]; [|rewrite S; apply IH]. cbn [map snd filter]. destruct (x =? Z.of_nat p)%Z; cbn [length]; rewrite S, IH; reflexivity.
Qed.

Lemma every_length (l : list Z) r n : 0 < n -> r < n -> length (every l r n) = (length l + (n - 1 - r)) / n.
Proof.
  intros Hn Hr. unfold every. rewrite map_length.
  assert (G : forall (q : list Z) a, length (filter (fun ix => (Nat.leb r (fst ix) && Nat.eqb ((fst ix - r) mod n) 0)%bool) (combine (seq a (length q)) q)) + (a + (n - 1 - r)) / n = (a + length q + (n - 1 - r)) / n).
  { induction q as [|x q IH]; intro a; [cbn [length seq combine filter]; rewrite Nat.add_0_r; reflexivity|]. cbn [length]. rewrite <- cons_seq. cbn [combine filter fst]. replace (a + S (length q)) with (S a + length q) by lia. rewrite <- IH.
    enough (E : (S a + (n - 1 - r)) / n = (a + (n - 1 - r)) / n + if (Nat.leb r a && Nat.eqb ((a - r) mod n) 0)%bool then 1 else 0).
    { rewrite E. destruct (Nat.leb r a && Nat.eqb ((a - r) mod n) 0)%bool; cbn [length]; lia. }
    destruct (Nat.leb_spec r a); cbn [andb].
    - replace (S a + (n - 1 - r)) with ((a - r) + 1 * n) by lia. rewrite Nat.div_add by lia. destruct (Nat.eqb_spec ((a - r) mod n) 0) as [Z0|NZ].
      + apply Nat.mod_divide in Z0; [|lia]. destruct Z0 as [c Hc]. rewrite Hc, Nat.div_mul by lia. f_equal. apply Nat.div_unique with (r := n - 1); [lia|]. nia.
      + rewrite Nat.add_0_r. pose proof (Nat.div_mod (a - r) n ltac:(lia)). pose proof (Nat.mod_upper_bound (a - r) n ltac:(lia)). apply Nat.div_unique with (r := (a - r) mod n - 1); [lia|]. nia.
    - rewrite !Nat.div_small by lia. reflexivity. }
  specialize (G l 0). cbn [Nat.add] in G. rewrite (Nat.div_small (n - 1 - r)) in G by lia. lia.
Qed.

Lemma rows_ordered predicted n : 0 < n -> length predicted mod n = 0 -> exists rows, prediction_rows predicted n None = Ok rows /\
  prediction_counts n rows = table n (fun t p => Z.of_nat (together predicted n None t p)).
Proof.
  intros Hn Hd. exists (map (fun r => every predicted r n) (seq 0 n)). split.
  - cbn [prediction_rows]. destruct (Nat.eqb_spec n 0); [lia|]. apply map_res_all. intros r Hr. apply in_seq in Hr.
    assert (L : length (every predicted r n) = length predicted / n).
    { rewrite every_length by lia. apply Nat.mod_divide in Hd; [|lia]. destruct Hd as [c Hc]. rewrite Hc, Nat.div_mul by lia. symmetry. apply Nat.div_unique with (r := n - 1 - r); [lia|nia]. }
    unfold assign_row. rewrite <- L. destruct (every predicted r n) as [|x [|y q]]; [reflexivity|reflexivity|rewrite Nat.eqb_refl; reflexivity].
  - unfold prediction_counts, table. rewrite map_map. apply map_ext_in. intros t Ht. apply in_seq in Ht. apply map_ext. intro p. rewrite every_count by lia. reflexivity.
Qed.

Lemma rows_few predicted n : length predicted < n -> exists rows, prediction_rows predicted n None = Ok rows /\
  prediction_counts n rows = table n (fun _ _ => 0%Z).
Proof.
  intros Hn. exists (map (fun _ => []) (seq 0 n)). split.
  - cbn [prediction_rows]. destruct (Nat.eqb_spec n 0); [lia|]. apply map_res_all. intros r Hr. apply in_seq in Hr. pose proof (every_length predicted r n ltac:(lia) ltac:(lia)) as L.
    rewrite (Nat.div_small (length predicted)) by exact Hn. assert (L2 : length (every predicted r n) < 2) by (rewrite L; apply Nat.div_lt_upper_bound; lia).
    unfold assign_row. destruct (every predicted r n) as [|x [|y q]]; [reflexivity|reflexivity|cbn [length] in L2; lia].
  - unfold prediction_counts, table. rewrite map_map. apply map_ext. intro t. apply map_ext. reflexivity.
Qed.

Lemma rows_ragged predicted n : 0 < n -> length predicted mod n <> 0 -> n <= length predicted -> prediction_rows predicted n None = Err ValueError.
Proof.
  intros Hn Hd Hl. cbn [prediction_rows]. destruct (Nat.eqb_spec n 0); [lia|]. destruct n as [|n']; [lia|]. rewrite <- cons_seq. cbn [map_res].
  assert (Q : 1 <= length predicted / S n') by (apply Nat.div_le_lower_bound; lia).
  pose proof (every_length predicted 0 (S n') ltac:(lia) ltac:(lia)) as L.
  assert (E : (length predicted + (S n' - 1 - 0)) / S n' = S (length predicted / S n')).
  { pose proof (Nat.div_mod (length predicted) (S n') ltac:(lia)). pose proof (Nat.mod_upper_bound (length predicted) (S n') ltac:(lia)). symmetry. apply Nat.div_unique with (r := length predicted mod S n' - 1); [lia|]. nia. }
  rewrite E in L. unfold assign_row. destruct (every predicted 0 (S n')) as [|x [|y q]]; [cbn [length] in L; lia|cbn [length] in L; lia|].
  destruct (Nat.eqb_spec (length (x :: y :: q)) (length predicted / S n')); [lia|reflexivity].
Qed.

(** A clustering that is right up to the names of the clusters. *)
Lemma together_pos predicted n real t p i : i < length predicted -> real_label n real i = Z.of_nat t -> nth i predicted (-1)%Z = Z.of_nat p -> 0 < together predicted n real t p.
Proof.
  intros Hi H1 H2. unfold together. assert (I : In i (filter (fun i => (andb (real_label n real i =? Z.of_nat t) (nth i predicted (-1) =? Z.of_nat p))%Z) (seq 0 (length predicted)))).
  { apply filter_In. split; [apply in_seq; lia|]. rewrite H1, H2, !Z.eqb_refl. reflexivity. }
  destruct (filter _ _); [destruct I|cbn [length]; lia].
Qed.
Lemma together_some predicted n real t p : 0 < together predicted n real t p -> exists i, i < length predicted /\ real_label n real i = Z.of_nat t /\ nth i predicted (-1)%Z = Z.of_nat p.
Proof.
  unfold together. intro H. destruct (filter (fun i => (andb (real_label n real i =? Z.of_nat t) (nth i predicted (-1) =? Z.of_nat p))%Z) (seq 0 (length predicted))) as [|i q] eqn:E; [cbn in H; lia|].
  assert (I : In i (i :: q)) by (left; reflexivity). rewrite <- E in I. apply filter_In in I. destruct I as [I1 I2]. apply in_seq in I1. apply andb_true_iff in I2. destruct I2 as [I2 I3]. apply Z.eqb_eq in I2, I3. exists i. repeat split; auto; lia.
Qed.

Lemma perfect predicted n real m (name : nat -> nat) i r : greedy_table (together predicted n real) n m ->
  (forall t u, t < n -> u < n -> name t = name u -> t = u) -> (forall t, t < n -> name t < n) ->
  (forall j, j < length predicted -> exists t, t < n /\ real_label n real j = Z.of_nat t /\ nth j predicted (-1)%Z = Z.of_nat (name t)) ->
  i < length predicted -> real_label n real i = Z.of_nat r -> r < n -> In (name r, r) m.
Proof.
  intros (L & ND & G & B1 & B2 & B3 & B4) Inj Rg Pf Hi Hr Rn. set (p := name r) in *.
  assert (Only : forall t q, 0 < together predicted n real t q -> q = name t /\ t < n).
  { intros t q H. apply together_some in H. destruct H as (j & Hj & E1 & E2). destruct (Pf j Hj) as (u & Hu & E3 & E4). assert (u = t) by lia. subst u. split; [lia|exact Hu]. }
  assert (Pos : 0 < together predicted n real r p).
  { destruct (Pf i Hi) as (u & Hu & E3 & E4). assert (u = r) by lia. subst u. eapply together_pos; eauto. }
  assert (Ip : In p (map fst m)).
  { assert (I : incl (map fst m) (seq 0 n)).
    { intros x Hx. apply (In_nth _ _ 0) in Hx. destruct Hx as (j & Hj & E). rewrite map_length in Hj. apply in_seq. rewrite (nth_indep _ 0 (fst (0, 0))) in E by (rewrite map_length; lia). rewrite map_nth in E.
      destruct (Nat.eq_dec j (n - 1)) as [->|]; [lia|]. destruct (G j ltac:(lia)) as (Q & _). lia. }
    apply (NoDup_length_incl ND) in I; [|rewrite seq_length, map_length; lia]. apply I, in_seq. split; [lia|]. apply Rg, Rn. }
  apply (In_nth _ _ 0) in Ip. destruct Ip as (j & Hj & E). rewrite map_length in Hj. rewrite (nth_indep _ 0 (fst (0, 0))) in E by (rewrite map_length; lia). rewrite map_nth in E.
  assert (I : In (nth j m (0, 0)) m) by (apply nth_In; lia). enough (Es : snd (nth j m (0, 0)) = r). { destruct (nth j m (0, 0)) as [a b]. cbn [fst snd] in *. subst. exact I. }
  assert (Nu : forall k, k <= j -> ~ In p (firstn k (map fst m))).
  { intros k Hk In_. apply (In_nth _ _ 0) in In_. destruct In_ as (a & Ha & Ea). rewrite firstn_length, map_length in Ha. rewrite nth_firstn in Ea by lia. rewrite (nth_indep _ 0 (fst (0, 0))) in Ea by (rewrite map_length; lia).
    assert (a = j); [|lia]. apply (proj1 (NoDup_nth (map fst m) (fst (0, 0))) ND); rewrite ?map_length; try lia. rewrite Ea, map_nth. lia. }
  assert (Good : forall k, k < j -> k < n - 1 -> fst (nth k m (0, 0)) = name (snd (nth k m (0, 0))) /\ snd (nth k m (0, 0)) < n /\ snd (nth k m (0, 0)) <> r).
  { intros k Hk Hk'. destruct (G k Hk') as (_ & Q2 & Q3 & Q4). destruct (Q4 p r (Rg r Rn) Rn (Nu k ltac:(lia))) as [Q5 _]. destruct (Only (snd (nth k m (0, 0))) (fst (nth k m (0, 0)))) as [Q6 Q7]; [lia|].
    split; [exact Q6|]. split; [exact Q7|]. intro Qr. rewrite Qr in Q6. fold p in Q6. assert (k = j); [|lia]. apply (proj1 (NoDup_nth (map fst m) (fst (0, 0))) ND); rewrite ?map_length; try lia. rewrite !map_nth. lia. }
  destruct (Nat.eq_dec j (n - 1)) as [Ej|Nj].
  - rewrite Ej in *. destruct (Nat.eq_dec (snd (nth (n - 1) m (0, 0))) r) as [|Ne]; [assumption|exfalso].
    set (vals := firstn (n - 1) (map snd m)) in *. set (z := snd (nth (n - 1) m (0, 0))) in *.
    assert (Nv : forall k, k < n - 1 -> nth k vals 0 = snd (nth k m (0, 0))).
    { intros k Hk. unfold vals. rewrite nth_firstn by exact Hk. rewrite (nth_indep _ 0 (snd (0, 0))) by (rewrite map_length; lia). apply map_nth. }
    assert (Lv : length vals = n - 1) by (unfold vals; rewrite firstn_length, map_length; lia).
    assert (NDv : NoDup vals).
    { apply (NoDup_nth vals 0). intros a b Ha Hb Q. rewrite Lv in *. rewrite !Nv in Q by assumption. destruct (Good a ltac:(lia) Ha) as (A1 & _). destruct (Good b ltac:(lia) Hb) as (A2 & _). rewrite Q in A1.
      apply (proj1 (NoDup_nth (map fst m) (fst (0, 0))) ND); rewrite ?map_length; try lia. rewrite !map_nth. congruence. }
    assert (Inv : forall x, In x vals -> x < n /\ x <> r).
    { intros x Hx. apply (In_nth _ _ 0) in Hx. destruct Hx as (k & Hk & Ek). rewrite Lv in Hk. rewrite Nv in Ek by exact Hk. subst x. apply Good; lia. }
    assert (Big : NoDup (z :: r :: vals)). { constructor; [intros [Q|Q]; [congruence|exact (B3 Q)]|]. constructor; [intro Q; apply Inv in Q; tauto|exact NDv]. }
    assert (Inc : incl (z :: r :: vals) (seq 0 n)). { intros x [<-|[<-|Hx]]; apply in_seq; [unfold z; lia|lia|]. apply Inv in Hx. lia. }
    apply NoDup_incl_length in Inc; [|exact Big]. cbn [length] in Inc. rewrite seq_length, Lv in Inc. lia.
  - destruct (G j ltac:(lia)) as (_ & Q2 & Q3 & Q4). rewrite E in *. destruct (Q4 p r (Rg r Rn) Rn Q3) as [Q5 _]. destruct (Only (snd (nth j m (0, 0))) p) as [Q6 Q7]; [lia|]. apply Inj; [exact Q7|exact Rn|]. symmetry. exact Q6.
Qed.

(** Cutting buffers. *)
Lemma concat_slices {A} (l : list A) k m : m * k <= length l -> concat (map (fun i => slice l (i * k) ((i + 1) * k)) (seq 0 m)) = firstn (m * k) l.
Proof.
  induction m; intro H; [reflexivity|]. rewrite seq_S, map_app, concat_app, IHm by lia. cbn [Nat.add map concat]. rewrite app_nil_r. unfold slice.
  replace ((m + 1) * k - m * k) with k by lia. replace (S m * k) with (m * k + k) by lia. rewrite <- (firstn_skipn (m * k) l) at 3. rewrite firstn_app, firstn_firstn, firstn_length.
  rewrite (Nat.min_r (m * k + k)) by lia. rewrite (Nat.min_l (m * k)) by lia. f_equal. f_equal. lia.
Qed.

Lemma slices_length {A} (l : list A) k m : m * k <= length l -> Forall (fun w => length w = k) (map (fun i => slice l (i * k) ((i + 1) * k)) (seq 0 m)).
Proof. intro H. apply Forall_forall. intros w Hw. apply in_map_iff in Hw. destruct Hw as (i & <- & Hi). apply in_seq in Hi. rewrite length_slice. nia. Qed.

Lemma cut_spec random k c data : (forall c l, length (random c l) = l) ->
  match cut_words random k c data with
  | Ok (words, _) => 0 < k /\ length data <> k /\ carries k data words
  | Err e => (length data = k /\ e = CreationError) \/ (k = 0 /\ data <> [] /\ e = ZeroDivision)
  end.
Proof.
  intro Rnd. unfold cut_words, random_bits. destruct (Nat.leb_spec (length data) k) as [Hl|Hl].
  - destruct (Nat.eqb_spec (k - length data) 0); cbn [bind]; [left; split; [lia|reflexivity]|]. split; [lia|]. split; [lia|]. split; [|split].
    + constructor; [|constructor]. rewrite app_length, Rnd. lia.
    + cbn [concat]. rewrite app_nil_r, firstn_app, firstn_all, Nat.sub_diag, firstn_O. apply app_nil_r.
    + destruct data as [|x t]; [reflexivity|]. cbn [length] in *. apply Nat.div_unique with (r := S (length t) - 1); [lia|lia].
  - destruct (Nat.eqb_spec k 0) as [->|Hk]; [right; split; [reflexivity|]; split; [|reflexivity]; intros ->; cbn in Hl; lia|].
    set (m := length data / k). assert (Hm : 1 <= m) by (apply Nat.div_le_lower_bound; lia). replace (m - 1 + 1) with m by lia.
    pose proof (Nat.div_mod (length data) k Hk) as D. fold m in D. pose proof (Nat.mod_upper_bound (length data) k Hk) as U. assert (Hmk : m * k <= length data) by nia.
    assert (Ne : data <> []) by (intros ->; cbn in Hl; lia).
    destruct (Nat.ltb_spec (m * k) (length data)) as [Ht|Ht].
    + rewrite skipn_length. destruct (Nat.eqb_spec (k - (length data - m * k)) 0); [nia|]. cbn [bind]. split; [lia|]. split; [lia|]. split; [|split].
      * apply Forall_app. split; [apply slices_length; exact Hmk|]. constructor; [|constructor]. rewrite app_length, skipn_length, Rnd. nia.
      * rewrite concat_app, concat_slices by exact Hmk. cbn [concat]. rewrite app_nil_r, app_assoc, firstn_skipn, firstn_app, firstn_all, Nat.sub_diag, firstn_O. apply app_nil_r.
      * rewrite app_length, map_length, seq_length. cbn [length]. destruct data as [|x t]; [congruence|]. apply Nat.div_unique with (r := length (x :: t) mod k - 1); nia.
    + split; [lia|]. split; [lia|]. split; [|split].
      * apply slices_length. exact Hmk.
      * rewrite concat_slices by exact Hmk. rewrite firstn_firstn, Nat.min_l by lia. apply firstn_all.
      * rewrite map_length, seq_length. destruct data as [|x t]; [congruence|]. apply Nat.div_unique with (r := k - 1); nia.
Qed.

Lemma map_res_app {A B} (f : A -> res B) l l' : map_res f (l ++ l') = do! a <- map_res f l in do! b <- map_res f l' in Ok (a ++ b).
Proof.
  induction l as [|x l IH]; cbn [app map_res bind]; [destruct (map_res f l'); reflexivity|]. destruct (f x); cbn [bind]; [|reflexivity]. rewrite IH. destruct (map_res f l); cbn [bind]; [|reflexivity]. destruct (map_res f l'); reflexivity.
Qed.

Section Encode.
Context {W : Type}.
Variable encode : list bool -> res W.
Variable random : nat -> nat -> list bool.
Hypothesis Rnd : forall c l, length (random c l) = l.
Variable k : nat.

Let step (s : list W * nat) data := do! (words, c) <- cut_words random k (snd s) data in do! ws <- map_res encode words in Ok (fst s ++ ws, c).

Lemma encode_fold buffers : forall s out c, fold_res step buffers s = Ok (out, c) ->
  exists groups ws, Forall2 (carries k) buffers groups /\ map_res encode (concat groups) = Ok ws /\ out = fst s ++ ws /\ Forall (fun b => 0 < k /\ length b <> k) buffers.
Proof.
  induction buffers as [|b q IH]; intros s out c; cbn [fold_res].
  - intro E. inversion E; subst. exists [], []. repeat split; auto. cbn [fst]. rewrite app_nil_r. reflexivity.
  - intro E. apply bind_ok in E. destruct E as (s' & E1 & E2). unfold step in E1. pose proof (cut_spec random k (snd s) b Rnd) as C. destruct (cut_words random k (snd s) b) as [[words c']|e]; cbn [bind] in E1; [|discriminate].
    apply bind_ok in E1. destruct E1 as (ws & E3 & E4). inversion E4; subst s'. destruct (IH _ _ _ E2) as (groups & ws' & F & M & O & U). exists (words :: groups), (ws ++ ws'). split; [constructor; [apply C|exact F]|]. split; [|split].
    + cbn [concat]. rewrite map_res_app, E3, M. reflexivity.
    + rewrite O. cbn [fst]. symmetry. apply app_assoc.
    + constructor; [split; apply C|exact U].
Qed.

Lemma encode_fold_ok buffers : (forall w, length w = k -> exists x, encode w = Ok x) -> Forall (fun b => 0 < k /\ length b <> k) buffers -> forall s, exists r, fold_res step buffers s = Ok r.
Proof.
  intros T U. induction U as [|b q [U1 U2] U IH]; intro s; [eexists; reflexivity|]. cbn [fold_res]. unfold step at 1. pose proof (cut_spec random k (snd s) b Rnd) as C. destruct (cut_words random k (snd s) b) as [[words c']|e]; cbn [bind]; [|destruct C as [[? _]|[? _]]; lia].
  assert (E : exists ws, map_res encode words = Ok ws).
  { destruct C as (_ & _ & [F _]). clear - F T. induction F as [|w l Hw F IH]; [eexists; reflexivity|]. cbn [map_res]. destruct (T w Hw) as [x ->]. destruct IH as [ws ->]. eexists. reflexivity. }
  destruct E as [ws ->]. cbn [bind]. apply IH.
Qed.
End Encode.

