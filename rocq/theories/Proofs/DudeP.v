(** Lemmas about the denoisers: contexts. *)
From Coq Require Import List ZArith Bool Lia Arith.
From Verif.Model Require Import Py Float Dude.
From Verif.Spec Require Import DudeSpec.
From Verif.Proofs Require Import Base InfoP.
Import ListNotations.

Lemma zs_eqb_spec a b : zs_eqb a b = true <-> a = b.
Proof.
  revert b. induction a as [|x a IH]; intros [|y b]; cbn; split; intro H; try discriminate; auto.
  - apply andb_true_iff in H. destruct H as [H1 H2]. apply Z.eqb_eq in H1. apply IH in H2. congruence.
  - inversion H; subst. rewrite Z.eqb_refl. cbn. apply IH. reflexivity.
Qed.
Lemma zs_eqb_dec a b : zs_eqb a b = if list_eq_dec Z.eq_dec a b then true else false.
Proof.
  destruct (list_eq_dec Z.eq_dec a b) as [->|N]; [apply zs_eqb_spec; reflexivity|].
  destruct (zs_eqb a b) eqn:E; [apply zs_eqb_spec in E; contradiction|reflexivity].
Qed.
Lemma sides_eqb_spec a b : sides_eqb a b = true <-> a = b.
Proof.
  destruct a as [a a'], b as [b b']. unfold sides_eqb. cbn [fst snd]. rewrite andb_true_iff, !zs_eqb_spec. split; [intros [-> ->]; auto|intro E; inversion E; auto].
Qed.

Lemma slice_app_l {A} (l l' : list A) i j : j <= length l -> slice (l ++ l') i j = slice l i j.
Proof.
  intro H. unfold slice. destruct (le_lt_dec i j) as [L|L]; [|replace (j - i) with 0 by lia; reflexivity].
  rewrite skipn_app, firstn_app. rewrite skipn_length. replace (j - i - (length l - i)) with 0 by lia. cbn [firstn]. apply app_nil_r.
Qed.

Lemma counts_snoc A obs l i : i < length obs -> counts_of A obs (l ++ [i]) =
  map (fun a => Z.of_nat (holding obs a l) + (if Z.eqb (nth i obs (-1)) (Z.of_nat a) then 1 else 0))%Z (seq 0 A).
Proof.
  intros H. unfold counts_of. apply map_ext. intro a. unfold holding. rewrite filter_app, app_length, Nat2Z.inj_add. cbn [filter].
  destruct (Z.eqb (nth i obs (-1)%Z) (Z.of_nat a)); cbn; lia.
Qed.

Lemma bump_map (f : nat -> Z) A i : i < A -> bump (map f (seq 0 A)) i = map (fun a => f a + (if Nat.eqb i a then 1 else 0))%Z (seq 0 A).
Proof.
  intro H. unfold bump. apply nth_ext with (d := 0%Z) (d' := 0%Z).
  - rewrite length_set_nth, !map_length. reflexivity.
  - intros j Hj. rewrite length_set_nth, map_length, seq_length in Hj. rewrite nth_set_nth, map_length, seq_length, (proj2 (Nat.ltb_lt j A) Hj), andb_true_r.
    assert (X : forall g : nat -> Z, forall q, q < A -> nth q (map g (seq 0 A)) 0%Z = g q).
    { intros g q Hq. rewrite nth_indep with (d' := g 0) by (rewrite map_length, seq_length; auto). rewrite map_nth, seq_nth by auto. reflexivity. }
    rewrite !X by auto. destruct (Nat.eqb_spec i j); subst; lia.
Qed.

Lemma zeros_map obs m s : repeat 0%Z m = map (fun a => Z.of_nat (holding obs a [])) (seq s m).
Proof. revert s. induction m as [|m IH]; intro s; [reflexivity|]. cbn [repeat seq map]. f_equal. apply IH. Qed.

Section Online.
Variable FO : fops.
Variable d : dude FO.
Notation A := (d_size FO d).
Notation K := (Z.to_nat (d_k FO d)).

Definition context_inv (k : nat) (s : online) (obs : list Z) : Prop :=
  o_last s = last_k k obs /\
  forall c, dict_get zs_eqb (o_contexts s) c = match follows k obs c with [] => None | l => Some (counts_of A obs l) end.

Lemma follows_short k obs c : length obs <= k -> follows k obs c = [].
Proof. intro H. unfold follows. replace (length obs - k) with 0 by lia. reflexivity. Qed.
Lemma follows_bound k obs c i : In i (follows k obs c) -> k <= i < length obs.
Proof. unfold follows. intro H. apply filter_In in H. destruct H as [H _]. apply in_seq in H. lia. Qed.
Lemma follows_snoc k obs x c : k <= length obs ->
  follows k (obs ++ [x]) c = follows k obs c ++ (if list_eq_dec Z.eq_dec (last_k k obs) c then [length obs] else []).
Proof.
  intro H. unfold follows. rewrite app_length. cbn [length]. replace (length obs + 1 - k) with (length obs - k + 1) by lia.
  rewrite seq_app, filter_app. f_equal.
  - apply filter_ext_in. intros i Hi. apply in_seq in Hi. rewrite slice_app_l by lia. reflexivity.
  - replace (k + (length obs - k)) with (length obs) by lia. cbn [seq filter]. rewrite slice_app_l by lia.
    replace (slice obs (length obs - k) (length obs)) with (last_k k obs); [destruct (list_eq_dec _ _ _); reflexivity|].
    unfold last_k, slice. rewrite firstn_all2; [reflexivity|]. rewrite skipn_length. lia.
Qed.
Lemma holding_app obs obs' a l : (forall i, In i l -> i < length obs) -> holding (obs ++ obs') a l = holding obs a l.
Proof.
  intro H. unfold holding. f_equal. apply filter_ext_in. intros i Hi. rewrite app_nth1 by auto. reflexivity.
Qed.
Lemma counts_app obs obs' l : (forall i, In i l -> i < length obs) -> counts_of A (obs ++ obs') l = counts_of A obs l.
Proof. intro H. unfold counts_of. apply map_ext. intro a. rewrite holding_app; auto. Qed.

Lemma last_k_short k obs : length obs <= k -> last_k k obs = obs.
Proof. intro H. unfold last_k. replace (length obs - k) with 0 by lia. reflexivity. Qed.
Lemma last_k_length k obs : length (last_k k obs) = Nat.min k (length obs).
Proof. unfold last_k. rewrite skipn_length. lia. Qed.
Lemma last_k_snoc k obs x : 1 <= k -> k <= length obs -> last_k k (obs ++ [x]) = tl (last_k k obs) ++ [x].
Proof.
  intros Hk H. unfold last_k. rewrite app_length. cbn [length]. rewrite skipn_app. replace (length obs + 1 - k - length obs) with 0 by lia. cbn [skipn]. f_equal.
  replace (length obs + 1 - k) with (S (length obs - k)) by lia.
  generalize (length obs - k). clear. intro n. revert obs. induction n as [|n IH]; intros [|y t]; try reflexivity. cbn [skipn] in *. apply IH.
Qed.

(** The counts used for the observation x, which is the next one after obs. *)
Definition next_counts (k : nat) (obs : list Z) (x : Z) : list Z := counts_of A (obs ++ [x]) (follows k (obs ++ [x]) (last_k k obs)).

Lemma next_counts_bump k obs x : k <= length obs -> in_alphabet A x ->
  bump (match follows k obs (last_k k obs) with [] => repeat 0%Z A | l => counts_of A obs l end) (Z.to_nat x) = next_counts k obs x.
Proof.
  intros Hk Hx. unfold next_counts. rewrite follows_snoc by auto. destruct (list_eq_dec Z.eq_dec (last_k k obs) (last_k k obs)) as [_|N]; [|congruence].
  rewrite counts_snoc by (rewrite app_length; cbn; lia).
  assert (E : match follows k obs (last_k k obs) with [] => repeat 0%Z A | l => counts_of A obs l end = map (fun a => Z.of_nat (holding obs a (follows k obs (last_k k obs)))) (seq 0 A)).
  { destruct (follows k obs (last_k k obs)) as [|i l]; [|reflexivity]. apply zeros_map. }
  rewrite E, bump_map by (unfold in_alphabet in Hx; lia). apply map_ext. intro a. rewrite holding_app by (intros i Hi; apply follows_bound in Hi; lia). f_equal.
  rewrite nth_middle. unfold in_alphabet in Hx. destruct (Nat.eqb_spec (Z.to_nat x) a); destruct (Z.eqb_spec x (Z.of_nat a)); lia.
Qed.

Lemma sample_range x : in_alphabet A x -> negb ((0 <=? x)%Z && (x <? Z.of_nat A)%Z) = false.
Proof. intros [H1 H2]. apply Z.leb_le in H1. apply Z.ltb_lt in H2. rewrite H1, H2. reflexivity. Qed.

(** One observation. *)
Lemma sample_early k s obs x : d_k FO d = Z.of_nat k -> context_inv k s obs -> length obs < k -> in_alphabet A x ->
  denoise_sample FO d s x = (Online (o_contexts s) (obs ++ [x]), Ok (unchanged FO d (Z.to_nat x), fz FO 0)) /\
  context_inv k (Online (o_contexts s) (obs ++ [x])) (obs ++ [x]).
Proof.
  intros Ek [L C] H Hx. split.
  - unfold denoise_sample. rewrite sample_range by auto. rewrite L, last_k_short by lia. rewrite Ek. rewrite (proj2 (Z.ltb_lt _ _)) by lia. reflexivity.
  - split; [cbn [o_last]; rewrite last_k_short; [reflexivity|rewrite app_length; cbn; lia]|].
    intro c. cbn [o_contexts]. rewrite C, !follows_short; try rewrite app_length; cbn; auto; lia.
Qed.
Lemma sample_late k s obs x : 1 <= k -> d_k FO d = Z.of_nat k -> context_inv k s obs -> k <= length obs -> in_alphabet A x ->
  exists s', denoise_sample FO d s x = (s', decide FO d (next_counts k obs x) (Z.to_nat x)) /\ context_inv k s' (obs ++ [x]).
Proof.
  intros Hk1 Ek [L C] H Hx. unfold denoise_sample. rewrite sample_range by auto. rewrite L, Ek, last_k_length.
  destruct (Z.ltb_spec (Z.of_nat (Nat.min k (length obs))) (Z.of_nat k)); [lia|]. rewrite C.
  eexists. split.
  - cbn zeta. f_equal. f_equal. rewrite <- next_counts_bump by auto. destruct (follows k obs (last_k k obs)); reflexivity.
  - split; [cbn [o_last]; symmetry; apply last_k_snoc; auto|]. intro c. cbn [o_contexts]. rewrite (dict_get_set _ zs_eqb_spec). rewrite follows_snoc by auto. rewrite zs_eqb_dec.
    destruct (list_eq_dec Z.eq_dec c (last_k k obs)) as [->|Nc].
    + destruct (list_eq_dec Z.eq_dec (last_k k obs) (last_k k obs)) as [_|N]; [|congruence].
      destruct (follows k obs (last_k k obs) ++ [length obs]) as [|i0 l0] eqn:El; [destruct (follows k obs (last_k k obs)); discriminate|]. f_equal.
      assert (X := next_counts_bump k obs x H Hx). unfold next_counts in X. rewrite follows_snoc in X by auto.
      destruct (list_eq_dec Z.eq_dec (last_k k obs) (last_k k obs)) as [_|N]; [|congruence]. rewrite El in X. rewrite <- X. destruct (follows k obs (last_k k obs)); reflexivity.
    + destruct (list_eq_dec Z.eq_dec (last_k k obs) c) as [E|_]; [congruence|]. rewrite app_nil_r, C.
      destruct (follows k obs c) as [|i l] eqn:Ef; [reflexivity|]. f_equal. symmetry. apply counts_app. rewrite <- Ef. intros j Hj. apply follows_bound in Hj. lia.
Qed.
Lemma sample_invalid s x : ~ in_alphabet A x -> denoise_sample FO d s x = (s, Err ValueError).
Proof.
  intro H. unfold denoise_sample. destruct (Z.leb_spec 0 x); [|reflexivity]. destruct (Z.ltb_spec x (Z.of_nat A)); [|reflexivity]. destruct H. split; auto.
Qed.

Lemma fed_snoc s obs x : fed FO d s (obs ++ [x]) = fst (denoise_sample FO d (fed FO d s obs) x).
Proof. unfold fed. rewrite fold_left_app. reflexivity. Qed.
Lemma fed_inv k obs : 1 <= k -> d_k FO d = Z.of_nat k -> Forall (in_alphabet A) obs -> context_inv k (fed FO d online_new obs) obs.
Proof.
  intros Hk Ek. induction obs as [|x obs IH] using rev_ind; intro H.
  - split; [reflexivity|]. intro c. rewrite follows_short by (cbn; lia). reflexivity.
  - apply Forall_app in H. destruct H as [H Hx]. inversion Hx; subst. specialize (IH H). rewrite fed_snoc.
    destruct (le_lt_dec k (length obs)) as [L|L].
    + destruct (sample_late k _ obs x Hk Ek IH L) as [s' [-> I]]; auto.
    + destruct (sample_early k _ obs x Ek IH L) as [-> I]; auto.
Qed.
End Online.
