(** Lemmas about generate_markov_samples. *)
From Coq Require Import List ZArith Bool Lia Arith.
From Verif.Model Require Import Py Markov.
From Verif.Spec Require Import Info.
From Verif.Proofs Require Import Base InfoP.
Import ListNotations.

Section M.
Variable P : Type.
Variable t : tensor P.
Variable choice : nat -> P -> res Z.

Lemma tail_slice k s : 0 < k <= length s -> slice_from s (- Z.of_nat k) = map (fun j => nth j s 0%Z) (seq (length s - k) k).
Proof.
  intro H. unfold slice_from, norm_bound. rewrite (proj2 (Z.ltb_lt _ _)) by lia.
  replace (Z.to_nat (Z.max 0 (Z.of_nat (length s) + - Z.of_nat k))) with (length s - k) by lia.
  apply nth_ext with (d := 0%Z) (d' := 0%Z); rewrite skipn_length, ?map_length, ?seq_length; [lia|].
  intros m Hm. rewrite nth_indep with (l := map _ _) (d' := nth 0 s 0%Z) by (rewrite map_length, seq_length; lia).
  rewrite (map_nth (fun j => nth j s 0%Z)), seq_nth by lia.
  apply nth_skipn.
Qed.

Lemma loop_spec fuel : forall i states s, 0 < t_order t -> t_order t <= length states -> i + fuel = length states ->
  (forall j, i <= j -> nth j states 0%Z = 0%Z) ->
  (markov_loop choice t fuel i states = Ok s <->
   length s = length states /\ firstn i s = firstn i states /\
   forall j, i <= j < length states ->
     exists p, t_row t (tail_seen (t_order t) (length states) s j) = Ok p /\ choice j p = Ok (nth j s 0%Z)).
Proof.
  induction fuel as [|f IH]; intros i states s Hk Hl Hi Hz.
  - cbn. rewrite Nat.add_0_r in Hi. subst i. rewrite firstn_all. split.
    + intro E. inversion E; subst. split; [auto|]. rewrite firstn_all. split; [auto|]. intros; lia.
    + intros [L [F _]]. rewrite <- L, firstn_all in F. congruence.
  - cbn [markov_loop]. rewrite tail_slice by lia.
    assert (Hseen : forall s', firstn i s' = firstn i states -> map (fun j => nth j states 0%Z) (seq (length states - t_order t) (t_order t))
         = tail_seen (t_order t) (length states) s' i).
    { intros s' F. unfold tail_seen. apply map_ext. intro j. destruct (Nat.ltb_spec j i) as [G|G]; [|apply Hz; auto].
      assert (Q : nth j (firstn i s') 0%Z = nth j (firstn i states) 0%Z) by (rewrite F; reflexivity).
      rewrite <- (firstn_skipn i s') , <- (firstn_skipn i states).
      assert (length (firstn i states) = i) by (apply firstn_length_le; lia).
      assert (length (firstn i s') = i) by (rewrite F; auto).
      rewrite !app_nth1 by lia. auto. }
    split.
    + intro E. destruct (t_row t _) as [p|e] eqn:R; [|discriminate]. cbn [bind] in E.
      destruct (choice i p) as [v|e] eqn:C; [|discriminate]. cbn [bind] in E.
      apply IH in E; [|auto|rewrite length_set_nth; auto|rewrite length_set_nth; lia|].
      * rewrite length_set_nth in E. destruct E as [L [F HS]].
        assert (Fi : firstn i s = firstn i states).
        { replace (firstn i s) with (firstn i (firstn (S i) s)) by (rewrite firstn_firstn; f_equal; lia). rewrite F, firstn_firstn.
          replace (Nat.min i (S i)) with i by lia. clear. revert i. induction states as [|x l IHl]; intros [|i]; cbn; auto. f_equal. apply IHl. }
        split; [auto|]. split; [auto|]. intros j Hj. destruct (Nat.eq_dec j i) as [->|N].
        -- exists p. rewrite <- (Hseen s Fi). split; [auto|].
           assert (Q : nth i (firstn (S i) s) 0%Z = nth i (firstn (S i) (set_nth states i v)) 0%Z) by (rewrite F; reflexivity).
           assert (G : forall l : list Z, S i <= length l -> nth i (firstn (S i) l) 0%Z = nth i l 0%Z).
           { intros l Hle. rewrite <- (firstn_skipn (S i) l) at 2. rewrite app_nth1; [auto|]. rewrite firstn_length_le; lia. }
           rewrite !G in Q by (rewrite ?length_set_nth; lia). rewrite Q, nth_set_nth, Nat.eqb_refl, (proj2 (Nat.ltb_lt _ _)) by lia. exact C.
        -- apply HS. lia.
      * intros j Hj. rewrite nth_set_nth. destruct (Nat.eqb_spec i j); [lia|]. cbn. apply Hz. lia.
    + intros [L [F HS]]. destruct (HS i) as [p [R C]]; [lia|]. rewrite (Hseen s F), R. cbn [bind]. rewrite C. cbn [bind].
      apply IH; [auto|rewrite length_set_nth; auto|rewrite length_set_nth; lia| |].
      * intros j Hj. rewrite nth_set_nth. destruct (Nat.eqb_spec i j); [lia|]. cbn. apply Hz. lia.
      * rewrite length_set_nth. split; [auto|]. split; [|intros; apply HS; lia].
        assert (Hi' : i < length s) by lia. clear - F Hi' L.
        revert i states F Hi' L. induction s as [|x s IHs]; intros i states F Hi' L; [cbn in Hi'; lia|].
        destruct states as [|y st]; [cbn in L; lia|]. destruct i as [|i]; [reflexivity|].
        cbn [firstn set_nth nth] in *. inversion F; subst. f_equal. apply (IHs i st); auto; cbn in *; lia.
Qed.


Lemma fill_repeat z n k : k <= n -> fill (repeat 0%Z n) 0 k z = repeat z k ++ repeat 0%Z (n - k).
Proof. revert n. induction k as [|k IH]; intros [|n] H; cbn; try lia; auto. rewrite IH by lia. reflexivity. Qed.

Lemma markov_exact init n s :
  generate_markov_samples choice t init n = Ok s <->
  length (start_values init) = t_order t /\ 0 < t_order t /\ t_last t = t_before_last t /\
  (t_order t <= n \/ t_order t = 1) /\ length s = n /\ firstn (t_order t) s = firstn n (start_values init) /\
  forall i, t_order t <= i < n -> exists p, t_row t (tail_seen (t_order t) n s i) = Ok p /\ choice i p = Ok (nth i s 0%Z).
Proof.
  unfold generate_markov_samples.
  assert (G : forall l, length l = t_order t -> 0 < t_order t -> t_order t <= n ->
    (markov_loop choice t (n - t_order t) (t_order t) (l ++ repeat 0%Z (n - t_order t)) = Ok s <->
     length s = n /\ firstn (t_order t) s = firstn n l /\
     forall i, t_order t <= i < n -> exists p, t_row t (tail_seen (t_order t) n s i) = Ok p /\ choice i p = Ok (nth i s 0%Z))).
  { intros l Hl Hk Hn. rewrite loop_spec; auto.
    - assert (E : length (l ++ repeat 0%Z (n - t_order t)) = n) by (rewrite app_length, repeat_length; lia). rewrite E.
      rewrite firstn_app, Hl, Nat.sub_diag, firstn_O, app_nil_r. rewrite (firstn_all2 (n := t_order t) l) by lia.
      rewrite (firstn_all2 (n := n) l) by lia. tauto.
    - rewrite app_length, repeat_length. lia.
    - rewrite app_length, repeat_length. lia.
    - intros j Hj. rewrite app_nth2 by lia. apply nth_repeat. }
  assert (Hone : forall z, t_order t = 1 ->
    (markov_loop choice t (n - t_order t) (t_order t) (fill (repeat 0%Z n) 0 (t_order t) z) = Ok s <->
     length s = n /\ firstn (t_order t) s = firstn n [z] /\
     forall i, t_order t <= i < n -> exists p, t_row t (tail_seen (t_order t) n s i) = Ok p /\ choice i p = Ok (nth i s 0%Z))).
  { intros z E. destruct n as [|n'].
    - cbn. split.
      + intro H. inversion H; subst. split; [auto|]. split; [destruct (t_order t); reflexivity|]. intros; lia.
      + intros [L _]. destruct s; [auto|discriminate].
    - rewrite fill_repeat by lia. rewrite E at 3. cbn [repeat]. apply G; cbn; lia. }
  destruct init as [z|l]; cbn [start_values].
  - destruct (Nat.eqb_spec (t_order t) 1) as [E|N]; cbn [bind]; [|split; [discriminate|intros [H _]; cbn in H; lia]].
    destruct (Nat.eqb_spec (t_order t) 0); [lia|]. destruct (Nat.eqb_spec (t_last t) (t_before_last t)) as [E2|N2]; cbn [negb].
    + rewrite Hone by auto. cbn [length]. intuition lia.
    + split; [discriminate|]. intuition congruence.
  - destruct (Nat.eqb_spec (t_order t) (length l)) as [E|N]; cbn [bind]; [|split; [discriminate|intros [H _]; lia]].
    destruct (Nat.eqb_spec (t_order t) 0) as [E0|N0]; [split; [discriminate|intros [_ [H _]]; lia]|].
    destruct (Nat.eqb_spec (t_last t) (t_before_last t)) as [E2|N2]; cbn [negb]; [|split; [discriminate|]; intuition congruence].
    destruct l as [|z [|z2 l]]; [cbn in E; lia| |].
    + cbn [bind]. rewrite Hone by auto. intuition lia.
    + set (L := z :: z2 :: l) in *. destruct (Nat.leb_spec (t_order t) n) as [Hle|Hgt]; cbn [bind].
      * rewrite G by (auto; lia). assert (0 < t_order t) by lia. assert (length L = t_order t) by auto. tauto.
      * split; [discriminate|]. intros [_ [_ [_ [[H|H] _]]]]; [lia|]. subst L. cbn in E. lia.
Qed.

Lemma markov_zero_row init n s : generate_markov_samples choice t init n = Ok s ->
  forall i, t_order t <= i -> i + t_order t <= n -> exists p, t_row t (repeat 0%Z (t_order t)) = Ok p /\ choice i p = Ok (nth i s 0%Z).
Proof.
  intros H i Hi Hn. apply markov_exact in H. destruct H as (_ & Hk & _ & _ & _ & _ & HS). destruct (HS i) as [p [R C]]; [lia|].
  exists p. split; [|exact C]. rewrite <- R. f_equal. unfold tail_seen.
  assert (E : forall m, i <= m -> repeat 0%Z (t_order t) = map (fun j => if j <? i then nth j s 0%Z else 0%Z) (seq m (t_order t))).
  { clear. induction (t_order t) as [|k IH]; intros m Hm; [reflexivity|]. cbn [repeat seq map].
    destruct (Nat.ltb_spec m i); [lia|]. f_equal. apply IH. lia. }
  apply E. lia.
Qed.
End M.
