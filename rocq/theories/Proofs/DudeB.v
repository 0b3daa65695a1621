(** The batch denoiser. *)
From Coq Require Import List ZArith Bool Lia Arith.
From Verif.Model Require Import Py Float Dude.
From Verif.Spec Require Import DudeSpec.
From Verif.Proofs Require Import Base InfoP PerfP DudeP.
Import ListNotations.

Lemma fold_res_app {A B} (f : B -> A -> res B) l l' b : fold_res f (l ++ l') b = (do! x <- fold_res f l b in fold_res f l' x).
Proof. revert b. induction l as [|a l IH]; intro b; [reflexivity|]. cbn. destruct (f b a); cbn; auto. Qed.

Lemma array_index_ok n x : in_alphabet n x -> array_index n x = Ok (Z.to_nat x).
Proof. intros [H1 H2]. unfold array_index. apply Z.leb_le in H1. apply Z.ltb_lt in H2. rewrite H1, H2. reflexivity. Qed.

(** Positions among k, ..., k+m-1. *)
Definition between_upto (k m : nat) (obs : list Z) (c : list Z * list Z) : list nat := filter (fun i => sides_eqb (two_sides k obs i) c) (seq k m).
Lemma between_all k obs l r : between k obs l r = between_upto k (length obs - 2 * k) obs (l, r).
Proof.
  unfold between, between_upto. apply filter_ext. intro i. unfold sides_eqb, two_sides. cbn [fst snd]. rewrite !zs_eqb_dec.
  destruct (list_eq_dec _ _ l); [destruct (list_eq_dec _ _ r)|]; reflexivity.
Qed.

Section Batch.
Variable FO : fops.
Variable d : dude FO.
Notation A := (d_size FO d).

Lemma bump_counts obs l i : i < length obs -> in_alphabet A (nth i obs 0%Z) ->
  bump (match l with [] => repeat 0%Z A | _ => counts_of A obs l end) (Z.to_nat (nth i obs 0%Z)) = counts_of A obs (l ++ [i]).
Proof.
  intros Hi Ha. rewrite counts_snoc by auto.
  assert (E : match l with [] => repeat 0%Z A | _ => counts_of A obs l end = map (fun a => Z.of_nat (holding obs a l)) (seq 0 A)).
  { destruct l; [apply zeros_map|reflexivity]. }
  rewrite E, bump_map by (unfold in_alphabet in Ha; lia). apply map_ext. intro a. rewrite (nth_indep obs (-1)%Z 0%Z Hi).
  unfold in_alphabet in Ha. destruct (Nat.eqb_spec (Z.to_nat (nth i obs 0%Z)) a); destruct (Z.eqb_spec (nth i obs 0%Z) (Z.of_nat a)); lia.
Qed.

Lemma contexts_spec k obs m : Forall (in_alphabet A) obs -> m <= length obs - 2 * k ->
  exists D, fold_res (fun contexts i =>
      let c := two_sides k obs i in
      let counts := match dict_get sides_eqb contexts c with Some x => x | None => repeat 0%Z A end in
      do! a <- array_index A (nth i obs 0%Z) in Ok (dict_set sides_eqb contexts c (bump counts a))) (seq k m) [] = Ok D /\
    forall c, dict_get sides_eqb D c = match between_upto k m obs c with [] => None | l => Some (counts_of A obs l) end.
Proof.
  intro Ho. induction m as [|m IH]; intro Hm.
  - exists []. split; [reflexivity|]. reflexivity.
  - destruct IH as [D [E H]]; [lia|]. replace (S m) with (m + 1) by lia. rewrite seq_app, fold_res_app, E. cbn [bind seq fold_res].
    assert (Hi : k + m < length obs) by lia.
    assert (Ha : in_alphabet A (nth (k + m) obs 0%Z)) by (rewrite Forall_forall in Ho; apply Ho, nth_In; auto).
    rewrite (array_index_ok _ _ Ha). cbn [bind]. eexists. split; [reflexivity|].
    intro c. rewrite (dict_get_set _ sides_eqb_spec). unfold between_upto. rewrite seq_app, filter_app. cbn [seq filter]. fold (between_upto k m obs c).
    destruct (sides_eqb c (two_sides k obs (k + m))) eqn:Ec.
    + apply sides_eqb_spec in Ec. subst c. rewrite (proj2 (sides_eqb_spec _ _) eq_refl). rewrite H.
      pose proof (bump_counts obs (between_upto k m obs (two_sides k obs (k + m))) (k + m) Hi Ha) as X.
      destruct (between_upto k m obs (two_sides k obs (k + m))) as [|i l]; cbn [app] in *; rewrite X; reflexivity.
    + assert (Ec' : sides_eqb (two_sides k obs (k + m)) c = false).
      { destruct (sides_eqb (two_sides k obs (k + m)) c) eqn:E2; [|reflexivity]. apply sides_eqb_spec in E2. subst c. rewrite (proj2 (sides_eqb_spec _ _) eq_refl) in Ec. discriminate. }
      rewrite Ec', app_nil_r. apply H.
Qed.

(** Writing the entries k, ..., k+m-1 of two arrays. *)
Lemma write_spec {E C} (f : nat -> res (E * C)) (e : nat -> E) (c : nat -> C) k m (es : list E) (cs : list C) :
  (forall i, k <= i < k + m -> f i = Ok (e i, c i)) ->
  exists es' cs', fold_res (fun ec i => do! x <- f i in Ok (set_nth (fst ec) i (fst x), set_nth (snd ec) i (snd x))) (seq k m) (es, cs) = Ok (es', cs') /\
    length es' = length es /\ length cs' = length cs /\
    (forall i de, nth i es' de = if (k <=? i) && (i <? k + m) && (i <? length es) then e i else nth i es de) /\
    (forall i dc, nth i cs' dc = if (k <=? i) && (i <? k + m) && (i <? length cs) then c i else nth i cs dc).
Proof.
  induction m as [|m IH]; intro H.
  - exists es, cs. cbn [seq fold_res]. repeat split; auto; intros i v; destruct (Nat.leb_spec k i); destruct (Nat.ltb_spec i (k + 0)); cbn [andb]; auto; lia.
  - destruct IH as (es' & cs' & E0 & L1 & L2 & H1 & H2); [intros; apply H; lia|]. replace (S m) with (m + 1) by lia. rewrite seq_app, fold_res_app, E0. cbn [bind seq fold_res fst snd].
    rewrite H by lia. cbn [bind fst snd]. do 2 eexists. split; [reflexivity|]. rewrite !length_set_nth. split; [auto|]. split; [auto|].
    split; intros i v; rewrite nth_set_nth; [rewrite L1, H1|rewrite L2, H2]; destruct (Nat.eqb_spec (k + m) i) as [<-|N]; cbn [andb].
    + rewrite (proj2 (Nat.leb_le k (k + m))), (proj2 (Nat.ltb_lt (k + m) (k + (m + 1)))) by lia. cbn [andb]. rewrite (proj2 (Nat.ltb_ge (k + m) (k + m))) by lia. reflexivity.
    + replace (i <? k + (m + 1)) with (i <? k + m) by (destruct (Nat.ltb_spec i (k + m)); destruct (Nat.ltb_spec i (k + (m + 1))); auto; lia). reflexivity.
    + rewrite (proj2 (Nat.leb_le k (k + m))), (proj2 (Nat.ltb_lt (k + m) (k + (m + 1)))) by lia. cbn [andb]. rewrite (proj2 (Nat.ltb_ge (k + m) (k + m))) by lia. reflexivity.
    + replace (i <? k + (m + 1)) with (i <? k + m) by (destruct (Nat.ltb_spec i (k + m)); destruct (Nat.ltb_spec i (k + (m + 1))); auto; lia). reflexivity.
Qed.

Lemma border_ok obs : Forall (in_alphabet A) obs -> border FO d obs = Ok (map (fun o => unchanged FO d (Z.to_nat o)) obs).
Proof.
  intro H. unfold border, unchanged. destruct (d_hard FO d).
  - f_equal. apply map_ext_in. intros o Ho. rewrite Forall_forall in H. destruct (H o Ho). rewrite Z2Nat.id by auto. reflexivity.
  - apply map_res_ok. intros o Ho. rewrite Forall_forall in H. rewrite (array_index_ok _ _ (H o Ho)). reflexivity.
Qed.

Lemma decide_ok counts a : d_hard FO d = true \/ 2 <= A -> exists e c, decide FO d counts a = Ok (e, c).
Proof.
  intros H. unfold decide. destruct (d_hard FO d); [do 2 eexists; reflexivity|]. destruct H as [H|H]; [discriminate|].
  unfold smooth_posterior, vecmat. destruct A as [|[|n]]; try lia. cbn [seq map]. cbn [bind]. do 2 eexists. reflexivity.
Qed.

Lemma nth_skipn_app {E} (l : list E) i k de : nth i (skipn k l) de = nth (k + i) l de.
Proof. revert l. induction k as [|k IH]; intros [|x l]; cbn; auto; destruct i; reflexivity. Qed.

Definition two_sided_counts (k : nat) (obs : list Z) (i : nat) : list Z := counts_of A obs (between k obs (slice obs (i - k) i) (slice obs (i + 1) (i + k + 1))).

Lemma batch_spec k obs : d_k FO d = Z.of_nat k -> Forall (in_alphabet A) obs -> d_hard FO d = true \/ 2 <= A ->
  exists es cs, denoise_batch FO d obs = Ok (es, fmean FO cs) /\ length es = length obs /\ length cs = length obs /\
    (forall i de dc, i < length obs -> i < k \/ length obs <= i + k -> nth i es de = unchanged FO d (Z.to_nat (nth i obs 0%Z)) /\ nth i cs dc = fz FO 0) /\
    (forall i de dc, k <= i -> i + k < length obs -> decide FO d (two_sided_counts k obs i) (Z.to_nat (nth i obs 0%Z)) = Ok (nth i es de, nth i cs dc)).
Proof.
  intros Ek Ho Hd. unfold denoise_batch. rewrite Ek, Nat2Z.id.
  assert (Fo : forall j, Forall (in_alphabet A) (firstn j obs) /\ Forall (in_alphabet A) (skipn j obs)).
  { intro j. apply Forall_app. rewrite firstn_skipn. exact Ho. }
  rewrite (border_ok _ (proj1 (Fo k))). cbn [bind]. set (from := if Nat.eqb k 0 then 0 else length obs - k). rewrite (border_ok _ (proj2 (Fo from))). cbn [bind].
  destruct (contexts_spec k obs (length obs - 2 * k) Ho (le_n _)) as [D [ED HD]]. assert (ED' : batch_contexts FO d k obs = Ok D) by exact ED. rewrite ED'. cbn [bind].
  set (zero := if d_hard FO d then Hard 0 else Soft (repeat (fz FO 0) A)).
  set (un := fun o => unchanged FO d (Z.to_nat o)).
  set (es0 := firstn from (map un (firstn k obs) ++ repeat zero (length obs - k)) ++ map un (skipn from obs)).
  assert (Lfrom : from <= length obs) by (unfold from; destruct (Nat.eqb k 0); lia).
  assert (L0 : length (map un (firstn k obs) ++ repeat zero (length obs - k)) = length obs) by (rewrite app_length, map_length, firstn_length, repeat_length; lia).
  assert (Les : length es0 = length obs) by (unfold es0; rewrite app_length, firstn_length, map_length, skipn_length, L0; lia).
  set (cs0 := repeat (fz FO 0) (length obs)).
  assert (Lcs : length cs0 = length obs) by apply repeat_length.
  set (dflt := (zero, fz FO 0)).
  set (g := fun i => match decide FO d (two_sided_counts k obs i) (Z.to_nat (nth i obs 0%Z)) with Ok x => x | Err _ => dflt end).
  destruct (write_spec (fun i => do! counts <- match dict_get sides_eqb D (two_sides k obs i) with Some c => Ok c | None => Err KeyError end in
             do! a <- array_index A (nth i obs 0%Z) in decide FO d counts a) (fun i => fst (g i)) (fun i => snd (g i)) k (length obs - 2 * k) es0 cs0) as (es & cs & E & L1 & L2 & H1 & H2).
  - intros i Hi. rewrite HD. unfold two_sides at 1. rewrite <- between_all.
    assert (NE : between k obs (slice obs (i - k) i) (slice obs (i + 1) (i + k + 1)) <> []).
    { intro X. assert (Y : In i (between k obs (slice obs (i - k) i) (slice obs (i + 1) (i + k + 1)))).
      { unfold between. apply filter_In. split; [apply in_seq; lia|]. destruct (list_eq_dec _ _ _) as [_|N]; [|congruence]. destruct (list_eq_dec _ _ _) as [_|N]; [reflexivity|congruence]. }
      rewrite X in Y. destruct Y. }
    assert (Ha : in_alphabet A (nth i obs 0%Z)) by (rewrite Forall_forall in Ho; apply Ho, nth_In; lia).
    rewrite (array_index_ok _ _ Ha).
    replace (match between k obs (slice obs (i - k) i) (slice obs (i + 1) (i + k + 1)) with [] => None | l => Some (counts_of A obs l) end)
      with (Some (two_sided_counts k obs i)) by (unfold two_sided_counts; destruct (between k obs (slice obs (i - k) i) (slice obs (i + 1) (i + k + 1))); congruence).
    cbn [bind]. unfold g. destruct (decide_ok (two_sided_counts k obs i) (Z.to_nat (nth i obs 0%Z)) Hd) as (e & c & ->). reflexivity.
  - exists es, cs. split; [|split; [lia|split; [lia|split]]].
    + match type of E with ?X = _ => match goal with |- (do! r <- ?Y in _) = _ => replace Y with X end end; [rewrite E; reflexivity|].
      clear. generalize (es0, cs0). intro ec. revert ec. induction (seq k (length obs - 2 * k)) as [|i l IH]; intro ec; [reflexivity|]. cbn [fold_res].
      destruct (dict_get sides_eqb D (two_sides k obs i)); cbn [bind]; [|reflexivity]. destruct (array_index A (nth i obs 0%Z)); cbn [bind]; [|reflexivity].
      match goal with |- context [decide FO d ?x ?y] => destruct (decide FO d x y) end; cbn [bind]; [apply IH|reflexivity].
    + intros i de dc Hi Hb. rewrite H1, H2.
      assert (X : (k <=? i) && (i <? k + (length obs - 2 * k)) = false).
      { destruct (Nat.leb_spec k i); [|reflexivity]. destruct (Nat.ltb_spec i (k + (length obs - 2 * k))); [lia|reflexivity]. }
      rewrite X. cbn [andb]. split; [|unfold cs0; apply nth_repeat_lt || (rewrite nth_indep with (d' := fz FO 0) by (rewrite repeat_length; auto); apply nth_repeat)].
      rewrite nth_indep with (d' := un 0%Z) by lia. unfold es0.
      destruct (lt_dec i from) as [Lf|Lf].
      * rewrite app_nth1 by (rewrite firstn_length, L0; lia). rewrite nth_firstn by lia. rewrite app_nth1 by (rewrite map_length, firstn_length; unfold from in Lf; destruct (Nat.eqb k 0); lia).
        rewrite map_nth. rewrite nth_firstn by (unfold from in Lf; destruct (Nat.eqb k 0); lia). reflexivity.
      * rewrite app_nth2 by (rewrite firstn_length, L0; lia). rewrite firstn_length, L0, Nat.min_l by lia. rewrite map_nth. rewrite nth_skipn_app. replace (from + (i - from)) with i by lia. reflexivity.
    + intros i de dc Hk Hi. rewrite H1, H2.
      assert (X : (k <=? i) && (i <? k + (length obs - 2 * k)) = true).
      { destruct (Nat.leb_spec k i); [|lia]. destruct (Nat.ltb_spec i (k + (length obs - 2 * k))); [reflexivity|lia]. }
      rewrite X, Les, Lcs, (proj2 (Nat.ltb_lt i (length obs))) by lia. cbn [andb]. unfold g.
      destruct (decide_ok (two_sided_counts k obs i) (Z.to_nat (nth i obs 0%Z)) Hd) as (e & c & ->). reflexivity.
Qed.
End Batch.
