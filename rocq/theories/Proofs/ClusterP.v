(** Lemmas about the classifier, for every arithmetic. *)
From Coq Require Import List ZArith Bool Lia Arith Permutation.
From Verif.Model Require Import Py Float BitOps InfoTheory Clustering.
From Verif.Spec Require Import Info Cluster.
From Verif.Proofs Require Import Base InfoP PerfP HellingerP.
Import ListNotations.

Lemma zip_with_map {A B C D} (f : B -> C -> D) (g : A -> B) (h : A -> C) l : zip_with f (map g l) (map h l) = map (fun x => f (g x) (h x)) l.
Proof. unfold zip_with. rewrite combine_map_seq, map_map. reflexivity. Qed.
Lemma length_zip_with {A B C} (f : A -> B -> C) l l' : length l = length l' -> length (zip_with f l l') = length l.
Proof. intro H. unfold zip_with. rewrite map_length, combine_length. lia. Qed.
Lemma list_seq {A} (l : list A) d : l = map (fun i => nth i l d) (seq 0 (length l)).
Proof. rewrite (map_seq_nth (fun x => x) l d). symmetry. apply map_id. Qed.

Lemma bit_nth n b i : bits_of_length n b -> i < n -> nth i b (-1)%Z = 0%Z \/ nth i b (-1)%Z = 1%Z.
Proof. intros [L B] H. rewrite Forall_forall in B. apply B, nth_In. lia. Qed.

Lemma both_length n b : bits_of_length n b -> both_values b -> 2 <= n.
Proof.
  intros [L _] [H0 H1]. destruct b as [|x [|y t]]; cbn in *; lia.
Qed.
Lemma both_unique b : Forall is_bit b -> both_values b -> unique b = [0; 1]%Z.
Proof.
  intros B [H0 H1]. symmetry. apply alphabet_fun. split.
  - repeat constructor; lia.
  - intro v. cbn. split.
    + intros [<-|[<-|[]]]; auto.
    + intro H. rewrite Forall_forall in B. destruct (B v H); auto.
Qed.

(** ** Votes *)
Lemma votes_app a b v i : votes (a ++ b) v i = votes a v i + votes b v i.
Proof. unfold votes. rewrite filter_app, app_length. reflexivity. Qed.
Lemma votes_one b v i : votes [b] v i = if Z.eqb (nth i b (-1)%Z) v then 1 else 0.
Proof. unfold votes. cbn. destruct (Z.eqb _ _); reflexivity. Qed.
Lemma votes_total n g i : Forall (bits_of_length n) g -> i < n -> votes g 0 i + votes g 1 i = length g.
Proof.
  intros H Hi. induction H as [|b g Hb H IH]; [reflexivity|]. change (b :: g) with ([b] ++ g). rewrite !votes_app, !votes_one.
  cbn [length app]. destruct (bit_nth n b i Hb Hi) as [->| ->]; cbn; lia.
Qed.
Lemma votes_perm a b v i : Permutation a b -> votes a v i = votes b v i.
Proof. intro H. unfold votes. induction H; cbn; [auto|destruct (Z.eqb _ _); cbn; auto|destruct (Z.eqb (nth i y _) _); destruct (Z.eqb _ _); reflexivity|congruence]. Qed.

(** ** New clusters, additions and merges *)
Lemma new_cluster_spec n b uid : bits_of_length n b -> both_values b ->
  exists c, new_cluster b uid = Ok c /\ counts_exactly n [b] c /\ c_uid c = uid.
Proof.
  intros [L B] H. unfold new_cluster. rewrite both_unique by auto.
  rewrite map_res_ok with (g := fun x => map (occurrences [x]) [0; 1]%Z).
  2: { intros x Hx. apply count_row_spec.
       - repeat constructor; cbn; intuition discriminate.
       - intros y [<-|[]]. rewrite Forall_forall in B. destruct (B x Hx) as [->| ->]; cbn; auto. }
  cbn [bind]. eexists. split; [reflexivity|]. split; [|reflexivity].
  split; [|split; [reflexivity|split; [reflexivity|discriminate]]]. cbn [c_rows].
  rewrite map_map. rewrite (list_seq b (-1)%Z) at 1. rewrite map_map, L. apply map_ext_in. intros i Hi. apply in_seq in Hi. cbn [map].
  rewrite !votes_one. unfold occurrences. cbn [count_occ].
  destruct (bit_nth n b i (conj L B)) as [->| ->]; [lia| |]; reflexivity.
Qed.

Lemma not_single {A B} (l : list A) (f : A -> B) d : 2 <= length l -> match l with [x] => f x | _ => d end = d.
Proof. destruct l as [|x [|y t]]; cbn; intro; try lia; reflexivity. Qed.

Lemma add_column_spec (f : nat -> list Z) j (v : nat -> Z) n cols : 2 <= n -> j < cols ->
  add_column (map f (seq 0 n)) cols j (map v (seq 0 n)) = Ok (map (fun i => set_nth (f i) j (nth j (f i) 0 + v i)%Z) (seq 0 n)).
Proof.
  intros Hn Hj. unfold add_column. rewrite (proj2 (Nat.ltb_lt _ _) Hj).
  rewrite (not_single (map v (seq 0 n)) (fun x => Ok (map (fun r => set_nth r j (nth j r 0 + x)%Z) (map f (seq 0 n))))) by (rewrite map_length, seq_length; lia).
  rewrite !map_length, Nat.eqb_refl, zip_with_map. reflexivity.
Qed.

Lemma add_sample_spec n g c b : 2 <= n -> bits_of_length n b -> counts_exactly n g c ->
  exists c', add_sample c b = (c', Ok tt) /\ counts_exactly n (g ++ [b]) c' /\ c_uid c' = c_uid c.
Proof.
  intros Hn Hb (R & C & N & NE). unfold add_sample. rewrite R, C.
  assert (E : forall v, map (fun x => if (x =? v)%Z then 1%Z else 0%Z) b = map (fun i => if (nth i b (-1) =? v)%Z then 1%Z else 0%Z) (seq 0 n)).
  { intro v. rewrite (list_seq b (-1)%Z) at 1. rewrite map_map. destruct Hb as [-> _]. reflexivity. }
  rewrite !E. rewrite add_column_spec by lia. cbn [nth set_nth]. rewrite add_column_spec by lia. cbn [nth set_nth].
  eexists. split; [reflexivity|]. split; [|reflexivity].
  split; [|split; [reflexivity|split; [cbn; rewrite N, app_length; cbn; lia|destruct g; discriminate]]].
  cbn [c_rows]. apply map_ext. intro i. rewrite !votes_app, !votes_one.
  destruct (Z.eqb _ 0); destruct (Z.eqb _ 1); f_equal; try f_equal; lia.
Qed.

Lemma merge_cluster_spec n g g' c c' : counts_exactly n g c -> counts_exactly n g' c' ->
  exists m, merge_cluster c c' = Ok m /\ counts_exactly n (g ++ g') m.
Proof.
  intros (R & C & N & NE) (R' & C' & N' & NE'). unfold merge_cluster. rewrite R, R', C, C', !map_length, Nat.eqb_refl. cbn [Nat.eqb orb andb].
  eexists. split; [reflexivity|]. split; [|split; [reflexivity|split; [cbn; rewrite N, N', app_length; lia|destruct g; [congruence|discriminate]]]].
  cbn [c_rows]. rewrite zip_with_map. apply map_ext. intro i. unfold zip_with. cbn [combine map fst snd]. rewrite !votes_app. f_equal; [|f_equal]; lia.
Qed.

Lemma map_res_all {A B} (f : A -> res B) l : (forall x, In x l -> exists y, f x = Ok y) -> exists r, map_res f l = Ok r.
Proof.
  induction l as [|x t IH]; intro H; [eexists; reflexivity|]. cbn. destruct (H x (or_introl eq_refl)) as [y ->].
  destruct IH as [r ->]; [intros; apply H; right; auto|]. eexists; reflexivity.
Qed.

(** ** Pairs *)
Lemma in_pairs n i j : In (i, j) (pairs n) <-> i < j < n.
Proof.
  unfold pairs. rewrite in_flat_map. split.
  - intros [x [Hx H]]. apply in_map_iff in H. destruct H as [y [E Hy]]. inversion E; subst. apply in_seq in Hx. apply in_seq in Hy. lia.
  - intros H. exists i. split; [apply in_seq; lia|]. apply in_map_iff. exists j. split; [auto|]. apply in_seq. lia.
Qed.

Section C.
Variable FO : fops.
Variable kl : list (F FO) -> list (F FO) -> F FO.

Lemma pair_dist_ok md ws n g g' c c' : counts_exactly n g c -> counts_exactly n g' c' -> exists d, pair_dist FO kl md ws c c' = Ok d.
Proof.
  intros (R & C & N & NE) (R' & C' & N' & NE'). unfold pair_dist. destruct md.
  - rewrite R, R', !map_length, Nat.eqb_refl. cbn [bind]. eexists. reflexivity.
  - unfold hellinger, c_dist. rewrite R, R', !map_length, Nat.eqb_refl.
    rewrite !map_map, combine_map_seq.
    match goal with |- context [map_res ?f (map ?h ?l)] => assert (X : exists r, map_res f (map h l) = Ok r) end.
    { apply map_res_all. intros xy Hx. apply in_map_iff in Hx. destruct Hx as [i [<- _]].
      unfold hellinger_row. rewrite broadcast_same by reflexivity. eexists; reflexivity. }
    destruct X as [r ->]. cbn [bind]. eexists; reflexivity.
Qed.

Lemma best_pair_ok md ws n gs cs : Forall2 (counts_exactly n) gs cs -> forall ps best, (forall i j, In (i, j) ps -> i < j < length cs) ->
  (forall d i j, best = Some (d, (i, j)) -> i < j < length cs) ->
  exists b, best_pair FO kl md ws cs ps best = Ok b /\ (forall d i j, b = Some (d, (i, j)) -> i < j < length cs) /\
    (b = None -> ps = [] /\ best = None).
Proof.
  intros F2 ps. induction ps as [|[i j] t IH]; intros best Hp Hb; cbn [best_pair].
  - exists best. auto.
  - assert (H : i < j < length cs) by (apply Hp; left; auto).
    unfold index. destruct (nth_error cs i) as [c|] eqn:Ei; [|apply nth_error_None in Ei; lia].
    destruct (nth_error cs j) as [c'|] eqn:Ej; [|apply nth_error_None in Ej; lia]. cbn [bind].
    assert (X : forall k x, nth_error cs k = Some x -> exists g, counts_exactly n g x).
    { clear - F2. intros k. revert gs cs F2. induction k as [|k IH]; intros gs cs F2 x E; destruct F2; try discriminate; cbn in E.
      - inversion E; subst. eauto.
      - eauto. }
    destruct (X _ _ Ei) as [g Hg]. destruct (X _ _ Ej) as [g' Hg']. destruct (pair_dist_ok md ws n g g' c c' Hg Hg') as [d ->]. cbn [bind].
    match goal with |- context [best_pair _ _ _ _ _ t ?b0] => set (best' := b0) end.
    destruct (IH best') as [b [E [B1 B2]]]; [intros; apply Hp; right; auto| |].
    + subst best'. intros d0 i0 j0 E0. destruct best as [[m p]|]; [destruct (flt FO d m)|]; inversion E0; subst; auto. eapply Hb; eauto.
    + exists b. split; [exact E|]. split; [exact B1|]. intro Bn. destruct (B2 Bn) as [_ Z]. subst best'.
      destruct best as [[m p]|]; [destruct (flt FO d m)|]; discriminate.
Qed.

(** ** Lists of groups *)
Lemma F2_nth {A B} (P : A -> B -> Prop) l l' i a b : Forall2 P l l' -> i < length l -> P (nth i l a) (nth i l' b).
Proof. intro F. revert i. induction F; intros i H'; cbn in H'; [lia|]. destruct i; cbn; [auto|]. apply IHF. lia. Qed.
Lemma F2_remove {A B} (P : A -> B -> Prop) l l' j : Forall2 P l l' -> Forall2 P (firstn j l ++ skipn (S j) l) (firstn j l' ++ skipn (S j) l').
Proof.
  intro F. apply Forall2_app.
  - revert j. induction F; intros [|j]; cbn; constructor; auto.
  - generalize (S j). intro m. revert m. induction F; intros [|m]; cbn; try constructor; auto.
Qed.
Lemma F2_set {A B} (P : A -> B -> Prop) l l' i a b : Forall2 P l l' -> P a b -> Forall2 P (set_nth l i a) (set_nth l' i b).
Proof. intros F H. revert i. induction F; intros [|i]; cbn; constructor; auto. Qed.

Lemma length_remove {A} (l : list A) j : j < length l -> length (firstn j l ++ skipn (S j) l) = length l - 1.
Proof. intro H. rewrite app_length, firstn_length, skipn_length. lia. Qed.
Lemma length_join {A} (gs : list (list A)) i j : j < length gs -> length (join gs i j) = length gs - 1.
Proof. intro H. unfold join. rewrite length_set_nth. apply length_remove. exact H. Qed.

Lemma nth_error_remove {A} (l : list A) i j : i < j -> nth_error (firstn j l ++ skipn (S j) l) i = nth_error l i.
Proof.
  revert i j. induction l as [|x t IH]; intros i j H; [rewrite firstn_nil, skipn_nil; reflexivity|].
  destruct j as [|j]; [lia|]. destruct i as [|i]; [reflexivity|]. cbn [firstn skipn app nth_error]. rewrite <- (IH i j) by lia. reflexivity.
Qed.

Lemma concat_set {A} (l : list (list A)) i x : i < length l -> Permutation (concat (set_nth l i (nth i l [] ++ x))) (concat l ++ x).
Proof.
  revert i. induction l as [|y t IH]; intros i H; [cbn in H; lia|]. destruct i as [|i]; cbn.
  - rewrite <- !app_assoc. apply Permutation_app_head, Permutation_app_comm.
  - rewrite <- app_assoc. apply Permutation_app_head. apply IH. cbn in H. lia.
Qed.

Lemma skipn_cons {A} (l : list A) j d : j < length l -> skipn j l = nth j l d :: skipn (S j) l.
Proof. revert l. induction j as [|j IH]; intros [|x t] H; cbn in H; try lia; [reflexivity|]. apply (IH t). lia. Qed.

Lemma join_perm {A} (gs : list (list A)) i j : i < j < length gs -> Permutation (concat (join gs i j)) (concat gs).
Proof.
  intro H. unfold join. set (r := firstn j gs ++ skipn (S j) gs).
  assert (E : nth i gs [] = nth i r []). { unfold r. pose proof (nth_error_remove gs i j ltac:(lia)) as Q.
    pose proof (nth_error_nth' gs [] (n := i) ltac:(lia)) as Q2. rewrite Q2 in Q. symmetry. apply nth_error_nth. exact Q. }
  etransitivity; [rewrite E; apply concat_set; unfold r; rewrite length_remove; lia|].
  unfold r. rewrite concat_app, <- app_assoc.
  transitivity (concat (firstn j gs ++ skipn j gs)); [|rewrite firstn_skipn; reflexivity].
  rewrite concat_app. apply Permutation_app_head. rewrite (skipn_cons gs j []) by lia. cbn [concat]. apply Permutation_app_comm.
Qed.

Lemma merging_perm {A} (P : list (list A) -> nat -> nat -> Prop) k gs gs' : merging P k gs gs' -> Permutation (concat gs') (concat gs).
Proof. induction 1; [auto|]. rewrite IHmerging. apply join_perm. auto. Qed.
Lemma merging_length {A} (P : list (list A) -> nat -> nat -> Prop) k gs gs' : (1 <= k)%Z -> merging P k gs gs' ->
  Z.of_nat (length gs') = Z.min k (Z.of_nat (length gs)).
Proof. intros Hk H. induction H; [lia|]. rewrite length_join in IHmerging by lia. lia. Qed.
End C.
