(** Lemmas on the stored distribution of the bits. *)
From Coq Require Import List ZArith Arith Bool Lia Reals Lra.
From Verif.Model Require Import Py Float Clustering TrainModels.
From Verif.Spec Require Import RealOps Info Cluster.
Import ListNotations.
Close Scope R_scope.
Open Scope nat_scope.

Lemma data_rows n words : Forall (bits_of_length n) words -> map_res (data_row n) words = Ok words.
Proof.
  intros H. induction H as [|w words [L _] H IH]; [reflexivity|]. cbn [map_res]. assert (D : data_row n w = Ok w).
  { unfold data_row. rewrite L, Nat.eqb_refl. destruct w as [|x [|y w]]; try reflexivity. cbn in L. subst n. reflexivity. }
  rewrite D. cbn [bind]. rewrite IH. reflexivity.
Qed.

Lemma column n words i : Forall (bits_of_length n) words -> i < n -> fold_right Z.add 0%Z (map (fun w => nth i w 0%Z) words) = Z.of_nat (votes words 1 i).
Proof.
  intros H Hi. induction H as [|w words [L B] H IH]; [reflexivity|]. cbn [map fold_right]. rewrite IH. unfold votes. cbn [filter].
  assert (Hb : is_bit (nth i w 0%Z)) by (rewrite Forall_forall in B; apply B, nth_In; lia). rewrite (nth_indep w (-1)%Z 0%Z) by lia. destruct Hb as [E|E]; rewrite E; [change (0 =? 1)%Z with false|change (1 =? 1)%Z with true]; cbn iota; cbn [length]; rewrite ?Nat2Z.inj_succ; lia.
Qed.

Lemma votes_sum n words i : Forall (bits_of_length n) words -> i < n -> votes words 0 i + votes words 1 i = length words.
Proof.
  intros H Hi. induction H as [|w words [L B] H IH]; [reflexivity|]. unfold votes in *. cbn [filter length].
  assert (Hb : is_bit (nth i w (-1)%Z)) by (rewrite Forall_forall in B; apply B, nth_In; lia). destruct Hb as [E|E]; rewrite E; cbn; lia.
Qed.

Lemma shares_sum words n i : words <> [] -> Forall (bits_of_length n) words -> i < n -> (share words 0 i + share words 1 i = 1)%R.
Proof.
  intros Hn H Hi. unfold share. pose proof (votes_sum n words i H Hi) as E. apply (f_equal INR) in E. rewrite plus_INR in E.
  assert (P : (0 < INR (length words))%R) by (apply lt_0_INR; destruct words; [contradiction|cbn; lia]). rewrite <- Rdiv_plus_distr, E. field. lra.
Qed.

Lemma train_dist_shares n words : words <> [] -> Forall (bits_of_length n) words -> (forall i, (Z.of_nat (votes words 1 i) < 65536)%Z) ->
  train_dist Rops n words = Ok (map (fun i => [share words 0 i; share words 1 i]) (seq 0 n)).
Proof.
  intros Hn H Hl. unfold train_dist. rewrite (data_rows n words H). cbn [bind].
  assert (E : map (fun i => let p := fdiv Rops (fz Rops (fold_right Z.add 0 (map (fun w => nth i w 0%Z) words) mod 65536)%Z) (fz Rops (Z.of_nat (length words))) in [fsub Rops (fz Rops 1) p; p]) (seq 0 n) = map (fun i => [share words 0 i; share words 1 i]) (seq 0 n)).
  { apply map_ext_in. intros i Hi. apply in_seq in Hi. cbv zeta. rewrite (column n words i H) by lia. rewrite Z.mod_small by (specialize (Hl i); lia).
    assert (Ep : fdiv Rops (fz Rops (Z.of_nat (votes words 1 i))) (fz Rops (Z.of_nat (length words))) = share words 1 i) by (unfold share; rewrite !INR_IZR_INZ; reflexivity). rewrite Ep.
    pose proof (shares_sum words n i Hn H) as Es. assert (Hi' : i < n) by lia. specialize (Es Hi'). f_equal. change (1 - share words 1 i = share words 0 i)%R. lra. }
  destruct words as [|w words]; [contradiction|]. exact (f_equal Ok E).
Qed.

Lemma votes_repeat (w : list Z) k i : nth i w (-1)%Z = 1%Z -> votes (repeat w k) 1 i = k.
Proof. intros E. unfold votes. induction k as [|k IH]; [reflexivity|]. cbn [repeat filter]. rewrite E. cbn [Z.eqb length]. cbn. rewrite IH. reflexivity. Qed.

Lemma dist_wraps : exists words, words <> [] /\ Forall (bits_of_length 2) words /\ (forall i, i < 2 -> share words 1 i = 1%R) /\
  train_dist Rops 2 words = Ok [[1; 0]; [1; 0]]%R.
Proof.
  assert (X : exists k, Z.of_nat k = 65536%Z) by (exists (Z.to_nat 65536); apply Z2Nat.id; lia). destruct X as (k & Hk).
  assert (Hk0 : k <> 0) by lia. exists (repeat [1; 1]%Z k).
  assert (Hb : Forall (bits_of_length 2) (repeat [1; 1]%Z k)).
  { apply Forall_forall. intros w Hw. apply repeat_spec in Hw. subst w. split; [reflexivity|]. repeat apply Forall_cons; try apply Forall_nil; right; reflexivity. }
  assert (Hv : forall i, i < 2 -> votes (repeat [1; 1]%Z k) 1 i = k) by (intros i Hi; apply votes_repeat; destruct i as [|[|i]]; [reflexivity|reflexivity|lia]).
  assert (Hw : repeat [1; 1]%Z k <> []) by (destruct k; [contradiction|discriminate]).
  assert (Pk : (0 < INR k)%R) by (apply lt_0_INR; lia).
  split; [exact Hw|]. split; [exact Hb|]. split.
  - intros i Hi. unfold share. rewrite (Hv i Hi), repeat_length. field. lra.
  - unfold train_dist. rewrite (data_rows 2 _ Hb). cbn [bind].
    assert (Ep : forall i, i < 2 -> fdiv Rops (fz Rops (fold_right Z.add 0 (map (fun w => nth i w 0%Z) (repeat [1; 1]%Z k)) mod 65536)%Z) (fz Rops (Z.of_nat (length (repeat [1; 1]%Z k)))) = 0%R).
    { intros i Hi. rewrite (column 2 _ i Hb Hi), (Hv i Hi), Hk, repeat_length, Hk. change (65536 mod 65536)%Z with 0%Z. change (0 / 65536 = 0)%R. lra. }
    cbn [seq map]. cbv zeta. rewrite (Ep 0), (Ep 1) by lia. destruct (repeat [1; 1]%Z k); [contradiction|].
    assert (E1 : fsub Rops (fz Rops 1) 0%R = 1%R) by (change (1 - 0 = 1)%R; lra). rewrite E1. reflexivity.
Qed.
