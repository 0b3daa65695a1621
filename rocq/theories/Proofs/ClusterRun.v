(** Complete histories of the classifier. *)
From Coq Require Import List ZArith Reals Lra Bool Lia Arith Permutation.
From Verif.Model Require Import Py Float BitOps InfoTheory Clustering.
From Verif.Spec Require Import RealOps Info Cluster.
From Verif.Proofs Require Import Base RealP InfoP PerfP ClusterP ClusterH ClusterR.
Import ListNotations.
Local Close Scope R_scope.

Section Run.
Variable FO : fops.
Variable kl : list (F FO) -> list (F FO) -> F FO.
Variables (n : nat) (m k : Z) (cd : classify_dist) (md : merge_dist) (ws : weight_scheme).
Hypothesis Hm : (2 <= m)%Z.
Hypothesis Hk : (1 <= k)%Z.
Variable Q : list (list (list Z)) -> nat -> nat -> Prop.
Hypothesis pick : forall gs cs, Forall2 (counts_exactly n) gs cs -> Forall (bits_of_length n) (concat gs) -> 2 <= length cs ->
  exists d i j, best_pair FO kl md ws cs (pairs (length cs)) None = Ok (Some (d, (i, j))) /\ i < j < length cs /\ Q gs i j.
Let s0 := classifier_new m k cd md ws.

Definition inv (s : classifier) (h : list (list Z)) : Prop :=
  exists gs cs ini u0, s = Classifier m k cs ini u0 (Z.of_nat (length h)) cd md ws /\
    (ini = true /\ represents n gs cs \/ ini = false /\ exists cs0, (forall x, merge_clusters FO kl (Classifier m k cs ini u0 x cd md ws) = (Classifier m k cs0 false u0 x cd md ws, Ok tt))
     /\ represents n gs cs0 /\ merging Q k (map (fun b => [b]) h) gs) /\
    Permutation (concat gs) h /\ Z.of_nat (length gs) = Z.min k (m - 1).

Lemma concat_singletons {A} (h : list A) : concat (map (fun b => [b]) h) = h.
Proof. induction h; cbn; congruence. Qed.

Lemma history h : Forall (bits_of_length n) h -> Forall both_values (firstn (Z.to_nat (m - 1)) h) -> (m - 1 <= Z.of_nat (length h))%Z -> 2 <= n /\ inv (after FO kl s0 h) h.
Proof.
  induction h as [|b h IH] using rev_ind; intros B V L; [cbn in L; lia|].
  apply Forall_app in B. destruct B as [B Bb]. inversion Bb as [|? ? Hb _]; subst.
  rewrite app_length in L. cbn [length] in L.
  destruct (Z.eq_dec (Z.of_nat (length h) + 1) (m - 1)) as [E|NE].
  - assert (V' : Forall both_values (h ++ [b])) by (rewrite firstn_all2 in V by (rewrite app_length; cbn; lia); exact V).
    assert (Hn : 2 <= n).
    { apply Forall_app in V'. destruct V' as [_ V']. inversion V'; subst. apply (both_length n b); auto. }
    split; [exact Hn|].
    destruct (training FO kl n m k cd md ws (h ++ [b])) as [cs [Es R]]; auto; [rewrite app_length; cbn; lia|apply Forall_app; auto|].
    destruct (merge_spec FO kl n m k cd md ws Hk Q pick _ (h ++ [b]) cs (Z.of_nat (length (h ++ [b]))) eq_refl R) as [gs [cs' [Em [Mg R']]]]; [apply Forall_app; auto|].
    exists gs, cs, false, (Z.of_nat (length (h ++ [b]))). split; [exact Es|]. split; [right; split; [auto|]; exists cs'; auto|].
    split; [rewrite <- (concat_singletons (h ++ [b])); eapply merging_perm; eauto|].
    pose proof (merging_length _ _ _ _ Hk Mg) as X. rewrite map_length, app_length in X. cbn [length] in X. lia.
  - destruct IH as [Hn (gs & cs & ini & u0 & Es & Hs & Pg & Lg)]; auto.
    + rewrite firstn_app, (proj2 (Nat.sub_0_le _ _)) in V by lia. cbn [firstn] in V. rewrite app_nil_r in V. exact V.
    + lia.
    + split; [exact Hn|].
      destruct (classify_late FO kl n m k cd md ws _ gs cs (Z.of_nat (length h)) b ini u0 Es) as (u & cs1 & cs' & E1 & Hu & R1 & E2 & E3 & R' & _); auto; [lia| | |].
      * destruct Hs as [[-> R]|[-> [cs0 [E0 [R _]]]]]; [left; auto|right; split; [auto|]; exists cs0; split; [apply E0|auto]].
      * intro X. subst gs. cbn in Lg. lia.
      * exists (set_nth gs u (nth u gs [] ++ [b])), cs', true, u0. split; [|split; [left; auto|split]].
        -- unfold after in *. rewrite fold_left_app. cbn [fold_left]. rewrite E3. cbn [fst]. rewrite app_length. cbn [length]. f_equal. lia.
        -- rewrite (concat_set gs u [b]) by auto. rewrite Pg. apply Permutation_app_comm || reflexivity.
        -- rewrite length_set_nth. exact Lg.
Qed.

Lemma next h b : Forall (bits_of_length n) h -> Forall both_values (firstn (Z.to_nat (m - 1)) h) -> (m - 1 <= Z.of_nat (length h))%Z -> bits_of_length n b ->
  exists gs u, represents n gs (k_clusters (ready FO kl (after FO kl s0 h))) /\ Permutation (concat gs) h /\ Z.of_nat (length gs) = Z.min k (m - 1) /\
    u < length gs /\ snd (classify FO kl (after FO kl s0 h) b) = Ok (Z.of_nat u) /\
    represents n (set_nth gs u (nth u gs [] ++ [b])) (k_clusters (fst (classify FO kl (after FO kl s0 h) b))) /\
    (forall j, j <> u -> nth_error (k_clusters (fst (classify FO kl (after FO kl s0 h) b))) j = nth_error (k_clusters (ready FO kl (after FO kl s0 h))) j) /\
    exists s, k_classify s = cd /\ represents n gs (k_clusters s) /\ closest_index FO s b = Ok u.
Proof.
  intros B V L Hb. destruct (history h B V L) as [Hn (gs & cs & ini & u0 & Es & Hs & Pg & Lg)].
  destruct (classify_late FO kl n m k cd md ws _ gs cs (Z.of_nat (length h)) b ini u0 Es) as (u & cs1 & cs' & E1 & Hu & R1 & E2 & E3 & R' & Ho); auto; [lia| | |].
  - destruct Hs as [[-> R]|[-> [cs0 [E0 [R _]]]]]; [left; auto|right; split; [auto|]; exists cs0; split; [apply E0|auto]].
  - intro X. subst gs. cbn in Lg. lia.
  - assert (Er : k_clusters (ready FO kl (after FO kl s0 h)) = cs1).
    { rewrite Es, E2. unfold ready. cbn [k_init]. destruct ini; [reflexivity|]. destruct Hs as [[X _]|[_ [cs0 [E0 _]]]]; [discriminate|]. rewrite !E0. reflexivity. }
    exists gs, u. rewrite Er, E3. cbn [fst snd k_clusters]. repeat (split; [first [exact R1|exact Pg|exact Lg|exact Hu|reflexivity|exact R'|exact Ho]|]).
    eexists. split; [|split; [|exact E1]]; [reflexivity|exact R1].
Qed.

Lemma trained h : Forall (bits_of_length n) h -> Forall both_values h -> Z.of_nat (length h) = (m - 1)%Z ->
  exists gs, merging Q k (map (fun b => [b]) h) gs /\ represents n gs (k_clusters (ready FO kl (after FO kl s0 h))).
Proof.
  intros B V L. destruct (training FO kl n m k cd md ws h) as [cs [Es R]]; auto; [lia|].
  destruct (merge_spec FO kl n m k cd md ws Hk Q pick _ h cs (Z.of_nat (length h)) eq_refl R B) as [gs [cs' [Em [Mg R']]]].
  exists gs. split; [exact Mg|]. unfold s0. rewrite Es. unfold ready. cbn [k_init]. rewrite Em. exact R'.
Qed.
End Run.

Lemma total_members n gs cs : Forall2 (counts_exactly n) gs cs -> fold_right Z.add 0%Z (map c_n cs) = Z.of_nat (length (concat gs)).
Proof. induction 1 as [|g c gs cs (_ & _ & N & _) F IH]; [reflexivity|]. cbn. rewrite app_length, IH, N. lia. Qed.
