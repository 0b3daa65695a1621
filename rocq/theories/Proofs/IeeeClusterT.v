(** Training with few distinct buffers, in double precision. *)
From Coq Require Import List NArith ZArith Reals Bool Lia Arith Permutation.
From Verif.Model Require Import Py Float BitOps InfoTheory Clustering.
From Verif.Spec Require Import RealOps Info Cluster IeeeOps IeeeCluster.
From Verif.Proofs Require Import Base InfoP ClusterP ClusterH ClusterR ClusterRun IeeeClusterR IeeeClusterS.
Import ListNotations.
Local Close Scope R_scope.

Definition rep (g : list (list Z)) : list Z := hd [] g.
Definition pure (g : list (list Z)) : Prop := copies (rep g) g.
Lemma copies_rep b g : copies b g -> rep g = b.
Proof. intros [N F]. destruct g as [|x g]; [congruence|]. inversion F; subst. reflexivity. Qed.
Lemma copies_pure b g : copies b g -> pure g.
Proof. intro C. unfold pure. rewrite (copies_rep b g C). exact C. Qed.
Lemma copies_in b g : copies b g -> forall x, In x g -> x = b.
Proof. intros [_ F] x Hx. rewrite Forall_forall in F. symmetry. apply F, Hx. Qed.

Lemma copies_bits n b g : copies b g -> Forall (bits_of_length n) g -> bits_of_length n b.
Proof. intros [N F] B. destruct g as [|x g]; [congruence|]. inversion F; inversion B; subst. assumption. Qed.
Lemma copies_votes_1 n b g i : copies b g -> bits_of_length n b -> i < n -> votes g 1 i = if Z.eqb (nth i b (-1)%Z) 1 then length g else 0.
Proof.
  intros [_ F] Hb Hi. clear Hb Hi. induction F as [|x g E F IH]; [destruct (Z.eqb _ _); reflexivity|]. subst x. change (b :: g) with ([b] ++ g). rewrite votes_app, votes_one, IH. cbn [app length].
  destruct (Z.eqb _ _); lia.
Qed.
Lemma same_copies n b b' g g' : copies b g -> copies b' g' -> bits_of_length n b -> bits_of_length n b' -> (same_shares n g g' <-> b = b').
Proof.
  intros C C' Hb Hb'. assert (P : 0 < length g) by (destruct C as [N _]; destruct g; [congruence|cbn; lia]). assert (P' : 0 < length g') by (destruct C' as [N _]; destruct g'; [congruence|cbn; lia]). split.
  - intro S. apply (nth_ext _ _ (-1)%Z (-1)%Z); [rewrite (proj1 Hb), (proj1 Hb'); reflexivity|]. intros i Hi. rewrite (proj1 Hb) in Hi. specialize (S i Hi).
    rewrite (copies_votes_1 n b g i C Hb Hi), (copies_votes_1 n b' g' i C' Hb' Hi) in S.
    destruct (bit_nth n b i Hb Hi) as [E|E]; destruct (bit_nth n b' i Hb' Hi) as [E'|E']; rewrite E, E' in *; cbn in S; try reflexivity; nia.
  - intros <- i Hi. rewrite (copies_votes_1 n b g i C Hb Hi), (copies_votes_1 n b g' i C' Hb Hi). destruct (Z.eqb _ _); lia.
Qed.

Lemma repeated (l : list (list Z)) U : incl l U -> length U < length l -> exists i j, i < j < length l /\ nth i l [] = nth j l [].
Proof.
  intros I L. assert (D : forall l : list (list Z), NoDup l \/ exists i j, i < j < length l /\ nth i l [] = nth j l []).
  { clear. induction l as [|x l [N|(i & j & H & E)]]; [left; constructor| |].
    - destruct (in_dec (list_eq_dec Z.eq_dec) x l) as [Hx|Hx]; [|left; constructor; assumption]. right. apply In_nth with (d := []) in Hx as (k & Hk & E). exists 0, (S k). cbn [length nth]. split; [lia|congruence].
    - right. exists (S i), (S j). cbn [length nth]. split; [lia|exact E]. }
  destruct (D l) as [N|E]; [|exact E]. exfalso. pose proof (NoDup_incl_length N I). lia.
Qed.

(** Merging what is equal first keeps the groups pure. *)
Lemma join_pure n gs i j : i < j < length gs -> Forall pure gs -> Forall (bits_of_length n) (concat gs) -> same_shares n (nth i gs []) (nth j gs []) ->
  Forall pure (join gs i j).
Proof.
  intros Hij P B S. unfold join. assert (Pn : forall k, k < length gs -> pure (nth k gs [])) by (intros k Hk; rewrite Forall_forall in P; apply P, nth_In, Hk).
  assert (Bn : forall k, k < length gs -> bits_of_length n (rep (nth k gs []))) by (intros k Hk; eapply copies_bits; [apply Pn, Hk|apply forall_concat_nth, B]).
  assert (E : rep (nth i gs []) = rep (nth j gs [])) by (apply (same_copies n _ _ _ _ (Pn i ltac:(lia)) (Pn j ltac:(lia)) (Bn i ltac:(lia)) (Bn j ltac:(lia))); exact S).
  assert (Pj : pure (nth i gs [] ++ nth j gs [])).
  { destruct (Pn i ltac:(lia)) as [N1 F1]. destruct (Pn j ltac:(lia)) as [N2 F2]. apply (copies_pure (rep (nth i gs []))). split; [destruct (nth i gs []); [congruence|discriminate]|].
    apply Forall_app. split; [exact F1|]. rewrite E. exact F2. }
  apply Forall_forall. intros x Hx. apply In_nth_error in Hx as [k Hk].
  assert (Q : forall (L : list (list (list Z))) a y k x, nth_error (set_nth L a y) k = Some x -> x = y \/ nth_error L k = Some x).
  { clear. induction L as [|z L IH]; intros [|a] y [|k] x H; cbn in *; try congruence; auto; try (left; congruence). apply (IH a y k x H). }
  apply Q in Hk as [-> |Hk]; [exact Pj|]. apply nth_error_In in Hk. rewrite Forall_forall in P. apply P. apply in_app_or in Hk as [Hk|Hk].
  - rewrite <- (firstn_skipn j gs). apply in_or_app. left. exact Hk.
  - rewrite <- (firstn_skipn (Datatypes.S j) gs). apply in_or_app. right. exact Hk.
Qed.

Lemma merging_pure n k U gs gs' : merging (fun gs i j => (Z.of_nat (length (concat gs)) <= 2 ^ 12)%Z -> first_same n gs i j) k gs gs' ->
  (Z.of_nat (length U) <= k)%Z -> (Z.of_nat (length (concat gs)) <= 2 ^ 12)%Z -> Forall pure gs -> Forall (bits_of_length n) (concat gs) -> incl (concat gs) U -> Forall pure gs'.
Proof.
  intros M Hk. induction M as [gs Hl|gs i j gs' Hl Hij Q M IH]; intros L P B I; [exact P|].
  assert (Pm : Permutation (concat (join gs i j)) (concat gs)) by (apply join_perm; exact Hij).
  apply IH; clear IH.
  - rewrite (Permutation_length Pm). exact L.
  - assert (Pn : forall a, a < length gs -> pure (nth a gs [])) by (intros a Ha; rewrite Forall_forall in P; apply P, nth_In, Ha).
    assert (Bn : forall a, a < length gs -> bits_of_length n (rep (nth a gs []))) by (intros a Ha; eapply copies_bits; [apply Pn, Ha|apply forall_concat_nth, B]).
    destruct (repeated (map rep gs) U) as (a & b & Hab & E).
    + intros x Hx. apply in_map_iff in Hx as (g & <- & Hg). apply I. apply in_concat. exists g. split; [exact Hg|]. rewrite Forall_forall in P. destruct (P g Hg) as [N _]. destruct g; [congruence|left; reflexivity].
    + rewrite map_length. lia.
    + rewrite map_length in Hab. change (@nil Z) with (rep []) in E. rewrite !map_nth in E.
      assert (S : same_shares n (nth a gs []) (nth b gs [])) by (apply (same_copies n _ _ _ _ (Pn a ltac:(lia)) (Pn b ltac:(lia)) (Bn a ltac:(lia)) (Bn b ltac:(lia))); exact E).
      destruct (Q L a b Hab S) as [S' _]. apply (join_pure n); assumption.
  - eapply Permutation_Forall; [symmetry; exact Pm|exact B].
  - intros x Hx. apply I. eapply Permutation_in; [exact Pm|exact Hx].
Qed.

(** ** The choice among pure groups *)
Lemma hard_copies n b g i : copies b g -> bits_of_length n b -> i < n -> hard_bit g i = nth i b (-1)%Z.
Proof.
  intros C Hb Hi. unfold hard_bit. rewrite votes_any, (copies_votes_1 n b g i C Hb Hi). assert (P : 0 < length g) by (destruct C as [N _]; destruct g; [congruence|cbn; lia]).
  destruct (bit_nth n b i Hb Hi) as [E|E]; rewrite E; [reflexivity|]. cbn [Z.eqb Pos.eqb]. rewrite (proj2 (Nat.ltb_lt _ _) P). reflexivity.
Qed.
Lemma mismatch_copies n b r g : copies r g -> bits_of_length n r -> bits_of_length n b -> (mismatch b g = 0 <-> r = b).
Proof.
  intros C Hr Hb. unfold mismatch. rewrite (proj1 Hb). split.
  - intro E. apply length_zero_iff_nil in E. apply (nth_ext _ _ (-1)%Z (-1)%Z); [rewrite (proj1 Hb), (proj1 Hr); reflexivity|]. intros i Hi. rewrite (proj1 Hr) in Hi.
    destruct (Z.eq_dec (nth i b (-1)%Z) (hard_bit g i)) as [Q|Q]; [rewrite Q; symmetry; now apply (hard_copies n r g i)|]. exfalso.
    assert (In i []) as []. rewrite <- E. apply filter_In. split; [apply in_seq; lia|]. apply negb_true_iff, Z.eqb_neq. exact Q.
  - intros <-. apply length_zero_iff_nil. destruct (filter _ _) as [|i t] eqn:E; [reflexivity|]. exfalso. assert (Hi : In i (i :: t)) by (left; reflexivity). rewrite <- E in Hi. apply filter_In in Hi as [Hi Q].
    apply in_seq in Hi. apply negb_true_iff, Z.eqb_neq in Q. apply Q. symmetry. apply (hard_copies n r g i C Hr). lia.
Qed.

Lemma choose_64 l n s gs b u : accurate_log l -> 0 < n -> (Z.of_nat n <= 2 ^ 40)%Z -> bits_of_length n b ->
  Forall2 (counts_exactly n) gs (k_clusters s) -> Forall (bits_of_length n) (concat gs) -> (Z.of_nat (length (concat gs)) <= 2 ^ 50)%Z ->
  Forall pure gs -> Exists (copies b) gs -> closest_index (Bops l) s b = Ok u -> first_index (copies b) gs u.
Proof.
  intros AL Pn Bn Hb F B L P Ex E. destruct (k_classify s) eqn:Ec.
  - pose proof (closest_Hamming_64 l n s gs b u Ec Hb F L E) as (x & Ex' & M).
    assert (Z : forall j y, nth_error gs j = Some y -> (mismatch b y = 0 <-> copies b y)).
    { intros j y Ey. apply nth_error_In in Ey. assert (Py : pure y) by (rewrite Forall_forall in P; apply P, Ey).
      assert (By : Forall (bits_of_length n) y) by (rewrite Forall_forall in B |- *; intros z Hz; apply B, in_concat; eauto).
      rewrite (mismatch_copies n b (rep y) y Py (copies_bits n _ _ Py By) Hb). split; [intros <-; exact Py|apply copies_rep]. }
    apply Exists_exists in Ex as (g0 & Hg & Cg). apply In_nth_error in Hg as [j0 Ej]. destruct (M j0 g0 Ej) as [M0 _].
    rewrite (proj2 (Z j0 g0 Ej) Cg) in M0. assert (Mx : mismatch b x = 0) by lia. split; [exists x; split; [exact Ex'|apply (Z u x Ex'), Mx]|].
    intros j y Ey Cy. destruct (le_lt_dec u j) as [|Lj]; [assumption|]. exfalso. destruct (M j y Ey) as [_ Q]. specialize (Q Lj). rewrite (proj2 (Z j y Ey) Cy) in Q. lia.
  - apply (closest_LL_64 l n s gs b u AL Pn Bn Ec Hb F B L E). exact Ex.
Qed.

(** ** Histories *)
Fixpoint find_index (b : list Z) (rs : list (list Z)) : nat :=
  match rs with [] => 0 | r :: t => if list_eq_dec Z.eq_dec r b then 0 else S (find_index b t) end.
Lemma find_index_spec b rs : In b rs -> nth_error rs (find_index b rs) = Some b /\ forall j, nth_error rs j = Some b -> find_index b rs <= j.
Proof.
  induction rs as [|r t IH]; intro H; [destruct H|]. cbn [find_index]. destruct (list_eq_dec Z.eq_dec r b) as [->|N].
  - split; [reflexivity|intros; lia].
  - destruct H as [H|H]; [congruence|]. destruct (IH H) as [A B]. split; [exact A|]. intros [|j] E; [cbn in E; congruence|]. specialize (B j E). lia.
Qed.
Lemma first_find gs rs b u : Forall2 copies rs gs -> first_index (copies b) gs u -> u = find_index b rs.
Proof.
  intros F [(x & Ex & Cx) M].
  assert (A : forall j g, nth_error gs j = Some g -> exists r, nth_error rs j = Some r /\ copies r g).
  { intros j g E. destruct (F2_exists _ _ _ F j g E) as [r Hr]. exists r. exact Hr. }
  destruct (A u x Ex) as (r & Er & Cr). assert (r = b) by (rewrite <- (copies_rep r x Cr); apply copies_rep, Cx). subst r.
  destruct (find_index_spec b rs (nth_error_In _ _ Er)) as [Q1 Q2]. specialize (Q2 u Er).
  destruct (F2_exists_l _ _ _ F _ b Q1) as (g & Eg & Cg). specialize (M _ g Eg Cg). lia.
Qed.
Lemma F2_append rs gs u b : Forall2 copies rs gs -> nth_error rs u = Some b -> Forall2 copies rs (set_nth gs u (nth u gs [] ++ [b])).
Proof.
  intro F. revert u. induction F as [|r g rs gs C F IH]; intros [|u] E; cbn in E |- *; try discriminate; constructor; auto.
  - injection E as ->. destruct C as [N Fg]. split; [destruct g; discriminate|]. apply Forall_app. split; [exact Fg|repeat constructor].
Qed.
Lemma F2_pure rs gs : Forall2 copies rs gs -> Forall pure gs.
Proof. induction 1; constructor; [eapply copies_pure; eauto|assumption]. Qed.
Lemma F2_Exists rs gs b : Forall2 copies rs gs -> In b rs -> Exists (copies b) gs.
Proof. induction 1 as [|r g rs gs C F IH]; intros []; [subst; left; exact C|right; auto]. Qed.

Section Run.
Variable l : libm.
Variable kl : list (F (Bops l)) -> list (F (Bops l)) -> F (Bops l).
Variables (n : nat) (m k : Z) (cd : classify_dist) (ws : weight_scheme).
Hypothesis AL : accurate_log l.
Hypothesis Bn : (Z.of_nat n <= 2 ^ 40)%Z.
Hypothesis Hm : (2 <= m)%Z.
Hypothesis Hk : (1 <= k)%Z.
Let s0 := classifier_new m k cd MHellinger ws.

Definition state (rs : list (list Z)) (h : list (list Z)) (s : classifier) : Prop :=
  exists gs cs ini u0, s = Classifier m k cs ini u0 (Z.of_nat (length h)) cd MHellinger ws /\
    (ini = true /\ represents n gs cs \/ ini = false /\ exists cs0, (forall x, merge_clusters (Bops l) kl (Classifier m k cs ini u0 x cd MHellinger ws) = (Classifier m k cs0 false u0 x cd MHellinger ws, Ok tt)) /\ represents n gs cs0) /\
    Forall2 copies rs gs /\ Permutation (concat gs) h.

Lemma state_step rs h s b : state rs h s -> (m - 1 <= Z.of_nat (length h))%Z -> 2 <= n -> Forall (bits_of_length n) h -> (Z.of_nat (length h) <= 2 ^ 50)%Z -> bits_of_length n b -> In b rs ->
  snd (classify (Bops l) kl s b) = Ok (Z.of_nat (find_index b rs)) /\ state rs (h ++ [b]) (fst (classify (Bops l) kl s b)).
Proof.
  intros (gs & cs & ini & u0 & -> & Hs & C & P) L Hn B Lh Hb Ib.
  assert (Ng : gs <> []) by (intro E; subst gs; inversion C; subst; destruct Ib).
  destruct (classify_late (Bops l) kl n m k cd MHellinger ws _ gs cs (Z.of_nat (length h)) b ini u0 eq_refl) as (u & cs1 & cs' & E1 & Hu & [R1 N1] & E2 & E3 & R' & _); auto; [lia| |].
  { destruct Hs as [[-> R]|[-> [cs0 [E0 R]]]]; [left; auto|right; split; [auto|]; exists cs0; split; [apply E0|auto]]. }
  assert (U : u = find_index b rs).
  { apply (first_find gs rs b u C). apply (choose_64 l n (Classifier m k cs1 true u0 (Z.of_nat (length h) + 1) cd MHellinger ws)); auto; [lia| | |apply (F2_pure rs), C|apply (F2_Exists rs); assumption].
    - eapply Permutation_Forall; [symmetry; exact P|exact B].
    - rewrite (Permutation_length P). exact Lh. }
  rewrite E3. cbn [fst snd]. rewrite U in *. split; [reflexivity|].
  exists (set_nth gs (find_index b rs) (nth (find_index b rs) gs [] ++ [b])), cs', true, u0. split; [|split; [left; auto|split]].
  - rewrite app_length. cbn [length]. f_equal. lia.
  - apply F2_append; [exact C|]. apply find_index_spec, Ib.
  - rewrite (concat_set gs _ [b]) by exact Hu. rewrite P. reflexivity.
Qed.

Lemma recognised h U : Forall (bits_of_length n) h -> Forall both_values h -> Z.of_nat (length h) = (m - 1)%Z -> (m - 1 <= 2 ^ 12)%Z -> incl h U -> (Z.of_nat (length U) <= k)%Z ->
  exists rs, (forall b, In b rs <-> In b h) /\ (Z.of_nat (length rs) <= k)%Z /\ forall h2 b, incl h2 h -> In b h -> (Z.of_nat (length (h ++ h2)) <= 2 ^ 50)%Z ->
    snd (classify (Bops l) kl (after (Bops l) kl s0 (h ++ h2)) b) = Ok (Z.of_nat (find_index b rs)).
Proof.
  intros B V L Lm I Lu.
  assert (Hn : 2 <= n). { destruct h as [|b h]; [cbn in L; lia|]. inversion B; inversion V; subst. apply (both_length n b); assumption. }
  destruct (training (Bops l) kl n m k cd MHellinger ws h) as [cs [Es R]]; auto; [lia|].
  destruct (merge_spec (Bops l) kl n m k cd MHellinger ws Hk (fun gs i j => (Z.of_nat (length (concat gs)) <= 2 ^ 12)%Z -> first_same n gs i j)) with (s := Classifier m k cs false (Z.of_nat (length h)) (Z.of_nat (length h)) cd MHellinger ws) (h := h) (cs := cs) (t := Z.of_nat (length h)) as [gs [cs' [Em [Mg R']]]]; auto.
  { intros gs' cs'' F2 Bg Lc. apply pick_64; auto. lia. }
  assert (Pg : Permutation (concat gs) h) by (rewrite <- (concat_singletons h); eapply merging_perm; eauto).
  assert (Lgs : (Z.of_nat (length gs) <= k)%Z) by (pose proof (merging_length _ _ _ _ Hk Mg); lia).
  assert (Pu : Forall pure gs).
  { apply (merging_pure n k U _ gs Mg Lu); rewrite ?concat_singletons; auto; [lia|]. apply Forall_map, Forall_forall. intros b _. split; [discriminate|repeat constructor]. }
  assert (C : Forall2 copies (map rep gs) gs) by (clear - Pu; induction Pu; cbn [map]; constructor; assumption).
  exists (map rep gs). split; [|split; [rewrite map_length; exact Lgs|]].
  { intro b. split.
    - intro Hb. apply in_map_iff in Hb as (g & <- & Hg). apply (Permutation_in _ Pg), in_concat. exists g. split; [exact Hg|]. rewrite Forall_forall in Pu. destruct (Pu g Hg) as [N _]. destruct g; [congruence|left; reflexivity].
    - intro Hb. apply (Permutation_in _ (Permutation_sym Pg)), in_concat in Hb as (g & Hg & Hb). apply in_map_iff. exists g. split; [|exact Hg]. rewrite Forall_forall in Pu. symmetry. apply (copies_in _ _ (Pu g Hg)), Hb. }
  assert (Irs : forall b, In b h -> In b (map rep gs)).
  { intros b Hb. apply (Permutation_in _ (Permutation_sym Pg)), in_concat in Hb as (g & Hg & Hb). apply in_map_iff. exists g. split; [|exact Hg]. rewrite Forall_forall in Pu. symmetry. apply (copies_in _ _ (Pu g Hg)), Hb. }
  assert (S0 : state (map rep gs) h (after (Bops l) kl s0 h)).
  { exists gs, cs, false, (Z.of_nat (length h)). split; [exact Es|]. split; [right; split; [reflexivity|]; exists cs'; auto|]. split; [exact C|exact Pg]. }
  assert (S : forall h2, incl h2 h -> (Z.of_nat (length (h ++ h2)) <= 2 ^ 50)%Z -> state (map rep gs) (h ++ h2) (after (Bops l) kl s0 (h ++ h2))).
  { rewrite Forall_forall in B. induction h2 as [|b h2 IH] using rev_ind; intros I2 L2; [rewrite app_nil_r; exact S0|].
    rewrite app_assoc. unfold after. rewrite fold_left_app. cbn [fold_left]. fold (after (Bops l) kl s0 (h ++ h2)).
    assert (Ib : In b h) by (apply I2; apply in_or_app; right; left; reflexivity).
    rewrite !app_length in L2. cbn [length] in L2. apply state_step; auto.
    - apply IH; [intros x Hx; apply I2, in_or_app; left; exact Hx|rewrite app_length; lia].
    - rewrite app_length. lia.
    - apply Forall_app. split; apply Forall_forall; [exact B|]. intros x Hx. apply B, I2, in_or_app. left. exact Hx.
    - rewrite app_length. lia. }
  intros h2 b I2 Ib L2. rewrite Forall_forall in B. apply (state_step (map rep gs) (h ++ h2)); auto.
  - rewrite app_length. lia.
  - apply Forall_app. split; apply Forall_forall; [exact B|]. intros x Hx. apply B, I2, Hx.
Qed.
End Run.
