(** Lemmas about the analysis of the classifier of fields. *)
From Coq Require Import String List Arith NArith ZArith Bool Lia ZifyBool ZifyNat Sorting.Sorted Permutation.
From Verif.Model Require Import Py Float ProtocolMeta Segmentation StatModels InfoTheory Clustering Perf DecoderBase Rectify Simulation Characterize.
From Verif.Spec Require Import Bytes Stats Info SimulationSpec CharacterizeSpec.
From Verif.Proofs Require Import Base InfoP DecoderP StatP LayoutP ValuesP BufModelP SaveP PredictP MeanP RectifyP DebugP SimulationP.
Import ListNotations.

Lemma those_sorted n P : StronglySorted Z.lt (map Z.of_nat (those n P)).
Proof.
  unfold those. generalize 0. induction n as [|n IH]; intros k; cbn [seq filter]; [constructor|]. destruct (P k); [|apply IH]. cbn [map]. constructor; [apply IH|].
  apply Forall_forall. intros v Hv. apply in_map_iff in Hv. destruct Hv as (i & <- & Hi). apply filter_In in Hi. destruct Hi as [Hi _]. apply in_seq in Hi. lia.
Qed.
Lemma in_those n P i : In i (those n P) <-> i < n /\ P i = true.
Proof. unfold those. rewrite filter_In, in_seq. intuition lia. Qed.
Lemma in_zthose n P v : In v (map Z.of_nat (those n P)) <-> exists i, v = Z.of_nat i /\ i < n /\ P i = true.
Proof. rewrite in_map_iff. split; [intros (i & <- & H); apply in_those in H; eauto|intros (i & -> & H); exists i; split; [reflexivity|apply in_those; exact H]]. Qed.
Lemma member_in l i : member l i = true <-> In (Z.of_nat i) l.
Proof. unfold member. rewrite existsb_exists. split; [intros (v & H & E); apply Z.eqb_eq in E; subst; exact H|intros H; exists (Z.of_nat i); split; [exact H|apply Z.eqb_refl]]. Qed.

Lemma unique_those n l : (forall v, In v l -> (0 <= v < Z.of_nat n)%Z) -> unique l = map Z.of_nat (those n (member l)).
Proof.
  intros B. destruct (unique_alphabet l) as [S E]. apply sorted_ext; [exact S|apply those_sorted|]. intros v. rewrite E, in_zthose. split.
  - intros H. specialize (B v H). exists (Z.to_nat v). split; [lia|]. split; [lia|]. apply member_in. rewrite Z2Nat.id by lia. exact H.
  - intros (i & -> & _ & H). apply member_in. exact H.
Qed.
Lemma unique_zthose n P : unique (map Z.of_nat (those n P)) = map Z.of_nat (those n P).
Proof. destruct (unique_alphabet (map Z.of_nat (those n P))) as [S E]. apply sorted_ext; [exact S|apply those_sorted|exact E]. Qed.
Lemma existsb_member l i : existsb (Z.eqb (Z.of_nat i)) l = member l i.
Proof. reflexivity. Qed.
Lemma filter_those n P (Q : Z -> bool) : filter Q (map Z.of_nat (those n P)) = map Z.of_nat (those n (fun i => P i && Q (Z.of_nat i))%bool).
Proof.
  unfold those. induction (seq 0 n) as [|i l IH]; [reflexivity|]. cbn [filter]. destruct (P i); cbn [map filter andb]; [|exact IH]. destruct (Q (Z.of_nat i)); cbn [map]; [f_equal|]; exact IH.
Qed.
Lemma intersect_those n P l : intersect1d (map Z.of_nat (those n P)) l = map Z.of_nat (those n (fun i => P i && member l i)%bool).
Proof. unfold intersect1d. rewrite unique_zthose. apply filter_those. Qed.
Lemma setdiff_those n P l : setdiff1d (map Z.of_nat (those n P)) l = map Z.of_nat (those n (fun i => P i && negb (member l i))%bool).
Proof. unfold setdiff1d. rewrite unique_zthose. apply filter_those. Qed.
Lemma member_those n P i : i < n -> member (map Z.of_nat (those n P)) i = P i.
Proof.
  intros H. destruct (P i) eqn:E.
  - apply member_in, in_zthose. eauto.
  - destruct (member (map Z.of_nat (those n P)) i) eqn:M; [|reflexivity]. apply member_in, in_zthose in M. destruct M as (j & Ej & _ & Pj). assert (i = j) by lia. congruence.
Qed.
Lemma those_ext n P Q : (forall i, i < n -> P i = Q i) -> those n P = those n Q.
Proof. intros H. unfold those. apply filter_ext_in. intros i Hi. apply in_seq in Hi. apply H. lia. Qed.
Lemma setdiff_missed n P l : (forall v, In v l -> (0 <= v < Z.of_nat n)%Z) -> setdiff1d l (map Z.of_nat (those n P)) = map Z.of_nat (those n (fun i => member l i && negb (P i))%bool).
Proof.
  intros B. unfold setdiff1d. rewrite (unique_those n l B), filter_those. f_equal. apply those_ext. intros i Hi. rewrite existsb_member, member_those by exact Hi. reflexivity.
Qed.
Lemma subset_size n l : subset_of n l -> length l = how_many n (member l).
Proof.
  intros [N B]. unfold how_many. rewrite <- (map_length Z.of_nat), <- (unique_those n l B). apply Permutation_length, NoDup_Permutation; [exact N|apply sorted_nodup, unique_alphabet|].
  intros v. rewrite in_unique. tauto.
Qed.
Lemma how_split n (P Q : nat -> bool) : how_many n P = how_many n (fun i => P i && Q i)%bool + how_many n (fun i => P i && negb (Q i))%bool.
Proof. unfold how_many, those. induction (seq 0 n) as [|i l IH]; [reflexivity|]. cbn [filter]. destruct (P i), (Q i); cbn [andb negb length]; lia. Qed.
Lemma how_all n P : how_many n P + how_many n (fun i => negb (P i)) = n.
Proof. unfold how_many, those. rewrite filter_split. apply seq_length. Qed.
Lemma how_comm n (P Q : nat -> bool) : how_many n (fun i => P i && Q i)%bool = how_many n (fun i => Q i && P i)%bool.
Proof. unfold how_many. f_equal. apply those_ext. intros. apply andb_comm. Qed.
Lemma how_le n P : how_many n P <= n.
Proof. pose proof (how_all n P). lia. Qed.

Lemma performance_table n judged actual :
  performance (Z.of_nat (how_many n (fun i => judged i && actual i)%bool)) (Z.of_nat (how_many n (fun i => judged i && negb (actual i))%bool)) (Z.of_nat (how_many n actual))
    (Z.of_nat n - Z.of_nat (how_many n actual)) = table n judged actual.
Proof.
  unfold performance, table. cbn [map]. pose proof (how_split n actual judged) as H1. pose proof (how_split n (fun i => negb (actual i)) judged) as H2. pose proof (how_all n actual) as H3. cbv beta in H2.
  pose proof (how_comm n actual judged) as C1. pose proof (how_comm n actual (fun i => negb (judged i))) as C2.
  pose proof (how_comm n (fun i => negb (actual i)) judged) as C3. pose proof (how_comm n (fun i => negb (actual i)) (fun i => negb (judged i))) as C4. cbv beta in C2, C3, C4.
  repeat f_equal; lia.
Qed.

Lemma nonzero_those l : flatnonzero l = those (length l) (fun i => nth i l false).
Proof.
  unfold flatnonzero, those. assert (G : forall k, map fst (filter snd (combine (seq k (length l)) l)) = filter (fun i => nth (i - k) l false) (seq k (length l))).
  { induction l as [|b l IH]; intros k; [reflexivity|]. cbn [length seq combine filter snd]. rewrite Nat.sub_diag. change (nth 0 (b :: l) false) with b.
    assert (E : filter (fun i => nth (i - k) (b :: l) false) (seq (S k) (length l)) = filter (fun i => nth (i - S k) l false) (seq (S k) (length l))).
    { apply filter_ext_in. intros i Hi. apply in_seq in Hi. replace (i - k) with (S (i - S k)) by lia. reflexivity. }
    rewrite E, <- IH. destruct b; reflexivity. }
  rewrite (G 0). apply filter_ext. intros i. rewrite Nat.sub_0_r. reflexivity.
Qed.

Section C.
Variable FO : fops.
Notation F := (Float.F FO).

Lemma verdicts_length (vf : list (option (string * F * F))) vs : verdicts vf vs -> length vf = length vs.
Proof. intros V. apply (f_equal (@length _)) in V. rewrite !map_length in V. exact V. Qed.

Lemma where_those test (vf : list (option (string * F * F))) vs d : verdicts vf vs ->
  fields_where FO test vf = Ok (those (length vs) (fun i => test (Some (fst (nth i vs d))))).
Proof.
  intros V. unfold fields_where.
  assert (E : map_res (fun e : option (string * F * F) => match e with Some (_, v, _) => Ok (test (Some v)) | None => Err TypeError end) vf = Ok (map (fun v => test (Some (fst v))) vs)).
  { clear -V. revert vs V. induction vf as [|e vf IH]; intros [|v vs] V; try discriminate; [reflexivity|]. unfold verdicts in V. cbn [map] in V. apply (f_equal (fun l => match l with x :: t => (x, t) | [] => (None, []) end)) in V.
    cbv beta iota in V. apply (f_equal fst) in V as V1. apply (f_equal snd) in V as V2. cbn [fst snd] in V1, V2. cbn [map_res map]. destruct e as [[[nm p] q]|]; [|discriminate]. cbn [option_map fst snd] in V1. injection V1 as <-.
    rewrite (IH vs V2). reflexivity. }
  rewrite E. cbn [bind]. f_equal. rewrite nonzero_those, map_length. apply those_ext. intros i Hi.
  rewrite (nth_indep _ false (test (Some (fst d)))) by (rewrite map_length; exact Hi). rewrite (map_nth (fun v => test (Some (fst v)))). reflexivity.
Qed.
Lemma forced_those (vf : list (option (string * F * F))) vs d : verdicts vf vs ->
  forced_fields_of FO vf = Ok (those (length vs) (fun i => fle FO (fst (nth i vs d)) (fz FO 0) && feq FO (snd (nth i vs d)) (fz FO 0))%bool).
Proof.
  intros V. unfold forced_fields_of.
  set (g := fun v : F * F => (fle FO (fst v) (fz FO 0) && feq FO (snd v) (fz FO 0))%bool).
  assert (E : map_res (fun e : option (string * F * F) => match e with Some (_, v, d) => Ok (fle FO v (fz FO 0) && feq FO d (fz FO 0))%bool | None => Err TypeError end) vf = Ok (map g vs)).
  { clear -V. revert vs V. induction vf as [|e vf IH]; intros [|v vs] V; try discriminate; [reflexivity|]. unfold verdicts in V. cbn [map] in V. apply (f_equal (fun l => match l with x :: t => (x, t) | [] => (None, []) end)) in V.
    cbv beta iota in V. apply (f_equal fst) in V as V1. apply (f_equal snd) in V as V2. cbn [fst snd] in V1, V2. cbn [map_res map]. destruct e as [[[nm p] q]|]; [|discriminate]. cbn [option_map fst snd] in V1. injection V1 as <-.
    rewrite (IH vs V2). reflexivity. }
  rewrite E. cbn [bind]. f_equal. rewrite nonzero_those, map_length. apply those_ext. intros i Hi.
  rewrite (nth_indep _ false (g d)) by (rewrite map_length; exact Hi). rewrite (map_nth g). reflexivity.
Qed.
Lemma bits_those (vb sd : list (option F)) : length vb = length sd ->
  forced_wrong FO vb sd = those (length vb) (fun p => at_most FO (fz FO 0) (nth p vb None) && equals FO (fz FO 0) (nth p sd None))%bool.
Proof.
  intros L. unfold forced_wrong. rewrite nonzero_those, map_length, combine_length, <- L, Nat.min_id. apply those_ext. intros i Hi.
  set (g := fun xy : option F * option F => (at_most FO (fz FO 0) (fst xy) && equals FO (fz FO 0) (snd xy))%bool).
  rewrite (nth_indep _ false (g (None, None))) by (rewrite map_length, combine_length; lia). rewrite (map_nth g), combine_nth by exact L. reflexivity.
Qed.

Lemma count_those n P (Q : nat -> bool) : count_if Q (those n P) = how_many n (fun i => P i && Q i)%bool.
Proof.
  rewrite count_if_filter. unfold how_many, those. induction (seq 0 n) as [|i l IH]; [reflexivity|]. cbn [filter]. destruct (P i); cbn [filter andb]; [|exact IH]. destruct (Q i); cbn [length]; lia.
Qed.

Lemma classifier_run vf vs vb thr damaged d : verdicts vf vs -> subset_of (length vs) damaged ->
  let good i := flt FO (fsub FO (fz FO 1) thr) (fst (nth i vs d)) in
  let bad i := flt FO (fst (nth i vs d)) thr in
  classifier_characterization FO vf vb thr damaged =
  Ok (FieldReport (map (above FO (fsub FO (fz FO 1) thr)) vb) (map (below FO thr) vb) (those (length vs) good) (those (length vs) bad) (length vs) (length damaged)
        (table (length vs) good (fun i => negb (member damaged i))) (table (length vs) bad (member damaged))).
Proof.
  intros V D good bad. unfold classifier_characterization. rewrite !(where_those _ _ _ d V). cbn [bind]. cbv zeta. rewrite (verdicts_length vf vs V).
  change (fun i => above FO (fsub FO (fz FO 1) thr) (Some (fst (nth i vs d)))) with good. change (fun i => below FO thr (Some (fst (nth i vs d)))) with bad.
  change (fun i => existsb (Z.eqb (Z.of_nat i)) damaged) with (member damaged). change (fun i => negb (existsb (Z.eqb (Z.of_nat i)) damaged)) with (fun i => negb (member damaged i)).
  rewrite !count_those. rewrite (subset_size _ _ D). pose proof (performance_table (length vs) bad (member damaged)) as T1.
  pose proof (performance_table (length vs) good (fun i => negb (member damaged i))) as T2. pose proof (how_all (length vs) (member damaged)) as A.
  assert (E : forall P, how_many (length vs) (fun i => P i && negb (negb (member damaged i)))%bool = how_many (length vs) (fun i => P i && member damaged i)%bool)
    by (intros P; unfold how_many; f_equal; apply those_ext; intros; rewrite negb_involutive; reflexivity).
  rewrite E in T2. rewrite <- T1, <- T2. repeat f_equal; lia.
Qed.

Lemma classifier_unknown vf vb thr damaged : Exists (fun e => e = None) vf -> classifier_characterization FO vf vb thr damaged = Err TypeError.
Proof. intros H. unfold classifier_characterization. rewrite (fields_where_unknown FO _ vf H). reflexivity. Qed.

Lemma those_longer n k P : k <= n -> (forall p, k <= p -> P p = false) -> those k P = those n P.
Proof.
  intros L H. unfold those. replace n with (k + (n - k)) by lia. rewrite seq_app, filter_app.
  assert (E : filter P (seq (0 + k) (n - k)) = []); [|rewrite E, app_nil_r; reflexivity].
  assert (G : forall l, (forall p, In p l -> k <= p) -> filter P l = []).
  { induction l as [|x l IH]; intros B; [reflexivity|]. cbn [filter]. rewrite (H x (B x (or_introl eq_refl))). apply IH. intros p Hp. apply B. right. exact Hp. }
  apply G. intros p Hp. apply in_seq in Hp. lia.
Qed.
Lemma differ_bit n w p (b : bool) : word n w -> p < n -> negb (nth p w 0 =? (if b then 1 else 0))%Z = xorb b (nth p w 0 =? 1)%Z.
Proof.
  intros [L B] H. assert (Bp : bit (nth p w 0%Z)) by (rewrite Forall_forall in B; apply B, nth_In; lia). destruct Bp as [-> | -> ]; destruct b; reflexivity.
Qed.

Variable pack : F -> res N.

Lemma forcing_run vf vs vb sd s damaged errors m rx tx n picture d : 
  verdicts vf vs -> subset_of (length vs) damaged -> subset_of n errors -> word n rx -> word n tx -> length vb = 8 * (n / 8) -> length sd = 8 * (n / 8) ->
  value_of (bitwise_model_mean FO pack m (map Z.of_nat (seq 0 (8 * (n / 8)))) (n / 8) s) = Ok picture ->
  let field i := (fle FO (fst (nth i vs d)) (fz FO 0) && feq FO (snd (nth i vs d)) (fz FO 0))%bool in
  let forced p := (at_most FO (fz FO 0) (nth p vb None) && equals FO (fz FO 0) (nth p sd None))%bool in
  let flipped p := (forced p && xorb (nth p picture false) (nth p rx 0 =? 1)%Z)%bool in
  let bits := how_many n forced in
  forall m1 l1, bitwise_model_mean FO pack m (map Z.of_nat (those n forced)) (n / 8) s = Ok (m1, l1) ->
  forcing_characterization FO pack vf vb sd s damaged errors m rx tx = Ok (m1,
    ForceReport FO (those (length vs) field) (those n forced)
      (map Z.of_nat (those n (fun p => forced p && member errors p)%bool)) (map Z.of_nat (those n (fun p => forced p && negb (member errors p))%bool))
      (map Z.of_nat (those n (fun p => member errors p && negb (forced p))%bool))
      (map Z.of_nat (those (length vs) (fun i => field i && member damaged i)%bool)) (map Z.of_nat (those (length vs) (fun i => field i && negb (member damaged i))%bool))
      (map Z.of_nat (those (length vs) (fun i => member damaged i && negb (field i))%bool))
      (table n forced (member errors)) (table (length vs) field (member damaged))
      [fz FO (Z.of_nat (length errors)); fz FO (Z.of_nat bits); fz FO (Z.of_nat (how_many n flipped));
       fz FO (Z.of_nat (how_many n (fun p => flipped p && member errors p)%bool)); fz FO (Z.of_nat (how_many n (fun p => flipped p && negb (member errors p))%bool));
       if Nat.eqb bits 0 then fz FO 0 else fdiv FO (fz FO (Z.of_nat (how_many n (fun p => forced p && xorb (nth p picture false) (nth p tx 0 =? 1)%Z)%bool))) (fz FO (Z.of_nat bits))]
      (table n flipped (member errors))).
Proof.
  intros V D E Wr Wt Lv Ls Hp field forced flipped bits m1 l1 Em. pose proof (picture_length _ _ _ _ _ _ Hp) as Lp.
  assert (L8 : 8 * (n / 8) <= n) by (pose proof (Nat.mul_div_le n 8); lia).
  assert (Ff : forall p, 8 * (n / 8) <= p -> forced p = false) by (intros p H; unfold forced; rewrite (nth_overflow vb) by lia; reflexivity).
  assert (Eb : forced_wrong FO vb sd = those n forced).
  { rewrite bits_those by lia. rewrite Lv. apply those_longer; assumption. }
  assert (Bd : Forall (fun p => p < 8 * (n / 8)) (those n forced)).
  { apply Forall_forall. intros p H. apply in_those in H. destruct H as [_ H]. destruct (Nat.lt_ge_cases p (8 * (n / 8))) as [?|G]; [assumption|]. rewrite (Ff p G) in H. discriminate. }
  assert (El : l1 = map (fun p => nth p picture false) (those n forced)).
  { rewrite mean_value in Em. destruct (bitwise_model_mean FO pack m [] (n / 8) s) as [r0|]; cbn [bind] in Em; [|discriminate]. rewrite Hp in Em. cbn [bind] in Em.
    assert (Hpic : map_res (index_z picture) (map Z.of_nat (those n forced)) = Ok (map (fun p => nth p picture false) (those n forced))).
    { clear - Bd Lp. induction Bd as [|p f H Hf IH]; [reflexivity|]. cbn [map map_res]. rewrite (index_z_nth picture p false) by lia. cbn [bind]. rewrite IH. reflexivity. }
    rewrite Hpic in Em. cbn [bind] in Em. injection Em as _ <-. reflexivity. }
  assert (Bn : Forall (fun p => p < n) (those n forced)) by (eapply Forall_impl; [|exact Bd]; cbv beta; intros; lia).
  unfold forcing_characterization. cbv zeta. rewrite Eb. rewrite (forced_those vf vs d V). cbn [bind]. fold field. rewrite (proj1 Wr). rewrite Em. cbn [bind].
  rewrite (take_ok rx (those n forced) 0%Z) by (rewrite (proj1 Wr); exact Bn). cbn [bind]. rewrite (take_ok tx (those n forced) 0%Z) by (rewrite (proj1 Wt); exact Bn). cbn [bind].
  rewrite El, !combine_maps. rewrite (map_map (fun x => (nth x picture false, nth x rx 0%Z))). cbn [fst snd]. rewrite filter_pairs.
  assert (Efl : filter (fun x => negb (nth x rx 0 =? (if nth x picture false then 1 else 0))%Z) (those n forced) = those n flipped).
  { unfold those at 1. unfold those, flipped. clear -Wr. assert (G : forall p, In p (seq 0 n) -> p < n) by (intros p H; apply in_seq in H; lia). induction (seq 0 n) as [|p l IH]; [reflexivity|]. cbn [filter].
    destruct (forced p); cbn [andb filter]; [rewrite (differ_bit n) by (auto; apply G; left; reflexivity); destruct (xorb _ _); [f_equal|]|]; apply IH; intros q Hq; apply G; right; exact Hq. }
  rewrite Efl. rewrite !intersect_those, !setdiff_those. rewrite !setdiff_missed by (apply E || apply D). rewrite !map_length. fold (how_many n forced). fold bits.
  rewrite (verdicts_length vf vs V). rewrite (subset_size _ _ D). rewrite (subset_size _ _ E).
  change (length (those n (fun i => (forced i && member errors i)%bool))) with (how_many n (fun i => (forced i && member errors i)%bool)).
  change (length (those n (fun i => (forced i && negb (member errors i))%bool))) with (how_many n (fun i => (forced i && negb (member errors i))%bool)).
  change (length (those n (fun i => (flipped i && member errors i)%bool))) with (how_many n (fun i => (flipped i && member errors i)%bool)).
  change (length (those n (fun i => (flipped i && negb (member errors i))%bool))) with (how_many n (fun i => (flipped i && negb (member errors i))%bool)).
  change (length (those (length vs) (fun i => (field i && member damaged i)%bool))) with (how_many (length vs) (fun i => (field i && member damaged i)%bool)).
  change (length (those (length vs) (fun i => (field i && negb (member damaged i))%bool))) with (how_many (length vs) (fun i => (field i && negb (member damaged i))%bool)).
  rewrite !performance_table.
  assert (Es : count_if (fun bt : bool * Z => negb (snd bt =? (if fst bt then 1 else 0))%Z) (map (fun p => (nth p picture false, nth p tx 0%Z)) (those n forced)) =
               how_many n (fun p => forced p && xorb (nth p picture false) (nth p tx 0 =? 1)%Z)%bool).
  { rewrite count_if_filter, filter_map_length. cbn [fst snd]. unfold how_many, those. clear -Wt. assert (G : forall p, In p (seq 0 n) -> p < n) by (intros p H; apply in_seq in H; lia).
    induction (seq 0 n) as [|p l IH]; [reflexivity|]. cbn [filter].
    destruct (forced p); cbn [andb filter]; [rewrite (differ_bit n) by (auto; apply G; left; reflexivity); destruct (xorb _ _); cbn [length]; [f_equal|]|]; apply IH; intros q Hq; apply G; right; exact Hq. }
  rewrite Es.
  assert (El2 : forall X : F, match those n forced with [] => Ok (fz FO 0) | _ :: _ => Ok X end = Ok (if Nat.eqb bits 0 then fz FO 0 else X))
    by (intros X; unfold bits, how_many; destruct (those n forced); reflexivity).
  rewrite El2. cbn [bind]. reflexivity.
Qed.
End C.

Section Agree.
Variable FO : fops.
Notation F := (Float.F FO).
Variable pack : F -> res N.
Variable erf : F -> F.

Lemma sim_agree m m' : all_coherent FO m -> bm_sim FO m m' -> agree FO m m'.
Proof.
  intros C S nm. pose proof (bm_sim_coherent FO m m' S C) as C'. destruct S as (_ & _ & _ & _ & _ & S). specialize (S nm).
  destruct (bm_get FO m nm) as [f|] eqn:G.
  - destruct S as (f' & G' & (_ & Sm & _)). rewrite G'. split; [exact Sm|]. split; [eapply C|eapply C']; eassumption.
  - rewrite S. exact I.
Qed.
Lemma mean_loop_agree bits names : forall types idx m m' vs, agree FO m m' ->
  value_of (mean_loop FO pack bits idx names types (m, vs)) = value_of (mean_loop FO pack bits idx names types (m', vs)).
Proof.
  induction names as [|nm names IH]; intros types idx m m' vs A; cbn [mean_loop]; [reflexivity|]. destruct types as [|ty types]; [reflexivity|].
  pose proof (A nm) as An. destruct (bm_get FO m nm) as [f|] eqn:G, (bm_get FO m' nm) as [f'|] eqn:G'; try contradiction; cbn [bind]; [|reflexivity].
  destruct An as (S & C & C'). destruct (read_spec FO pack f C) as (K & _). destruct (read_spec FO pack f' C') as (K' & _). rewrite S, <- K in K'. clear K.
  destruct (fm_get_mean FO f) as [[f1 mu]|e] eqn:E1, (fm_get_mean FO f') as [[f1' mu']|e'] eqn:E2; cbn [value_of] in K'; try discriminate; injection K' as ->; cbn [bind]; [|reflexivity].
  destruct (num2bits FO pack (NNum mu) ty) as [b|]; cbn [bind]; [|reflexivity]. destruct (mask_fill bits (Z.of_nat idx) vs b) as [vs1|]; cbn [bind]; [|reflexivity].
  apply IH. unfold fm_get_mean in E1, E2. destruct (fm_refresh FO f) as [g|] eqn:R1; [|discriminate]. destruct (fm_refresh FO f') as [g'|] eqn:R2; [|discriminate]. cbn [bind] in E1, E2.
  injection E1 as <- _. injection E2 as <- _. apply refresh_sim in R1; auto. apply refresh_sim in R2; auto.
  intros k. rewrite !bm_get_set. destruct (String.eqb k nm); [|apply A]. destruct R1 as (_ & S1 & C1), R2 as (_ & S2 & C2). split; [congruence|auto].
Qed.
Lemma mean_agree m m' idx n s : agree FO m m' -> value_of (bitwise_model_mean FO pack m idx n s) = value_of (bitwise_model_mean FO pack m' idx n s).
Proof.
  intros A. unfold bitwise_model_mean. destruct (unpack_structure true n s) as [[[bits names] tys]|]; cbn [bind]; [|reflexivity].
  pose proof (mean_loop_agree bits names tys 0 m m' (repeat false (n * 8)) A) as K.
  destruct (mean_loop FO pack bits 0 names tys (m, repeat false (n * 8))) as [[m1 v]|e], (mean_loop FO pack bits 0 names tys (m', repeat false (n * 8))) as [[m1' v']|e'];
    cbn [value_of] in K; try discriminate; injection K as ->; cbn [bind snd fst]; [|reflexivity].
  destruct (map_res (index_z v') idx); reflexivity.
Qed.
Lemma forcing_agree vf vb sd s damaged errors m m' rx tx : agree FO m m' ->
  value_of (forcing_characterization FO pack vf vb sd s damaged errors m rx tx) = value_of (forcing_characterization FO pack vf vb sd s damaged errors m' rx tx).
Proof.
  intros A. unfold forcing_characterization. cbv zeta. destruct (forced_fields_of FO vf) as [ff|]; cbn [bind]; [|reflexivity].
  pose proof (mean_agree m m' (map Z.of_nat (forced_wrong FO vb sd)) (length rx / 8) s A) as K.
  destruct (bitwise_model_mean FO pack m _ _ s) as [[m1 v]|e], (bitwise_model_mean FO pack m' _ _ s) as [[m1' v']|e'];
    cbn [value_of] in K; try discriminate; injection K as ->; cbn [bind]; [|reflexivity].
  destruct (take rx (forced_wrong FO vb sd)) as [rec|]; cbn [bind]; [|reflexivity].
  match goal with |- value_of (bind ?t _) = _ => destruct t as [last|]; cbn [bind value_of]; reflexivity end.
Qed.
Lemma word_agree thr m m' s sent errors : all_coherent FO m -> bm_sim FO m m' ->
  value_of (characterize_word FO pack erf thr m' s sent errors) = value_of (characterize_word FO pack erf thr m s sent errors) /\
  forall m2 r, characterize_word FO pack erf thr m' s sent errors = Ok (m2, r) -> bm_sim FO m m2.
Proof.
  intros C S. pose proof (bm_sim_coherent FO m m' S C) as C'. pose proof (sim_agree m m' C S) as A. unfold characterize_word.
  destruct (flip_at sent errors) as [cor|]; cbn [bind]; [|split; [reflexivity|discriminate]].
  pose proof (predict_agree FO erf m m' (BBits (map (Z.eqb 1) cor)) s A) as K.
  destruct (predict FO erf m _ s) as [[[[m1 vf] vb] sd]|e] eqn:E1, (predict FO erf m' _ s) as [[[[m1' vf'] vb'] sd']|e'] eqn:E2; cbn [results bind fst snd] in K; try discriminate.
  2: { injection K as ->. cbn [bind]. split; [reflexivity|discriminate]. }
  injection K as -> -> ->.
  cbn [bind]. apply predict_sim in E1; [|exact C]. apply predict_sim in E2; [|exact C'].
  destruct (find_damaged_fields _ s _) as [found|]; cbn [bind]; [|split; [reflexivity|discriminate]].
  match goal with |- value_of (bind ?t _) = _ /\ _ => destruct t as [damaged|]; cbn [bind]; [|split; [reflexivity|discriminate]] end.
  destruct (classifier_characterization FO _ _ thr damaged) as [cl|]; cbn [bind]; [|split; [reflexivity|discriminate]].
  assert (A1 : agree FO m1 m1').
  { intros nm. pose proof (sim_agree m m1 C E1 nm) as B1. pose proof (sim_agree m m1' C (bm_sim_trans FO _ _ _ S E2) nm) as B2. destruct (bm_get FO m nm) as [f|].
    - destruct (bm_get FO m1 nm) as [f1|]; [|contradiction]. destruct (bm_get FO m1' nm) as [f2|]; [|contradiction]. destruct B1 as (? & ? & ?), B2 as (? & ? & ?). split; [congruence|auto].
    - destruct (bm_get FO m1 nm); [contradiction|]. destruct (bm_get FO m1' nm); [contradiction|exact I]. }
  match goal with |- value_of (bind (forcing_characterization _ _ ?vf ?vb ?sd ?s ?dm ?er m1' ?cor ?tx) _) = _ /\ _ => pose proof (forcing_agree vf vb sd s dm er m1 m1' cor tx A1) as K;
    destruct (forcing_characterization FO pack vf vb sd s dm er m1 cor tx) as [[m2 fo]|e] eqn:F1, (forcing_characterization FO pack vf vb sd s dm er m1' cor tx) as [[m2' fo']|e'] eqn:F2 end;
    cbn [value_of] in K; try discriminate; injection K as ->; cbn [bind value_of]; [|split; [reflexivity|discriminate]].
  split; [reflexivity|]. intros m3 r E3. injection E3 as <- _. apply (bm_sim_trans FO _ _ _ S). apply (bm_sim_trans FO _ _ _ E2).
  assert (Co : all_coherent FO m1') by (eapply bm_sim_coherent; eassumption). clear -F2 Co. unfold forcing_characterization in F2. cbv zeta in F2.
  destruct (forced_fields_of FO _) as [ff|]; cbn [bind] in F2; [|discriminate].
  match type of F2 with bind ?t _ = _ => destruct t as [[m3 v]|] eqn:Em; cbn [bind] in F2; [|discriminate] end. apply mean_sim in Em; [|exact Co].
  match type of F2 with bind ?t _ = _ => destruct t as [rec|]; cbn [bind] in F2; [|discriminate] end.
  match type of F2 with bind ?t _ = _ => destruct t as [last|]; cbn [bind] in F2; [|discriminate] end. injection F2 as <- _. exact Em.
Qed.

Lemma run_rows thr m structures clusters words : all_coherent FO m -> clusters <> 0 -> length structures = clusters ->
  characterize FO pack erf thr m structures clusters words =
  do! rows <- map_res (fun iw => value_of (characterize_word FO pack erf thr m (nth (fst iw mod clusters) structures []) (fst (snd iw)) (snd (snd iw)))) (combine (seq 0 (length words)) words) in
  Ok (rows, length words mod clusters).
Proof.
  intros C Hc Ls. unfold characterize. set (f := fun st we => _).
  assert (G : forall words k m1 l0, bm_sim FO m m1 -> exists m2,
    fold_res f words (m1, l0, k mod clusters) =
    do! rows <- map_res (fun iw => value_of (characterize_word FO pack erf thr m (nth (fst iw mod clusters) structures []) (fst (snd iw)) (snd (snd iw)))) (combine (seq k (length words)) words) in
    Ok (m2, l0 ++ rows, (k + length words) mod clusters)).
  { clear words. induction words as [|[sent errors] words IH]; intros k m1 l0 S.
    - exists m1. cbn. rewrite app_nil_r, Nat.add_0_r. reflexivity.
    - cbn [length seq combine map_res fst snd fold_res]. unfold f at 1. cbn [fst snd].
      assert (Ei : index structures (k mod clusters) = Ok (nth (k mod clusters) structures [])).
      { unfold index. rewrite (nth_error_nth' structures []); [reflexivity|]. rewrite Ls. apply Nat.mod_upper_bound. exact Hc. }
      rewrite Ei. cbn [bind]. destruct (word_agree thr m m1 (nth (k mod clusters) structures []) sent errors C S) as [V T].
      destruct (characterize_word FO pack erf thr m1 (nth (k mod clusters) structures []) sent errors) as [[m2 r]|e] eqn:Ew; cbn [value_of] in V; rewrite <- V; cbn [bind]; [|exists m; reflexivity].
      destruct clusters as [|c]; [contradiction|]. cbn [bind]. replace ((k mod Datatypes.S c + 1) mod Datatypes.S c) with ((Datatypes.S k) mod Datatypes.S c).
      2: { rewrite Nat.add_mod_idemp_l by lia. f_equal. lia. }
      destruct (IH (Datatypes.S k) m2 (l0 ++ [r]) (T m2 r eq_refl)) as [m3 E]. exists m3. rewrite E. destruct (map_res _ (combine (seq (Datatypes.S k) (length words)) words)) as [rows|]; cbn [bind]; [|reflexivity].
      rewrite <- app_assoc. cbn [app]. replace (k + Datatypes.S (length words)) with (Datatypes.S k + length words) by lia. reflexivity. }
  destruct (G words 0 m [] (bm_sim_refl FO m C)) as [m2 E]. rewrite Nat.mod_0_l in E by exact Hc. rewrite E. destruct (map_res _ _) as [rows|]; reflexivity.
Qed.
End Agree.

(** ** The damaged fields *)
Lemma owner_fun sl p q q' : owner sl p q -> owner sl p q' -> q = q'.
Proof.
  intros [[-> A]|(pre & x & post & E & -> & B & A)] [[-> A']|(pre' & x' & post' & E' & -> & B' & A')]; auto.
  - exfalso. apply (A x'); [rewrite E'; apply in_or_app; right; left; reflexivity|exact B'].
  - exfalso. apply (A' x); [rewrite E; apply in_or_app; right; left; reflexivity|exact B].
  - f_equal. rewrite E in E'. clear E sl. revert pre' E'. induction pre as [|y pre IH]; intros [|y' pre'] E'; cbn [app] in E'; injection E' as E1 E2; subst.
    + reflexivity.
    + exfalso. apply (A x'); [apply in_or_app; right; left; reflexivity|exact B'].
    + exfalso. apply (A' x); [apply in_or_app; right; left; reflexivity|exact B].
    + cbn [length]. f_equal. apply IH. exact E2.
Qed.
Lemma damaged_fields n m errors s sl : Forall (plain_in (n / 8)) s -> layout s sl -> draw n m errors ->
  exists l, find_damaged_fields (map Z.of_nat errors) s (n / 8) = Ok (Some l) /\
    let dm := unique (map (fun nf : string * nat => Z.of_nat (snd nf)) l) in
    subset_of (length sl) dm /\ StronglySorted Z.lt dm /\ forall j, In (Z.of_nat j) dm <-> exists p, In p errors /\ p < 8 * (n / 8) /\ owner sl p (Z.of_nat j).
Proof.
  intros P L (_ & _ & B). destruct (find_spec (map Z.of_nat errors) s (n / 8) sl P L) as [F _]. destruct F as (es & ls & Pm & _ & D & E).
  { apply Forall_forall. intros e He. apply in_map_iff in He. destruct He as (p & <- & _). lia. }
  exists (concat ls). split; [exact E|]. cbv zeta. destruct (unique_alphabet (map (fun nf : string * nat => Z.of_nat (snd nf)) (concat ls))) as [So Al].
  assert (In1 : forall j nm, In (nm, j) (concat ls) -> j < length sl /\ exists p, In p errors /\ p < 8 * (n / 8) /\ owner sl p (Z.of_nat j)).
  { intros j nm H. assert (Pi : forall e, In e es -> exists p, e = Z.of_nat p /\ In p errors).
    { intros e He. eapply Permutation_in in He; [|exact Pm]. apply in_map_iff in He. destruct He as (p & <- & Hp). eauto. }
    clear -D H Pi. induction D as [|e l es ls Hd D IH]; [destruct H|]. cbn [concat] in H. apply in_app_or in H. destruct H as [H|H]; [|apply IH; [exact H|intros e' He'; apply Pi; right; exact He']].
    destruct (Pi e (or_introl eq_refl)) as (p & -> & Hp). destruct Hd as [[_ ->]|(p' & Hp' & Ep & [[_ ->]|(j' & x & Hj & Ho & ->)])]; [destruct H|destruct H|].
    destruct H as [H|[]]. injection H as _ ->. split; [apply nth_error_Some; rewrite Hj; discriminate|]. assert (p' = p) by lia. subst p'. eauto. }
  assert (In2 : forall j p, In p errors -> p < 8 * (n / 8) -> owner sl p (Z.of_nat j) -> exists nm, In (nm, j) (concat ls)).
  { intros j p Hp Hl Ho. assert (Hi : In (Z.of_nat p) es) by (eapply Permutation_in; [apply Permutation_sym; exact Pm|apply in_map; exact Hp]).
    clear -D Hi Ho Hl. induction D as [|e l es ls Hd D IH]; [destruct Hi|]. cbn [concat]. destruct Hi as [->|Hi]; [|destruct (IH Hi) as [nm H]; exists nm; apply in_or_app; right; exact H].
    destruct Hd as [[? _]|(p' & Hp' & Ep & Q)]; [lia|]. assert (p' = p) by lia. subst p'. destruct Q as [[Hn _]|(j' & x & Hj & Ho' & ->)].
    - pose proof (owner_fun _ _ _ _ Ho Hn). lia.
    - pose proof (owner_fun _ _ _ _ Ho Ho'). assert (j' = j) by lia. subst. eexists. apply in_or_app. left. left. reflexivity. }
  split; [split|split].
  - clear -So. induction So as [|x l S IH H]; constructor; [|exact IH]. intros I. rewrite Forall_forall in H. specialize (H x I). lia.
  - intros v Hv. apply Al in Hv. apply in_map_iff in Hv. destruct Hv as ([nm j] & <- & Hj). cbn [snd]. apply In1 in Hj. lia.
  - exact So.
  - intros j. rewrite Al. rewrite in_map_iff. split.
    + intros ([nm j'] & Ej & Hj). cbn [snd] in Ej. apply Nat2Z.inj in Ej. subst j'. apply In1 in Hj. apply Hj.
    + intros (p & Hp & Hl & Ho). destruct (In2 j p Hp Hl Ho) as [nm H]. exists (nm, j). split; [reflexivity|exact H].
Qed.

Lemma received_unique n sent errors r rx : word n sent -> received sent errors r -> received sent errors rx -> r = rx.
Proof.
  intros W [[Lr Br] R] [[Lr' Br'] R']. apply (nth_ext _ _ 0%Z 0%Z); [congruence|]. intros p Hp. rewrite Lr in Hp. specialize (R p Hp). specialize (R' p Hp).
  assert (B1 : bit (nth p r 0%Z)) by (rewrite Forall_forall in Br; apply Br, nth_In; lia). assert (B2 : bit (nth p rx 0%Z)) by (rewrite Forall_forall in Br'; apply Br', nth_In; lia).
  destruct W as [Lw Bw]. assert (B3 : bit (nth p sent 0%Z)) by (rewrite Forall_forall in Bw; apply Bw, nth_In; exact Hp). unfold bit in *.
  destruct (in_dec Nat.eq_dec p errors) as [I|I]; [apply R in I as A; apply R' in I as A'; lia|]. assert (~ nth p r 0%Z <> nth p sent 0%Z) by tauto. assert (~ nth p rx 0%Z <> nth p sent 0%Z) by tauto. lia.
Qed.
Lemma mean_subset FO pack m n s picture P : value_of (bitwise_model_mean FO pack m (map Z.of_nat (seq 0 (8 * (n / 8)))) (n / 8) s) = Ok picture ->
  (forall p, 8 * (n / 8) <= p -> P p = false) -> exists m1 l1, bitwise_model_mean FO pack m (map Z.of_nat (those n P)) (n / 8) s = Ok (m1, l1).
Proof.
  intros Hp HP. pose proof (picture_length _ _ _ _ _ _ Hp) as Lp. rewrite mean_value, Hp. rewrite mean_value in Hp.
  destruct (bitwise_model_mean FO pack m [] (n / 8) s) as [r0|]; cbn [bind value_of] in Hp |- *; [|discriminate]. eexists. 
  assert (Hpic : map_res (index_z picture) (map Z.of_nat (those n P)) = Ok (map (fun p => nth p picture false) (those n P))).
  { assert (Bd : Forall (fun p => p < length picture) (those n P)).
    { apply Forall_forall. intros p H. apply in_those in H. destruct H as [_ H]. destruct (Nat.lt_ge_cases p (length picture)) as [?|G]; [assumption|]. rewrite HP in H by lia. discriminate. }
    clear - Bd. induction Bd as [|p f H Hf IH]; [reflexivity|]. cbn [map map_res]. rewrite (index_z_nth picture p false) by lia. cbn [bind]. rewrite IH. reflexivity. }
  rewrite Hpic. cbn [bind]. eexists. reflexivity.
Qed.

(** ** One verdict for each field *)
Lemma bits_value_short l : (bits_value l < 2 ^ N.of_nat (length l))%N.
Proof.
  unfold bits_value. assert (G : forall l a, (fold_left (fun acc (b : bool) => (2 * acc + if b then 1 else 0)%N) l a < (a + 1) * 2 ^ N.of_nat (length l))%N).
  { clear. induction l as [|b l IH]; intros a; cbn [fold_left length]; [cbn; lia|]. specialize (IH (2 * a + (if b then 1 else 0))%N).
    rewrite Nat2N.inj_succ, N.pow_succ_r'. destruct b; nia. }
  specialize (G l 0%N). lia.
Qed.
Lemma pack_any : forall fuel l, is_bytes (pack_bits fuel l) /\ (length l <= fuel -> length l <= 8 * length (pack_bits fuel l)).
Proof.
  induction fuel as [|fuel IH]; intros l; cbn [pack_bits]; [split; [constructor|cbn [length]; lia]|]. destruct l as [|b l]; [split; [constructor|cbn [length]; lia]|].
  set (l' := b :: l). destruct (IH (skipn 8 l')) as [A B]. split.
  - constructor; [|exact A]. eapply N.lt_le_trans; [apply bits_value_short|]. change 256%N with (2 ^ 8)%N. apply N.pow_le_mono_r; [lia|]. rewrite firstn_length. lia.
  - intros H. cbn [length]. rewrite skipn_length in B. subst l'. cbn [length] in *. lia.
Qed.
Lemma predict_fields FO erf m l s sl m' vf vb sd : Forall (plain_in (length l / 8)) s -> layout s sl -> predict FO erf m (BBits l) s = Ok (m', vf, vb, sd) -> length vf = length sl.
Proof.
  intros P L E. unfold predict in E. cbn [buf_length bind] in E. destruct (unpack_structure true (length l / 8) s) as [[[bits names] types]|]; cbn [bind] in E; [|discriminate].
  destruct (pack_any (length l) l) as [Ib Ln]. specialize (Ln (Nat.le_refl _)).
  assert (P' : Forall (plain_in (length (pack_bits (length l) l))) s).
  { eapply Forall_impl; [|exact P]. intros ki (c & M & Na & B). exists c. split; [exact M|]. split; [exact Na|]. lia. }
  change (unpack_values (BBits l) s) with (unpack_values (BBytes (pack_bits (length l) l)) s) in E. rewrite (values_ok _ _ _ Ib P' L) in E. cbn [bind] in E.
  assert (G : forall names vals idx m vf vb sd m' vf' vb' sd', predict_loop FO erf bits idx names vals (m, vf, vb, sd) = Ok (m', vf', vb', sd') -> length vf' = length vf).
  { clear. induction names as [|nm names IH]; intros vals idx m vf vb sd m' vf' vb' sd' E; cbn [predict_loop] in E; [injection E as <- <- <- <-; reflexivity|].
    destruct vals as [|v vals]; [injection E as <- <- <- <-; reflexivity|]. destruct (bm_get FO m nm) as [f|].
    - destruct (fm_classify_value FO erf f v) as [[f' [va st]]|]; cbn [bind] in E; [|discriminate]. apply IH in E. rewrite E. apply set_nth_length.
    - cbn [bind] in E. apply IH in E. exact E. }
  apply G in E. rewrite E, repeat_length, map_length. reflexivity.
Qed.
(** A fresh model knows no field. *)
Lemma predict_fresh FO erf w a s m' vf vb sd : predict FO erf (bm_init FO [] w) a s = Ok (m', vf, vb, sd) -> Forall (fun e => e = None) vf.
Proof.
  unfold predict. destruct (buf_length a) as [n|]; cbn [bind]; [|discriminate]. destruct (unpack_structure true n s) as [[[bits names] types]|]; cbn [bind]; [|discriminate].
  destruct (unpack_values a s) as [vals|]; cbn [bind]; [|discriminate].
  assert (G : forall names vals idx vf vb sd m' vf' vb' sd', Forall (fun e : option (string * F FO * F FO) => e = None) vf ->
    predict_loop FO erf bits idx names vals (bm_init FO [] w, vf, vb, sd) = Ok (m', vf', vb', sd') -> Forall (fun e => e = None) vf').
  { clear. induction names as [|nm names IH]; intros vals idx vf vb sd m' vf' vb' sd' H E; cbn [predict_loop] in E; [injection E as <- <- <- <-; exact H|].
    destruct vals as [|v vals]; [injection E as <- <- <- <-; exact H|]. change (bm_get FO (bm_init FO [] w) nm) with (@None (field_model FO)) in E. cbn [bind] in E. eapply IH; eassumption. }
  apply G. apply Forall_forall. intros e H. apply repeat_spec in H. exact H.
Qed.
Lemma predict_fresh_ok FO erf w l s sl : Forall (plain_in (length l / 8)) s -> layout s sl -> exists m' vf vb sd, predict FO erf (bm_init FO [] w) (BBits l) s = Ok (m', vf, vb, sd).
Proof.
  intros P L. unfold predict. cbn [buf_length bind]. destruct (structure_ok _ _ _ P L) as (bits & E & _). rewrite E. cbn [bind].
  destruct (pack_any (length l) l) as [Ib Ln]. specialize (Ln (Nat.le_refl _)).
  assert (P' : Forall (plain_in (length (pack_bits (length l) l))) s).
  { eapply Forall_impl; [|exact P]. intros ki (c & M & Na & B). exists c. split; [exact M|]. split; [exact Na|]. lia. }
  change (unpack_values (BBits l) s) with (unpack_values (BBytes (pack_bits (length l) l)) s). rewrite (values_ok _ _ _ Ib P' L). cbn [bind].
  assert (G : forall names vals idx vf vb sd, exists m' vf' vb' sd', predict_loop FO erf bits idx names vals (bm_init FO [] w, vf, vb, sd) = Ok (m', vf', vb', sd')).
  { clear. induction names as [|nm names IH]; intros vals idx vf vb sd; cbn [predict_loop]; [do 4 eexists; reflexivity|]. destruct vals as [|v vals]; [do 4 eexists; reflexivity|].
    change (bm_get FO (bm_init FO [] w) nm) with (@None (field_model FO)). cbn [bind]. apply IH. }
  apply G.
Qed.
