(** Proofs about the analyses made when debugging. *)
From Coq Require Import String List ZArith NArith Arith Bool Lia Sorting.Sorted.
From Verif.Model Require Import Py Float ProtocolMeta Segmentation StatModels InfoTheory Perf DecoderBase Rectify.
From Verif.Spec Require Import Bytes Stats Info DebugSpec.
From Verif.Proofs Require Import Base InfoP PerfP DecoderP MeanP RectifyP.
Import ListNotations.

Lemma confusion_counts pp ap neg : counts pp ap neg (confusion pp ap neg).
Proof. exact (confusion_spec pp ap neg). Qed.

Lemma fields_spec s good bad errs nf n l : find_damaged_fields errs s (n / 8) = Ok (Some l) -> l <> [] ->
  exists damaged whole gp bp, StronglySorted Z.lt damaged /\ (forall j, In j damaged <-> exists nm k, In (nm, k) l /\ j = Z.of_nat k) /\
    StronglySorted Z.lt whole /\ (forall j, In j whole <-> (0 <= j < Z.of_nat nf)%Z /\ ~ In j damaged) /\
    classifier_analysis (Some s) good bad errs nf n = Ok (Some (nf, length damaged, gp, bp)) /\
    counts (map Z.of_nat bad) damaged (Z.of_nat nf - Z.of_nat (length l)) bp /\ counts (map Z.of_nat good) whole (Z.of_nat (length l)) gp.
Proof.
  intros E Hl. unfold classifier_analysis. rewrite E. cbn [bind]. destruct l as [|x l]; [congruence|]. set (ll := x :: l) in *. clearbody ll. clear E Hl x l.
  destruct (unique_alphabet (map (fun nf => Z.of_nat (snd nf)) ll)) as [A1 A2]. do 4 eexists. split; [exact A1|]. split.
  { intro j. rewrite A2, in_map_iff. split; [intros ([nm k] & <- & H); exists nm, k; auto|intros (nm & k & H & ->); exists (nm, k); auto]. }
  split; [|split; [|split; [reflexivity|split; apply confusion_counts]]].
  - assert (G : forall (P : Z -> bool) k m, StronglySorted Z.lt (filter P (map Z.of_nat (seq k m)))).
    { clear. intros P k m. revert k. induction m as [|m IH]; intro k; cbn [seq map filter]; [constructor|]. destruct (P (Z.of_nat k)); [|apply IH]. constructor; [apply IH|].
      apply Forall_forall. intros y Hy. apply filter_In in Hy. destruct Hy as [Hy _]. apply in_map_iff in Hy. destruct Hy as (z & <- & Hz). apply in_seq in Hz. lia. }
    apply G.
  - intro j. rewrite filter_In, in_map_iff. split.
    + intros [(z & <- & Hz) H]. apply in_seq in Hz. split; [lia|]. intro Hin. apply negb_true_iff in H. 
      assert (Q : existsb (Z.eqb (Z.of_nat z)) (unique (map (fun nf0 => Z.of_nat (snd nf0)) ll)) = true) by (apply existsb_exists; exists (Z.of_nat z); split; [exact Hin|apply Z.eqb_refl]). congruence.
    + intros [Hj Hn]. split; [exists (Z.to_nat j); split; [lia|apply in_seq; lia]|]. apply negb_true_iff. destruct (existsb (Z.eqb j) _) eqn:Q; [|reflexivity]. exfalso. apply Hn.
      apply existsb_exists in Q. destruct Q as (y & Hy & Q). apply Z.eqb_eq in Q. subst. exact Hy.
Qed.
Lemma fields_none st good bad errs nf n : st = None \/ (exists s r, st = Some s /\ find_damaged_fields errs s (n / 8) = Ok r /\ (r = None \/ r = Some [])) ->
  classifier_analysis st good bad errs nf n = Ok None.
Proof. intros [->|(s & r & -> & E & [-> | ->])]; [reflexivity| |]; unfold classifier_analysis; rewrite E; reflexivity. Qed.

Lemma picture_length FO pack m n s picture : value_of (bitwise_model_mean FO pack m (map Z.of_nat (seq 0 (8 * n))) n s) = Ok picture -> length picture = 8 * n.
Proof.
  unfold bitwise_model_mean. destruct (unpack_structure true n s) as [[[bits names] types]|]; cbn [bind value_of]; [|discriminate].
  destruct (mean_loop FO pack bits 0 names types (m, repeat false (n * 8))) as [r|]; cbn [bind value_of]; [|discriminate].
  destruct (map_res (index_z (snd r)) (map Z.of_nat (seq 0 (8 * n)))) as [l|] eqn:E; cbn [bind value_of snd]; [|discriminate]. intro Q. inversion Q; subst.
  apply map_res_length in E. rewrite map_length, seq_length in E. exact E.
Qed.
Lemma mask_spec n errs : Forall (fun e => (- Z.of_nat n <= e < Z.of_nat n)%Z) errs -> error_mask n errs = Ok (map (wrong n errs) (seq 0 n)).
Proof.
  unfold error_mask. intro H.
  assert (G : forall l, length l = n -> fold_res (fun l e => do! _ <- index_z l e in Ok (set_nth l (Z.to_nat (if (e <? 0)%Z then e + Z.of_nat n else e)) true)) errs l =
    Ok (map (fun p => nth p l false || wrong n errs p)%bool (seq 0 n))).
  { induction H as [|e errs He Ht IH]; intros l L; cbn [fold_res].
    - f_equal. rewrite <- L. transitivity (map (fun x => x) l); [symmetry; apply map_id|]. rewrite <- (map_seq_nth (fun x : bool => x) l false) at 1. apply map_ext. intro p. unfold wrong. cbn. rewrite orb_false_r. reflexivity.
    - assert (Hi : exists x, index_z l e = Ok x).
      { unfold index_z. set (j := if (e <? 0)%Z then (e + Z.of_nat (length l))%Z else e). assert (0 <= j < Z.of_nat n)%Z by (unfold j; rewrite L; destruct (Z.ltb_spec e 0%Z); lia).
        destruct (Z.ltb_spec j 0%Z); [lia|]. destruct (Z.leb_spec (Z.of_nat (length l)) j); [lia|]. cbn [orb]. destruct (nth_error l (Z.to_nat j)) as [x|] eqn:En; [eauto|]. apply nth_error_None in En. lia. }
      destruct Hi as (x & Hi). rewrite Hi. cbn [bind]. rewrite IH by (rewrite length_set_nth; exact L). f_equal. apply map_ext_in. intros p Hp. apply in_seq in Hp.
      rewrite Base.nth_set_nth. set (k := Z.to_nat (if (e <? 0)%Z then e + Z.of_nat n else e)). unfold wrong at 2. cbn [existsb]. fold (wrong n errs p).
      assert (Kn : k < n) by (unfold k; destruct (Z.ltb_spec e 0%Z); lia). assert (Kl : Nat.ltb k (length l) = true) by (apply Nat.ltb_lt; lia). rewrite Kl, andb_true_r.
      assert (Hk : Nat.eqb p k = (Z.eqb e (Z.of_nat p) || Z.eqb e (Z.of_nat p - Z.of_nat n))%bool).
      { unfold k. destruct (Z.ltb_spec e 0%Z); destruct (Z.eqb_spec e (Z.of_nat p)), (Z.eqb_spec e (Z.of_nat p - Z.of_nat n)); cbn [orb]; try apply Nat.eqb_eq; try apply Nat.eqb_neq; lia. }
      rewrite <- Hk. destruct (Nat.eqb p k), (nth p l false), (wrong n errs p); reflexivity. }
  rewrite G by apply repeat_length. f_equal. apply map_ext_in. intros p Hp. rewrite nth_repeat. reflexivity.
Qed.

Lemma index_z_nth {A} (l : list A) p d : p < length l -> index_z l (Z.of_nat p) = Ok (nth p l d).
Proof.
  intro H. unfold index_z. destruct (Z.ltb_spec (Z.of_nat p) 0%Z); [lia|]. destruct (Z.ltb_spec (Z.of_nat p) 0%Z); [lia|]. destruct (Z.leb_spec (Z.of_nat (length l)) (Z.of_nat p)); [lia|]. cbn [orb].
  rewrite Nat2Z.id, (nth_error_nth' l d H). reflexivity.
Qed.
Lemma filter_pairs (l : list nat) (g : nat -> bool) : map fst (filter snd (combine l (map g l))) = filter g l.
Proof. induction l as [|x l IH]; [reflexivity|]. cbn [map combine filter snd]. destruct (g x); cbn [map fst]; [f_equal|]; exact IH. Qed.
Lemma combine_maps {A B C} (f : A -> B) (g : A -> C) l : combine (map f l) (map g l) = map (fun x => (f x, g x)) l.
Proof. induction l as [|x l IH]; [reflexivity|]. cbn. f_equal. exact IH. Qed.
Lemma filter_map_length {A B} (f : A -> B) (P : B -> bool) l : length (filter P (map f l)) = length (filter (fun x => P (f x)) l).
Proof. induction l as [|x l IH]; [reflexivity|]. cbn. destruct (P (f x)); cbn; congruence. Qed.

Lemma forcing_spec FO pack m s f errs rx picture : value_of (bitwise_model_mean FO pack m (map Z.of_nat (seq 0 (8 * (length rx / 8)))) (length rx / 8) s) = Ok picture ->
  Forall is_bit rx -> Forall (fun p => p < 8 * (length rx / 8)) f -> Forall (fun e => (- Z.of_nat (length rx) <= e < Z.of_nat (length rx))%Z) errs ->
  exists bc tp fp rest, forcing_analysis FO pack m (Some s) (Some f) errs rx =
      Ok (bc, tp :: fp :: rest,
          [fz FO (Z.of_nat (length errs)); fz FO (Z.of_nat (length f)); fz FO (Z.of_nat (length (differing picture (got rx) f))); fz FO tp; fz FO fp;
           match f with [] => fz FO 0 | _ => fdiv FO (fz FO (Z.of_nat (length (differing picture (sent rx errs) f)))) (fz FO (Z.of_nat (length f))) end]) /\
    counts (map Z.of_nat f) errs (Z.of_nat (length rx) - Z.of_nat (length errs)) bc /\
    counts (map Z.of_nat (differing picture (got rx) f)) errs (Z.of_nat (length rx) - Z.of_nat (length errs)) (tp :: fp :: rest).
Proof.
  intros Hp Hb Hf He. pose proof (picture_length _ _ _ _ _ _ Hp) as Lp. assert (L8 : 8 * (length rx / 8) <= length rx) by (pose proof (Nat.div_mod (length rx) 8); lia).
  assert (Hm : exists r, bitwise_model_mean FO pack m [] (length rx / 8) s = Ok r).
  { rewrite mean_value in Hp. destruct (bitwise_model_mean FO pack m [] (length rx / 8) s) as [r|]; [eauto|discriminate]. }
  destruct Hm as (r0 & Hm). assert (Hpic : map_res (index_z picture) (map Z.of_nat f) = Ok (map (fun p => nth p picture false) f)).
  { clear - Hf Lp. induction Hf as [|p f H Hf IH]; [reflexivity|]. cbn [map map_res]. rewrite (index_z_nth picture p false) by lia. cbn [bind]. rewrite IH. reflexivity. }
  unfold forcing_analysis. cbv zeta. rewrite mean_value, Hm. cbn [bind]. rewrite Hp. cbn [bind]. rewrite Hpic. cbn [bind fst].
  assert (Hfr : Forall (fun i => i < length rx) f) by (eapply Forall_impl; [|exact Hf]; cbv beta; intros a Ha; eapply Nat.lt_le_trans; [exact Ha|exact L8]). rewrite (take_ok rx f 0%Z Hfr). cbn [bind]. rewrite mask_spec by exact He. cbn [bind].
  rewrite (take_ok _ f false) by (rewrite map_length, seq_length; exact Hfr). cbn [bind].
  rewrite !combine_maps. rewrite (map_map (fun x => (nth x picture false, nth x rx 0%Z))). cbn [fst snd].
  assert (Bit : forall p, p < length rx -> nth p rx 0%Z = if got rx p then 1%Z else 0%Z).
  { intros p H. unfold got. rewrite Forall_forall in Hb. destruct (Hb (nth p rx 0%Z) (nth_In _ _ H)) as [-> | ->]; reflexivity. }
  assert (Hfl : map fst (filter snd (combine f (map (fun x => negb (nth x rx 0 =? (if nth x picture false then 1 else 0))%Z) f))) = differing picture (got rx) f).
  { rewrite filter_pairs. unfold differing. apply filter_ext_in. intros p Hin. rewrite Forall_forall in Hfr. rewrite (Bit p (Hfr p Hin)). destruct (got rx p), (nth p picture false); reflexivity. }
  rewrite Hfl. destruct (confusion_spec (map Z.of_nat (differing picture (got rx) f)) errs (Z.of_nat (length rx) - Z.of_nat (length errs))) as (tp & fp & fn & E1 & E2 & E3 & E4). rewrite E1. cbn [nth].
  do 4 eexists. split; [|split; [apply confusion_counts|exists tp, fp, fn; split; [reflexivity|]; auto]]. f_equal. f_equal. repeat f_equal.
  destruct f as [|p0 f0] eqn:Ef; [reflexivity|]. rewrite <- Ef in *. f_equal. f_equal. f_equal. rewrite map_map, combine_maps, filter_map_length. cbn [fst snd]. unfold differing. f_equal. apply filter_ext_in. intros p Hin.
  rewrite Forall_forall in Hfr. pose proof (Hfr p Hin) as Hr. rewrite (nth_map_seq (wrong (length rx) errs) (length rx) p false Hr) || idtac. rewrite (Bit p Hr). unfold sent. destruct (got rx p), (wrong (length rx) errs p), (nth p picture false); reflexivity.
Qed.
