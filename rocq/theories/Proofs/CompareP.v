(** Lemmas on the comparisons of the denoisers. *)
From Coq Require Import List Arith ZArith Reals Bool Lia Lra.
From Verif.Model Require Import Py Float Dude Emle Perf Compare.
From Verif.Spec Require Import RealOps Info Cluster EmleSpec DudeSpec CompareSpec.
From Verif.Proofs Require Import Base RealP DudeP DudeH EmleP PerfP.
From Verif.Props Require Import InfoProps EmleProps.
Import ListNotations.

(** ** Counting *)
Lemma differences_sym a b : differences a b = differences b a.
Proof.
  unfold differences. revert b. induction a as [|x a IH]; intros [|y b]; try reflexivity.
  cbn [combine filter fst snd]. rewrite (Z.eqb_sym y x). destruct (negb (Z.eqb x y)); cbn [length]; rewrite IH; reflexivity.
Qed.
Lemma differences_zero a b : length a = length b -> (differences a b = 0 <-> a = b).
Proof.
  unfold differences. revert b. induction a as [|x a IH]; intros [|y b] L; try discriminate L; [split; reflexivity|].
  injection L as L. cbn [combine filter fst snd]. destruct (Z.eqb_spec x y) as [->|N]; cbn [negb length].
  - rewrite (IH b L). split; [intros ->; reflexivity|intros [= ->]; reflexivity].
  - split; [discriminate|intros [= E _]; contradiction].
Qed.

Definition count3 (test : Z -> Z -> Z -> bool) (a b c : list Z) : nat :=
  length (filter (fun x => test (fst (fst x)) (snd (fst x)) (snd x)) (combine (combine a b) c)).
Lemma count3_positions test a b c : length b = length a -> length c = length a -> count3 test a b c = positions a b c test.
Proof.
  unfold count3, positions. revert b c. induction a as [|x a IH]; intros [|y b] [|z c] L1 L2; try discriminate; [reflexivity|].
  injection L1 as L1. injection L2 as L2. cbn [combine filter fst snd length seq].
  change (test (nth 0 (x :: a) 0%Z) (nth 0 (y :: b) 0%Z) (nth 0 (z :: c) 0%Z)) with (test x y z).
  assert (X : length (filter (fun i => test (nth i (x :: a) 0%Z) (nth i (y :: b) 0%Z) (nth i (z :: c) 0%Z)) (seq 1 (length a))) =
              length (filter (fun i => test (nth i a 0%Z) (nth i b 0%Z) (nth i c 0%Z)) (seq 0 (length a)))).
  { rewrite <- seq_shift. generalize (seq 0 (length a)). intro l. induction l as [|i l IHl]; [reflexivity|]. cbn [map filter].
    change (test (nth (S i) (x :: a) 0%Z) (nth (S i) (y :: b) 0%Z) (nth (S i) (z :: c) 0%Z)) with (test (nth i a 0%Z) (nth i b 0%Z) (nth i c 0%Z)).
    destruct (test (nth i a 0%Z) (nth i b 0%Z) (nth i c 0%Z)); cbn [length]; [f_equal|]; exact IHl. }
  destruct (test x y z); cbn [length]; rewrite X, IH by auto; reflexivity.
Qed.
Lemma flips_split a b c : length b = length a -> length c = length a ->
  mismatches c b = good_flips a b c + erroneous_flips a b c.
Proof.
  unfold mismatches, good_flips, erroneous_flips. revert b c. induction a as [|x a IH]; intros [|y b] [|z c] L1 L2; try discriminate; [reflexivity|].
  injection L1 as L1. injection L2 as L2. cbn [combine filter fst snd]. specialize (IH b c L1 L2).
  destruct (Z.eqb z y); destruct (Z.eqb z x); cbn [negb andb length]; lia.
Qed.
Lemma errors_balance a b c : length b = length a -> length c = length a -> Forall is_bit a -> Forall is_bit b -> Forall is_bit c ->
  mismatches c a + good_flips a b c = mismatches b a + erroneous_flips a b c.
Proof.
  unfold mismatches, good_flips, erroneous_flips. revert b c. induction a as [|x a IH]; intros [|y b] [|z c] L1 L2 Ha Hb Hc; try discriminate; [reflexivity|].
  injection L1 as L1. injection L2 as L2. inversion Ha; inversion Hb; inversion Hc; subst. cbn [combine filter fst snd].
  specialize (IH b c L1 L2 ltac:(auto) ltac:(auto) ltac:(auto)).
  repeat match goal with H : is_bit _ |- _ => destruct H as [-> | -> ] end; cbn [Z.eqb Pos.eqb negb andb length]; lia.
Qed.

(** ** Hard estimates *)
Section Hard.
Variable FO : fops.
Lemma argmin_two (x y : F FO) : argmin FO [x; y] = 0 \/ argmin FO [x; y] = 1.
Proof. unfold argmin. cbn [argmin_from]. destruct (flt FO y x); auto. Qed.
Lemma decide_bit (d : dude FO) counts obs : d_hard FO d = true -> d_size FO d = 2 ->
  exists z cost, decide FO d counts obs = Ok (Hard z, cost) /\ is_bit z.
Proof.
  intros H1 H2. unfold decide. rewrite H1, H2. eexists. eexists. split; [reflexivity|]. unfold vecmat at 1. cbn [seq map].
  match goal with |- is_bit (Z.of_nat (argmin FO [?x; ?y])) => destruct (argmin_two x y) as [-> | -> ] end; [left|right]; reflexivity.
Qed.
Lemma sample_bit (d : dude FO) s x : d_hard FO d = true -> d_size FO d = 2 -> is_bit x ->
  exists s' z cost, denoise_sample FO d s x = (s', Ok (Hard z, cost)) /\ is_bit z.
Proof.
  intros H1 H2 Hx. unfold denoise_sample. rewrite H2.
  assert (R : negb ((0 <=? x)%Z && (x <? Z.of_nat 2)%Z) = false) by (destruct Hx as [-> | -> ]; reflexivity). rewrite R.
  destruct (Z.of_nat (length (o_last s)) <? d_k FO d)%Z.
  - unfold unchanged. rewrite H1. eexists _, _, _. split; [reflexivity|]. destruct Hx as [-> | -> ]; [left|right]; reflexivity.
  - destruct (decide_bit d (bump (match dict_get zs_eqb (o_contexts s) (o_last s) with Some c => c | None => repeat 0%Z 2 end) (Z.to_nat x)) (Z.to_nat x) H1 H2) as (z & cost & E & Hz).
    rewrite E. eexists _, z, cost. split; [reflexivity|exact Hz].
Qed.
Lemma online_bits (d : dude FO) obs : d_hard FO d = true -> d_size FO d = 2 -> Forall is_bit obs -> forall s,
  exists s' rs es, denoise_online FO d s obs = (s', Ok rs) /\ map fst rs = map Hard es /\ length es = length obs /\ Forall is_bit es.
Proof.
  intros H1 H2. induction obs as [|x obs IH]; intros Ho s.
  - exists s, [], []. repeat split; constructor.
  - inversion Ho; subst. destruct (sample_bit d s x H1 H2 ltac:(auto)) as (s1 & z & cost & E & Hz). cbn [denoise_online]. rewrite E.
    destruct (IH ltac:(auto) s1) as (s' & rs & es & E2 & E3 & L & Hb). rewrite E2. exists s', ((Hard z, cost) :: rs), (z :: es).
    split; [reflexivity|]. split; [cbn [map fst]; rewrite E3; reflexivity|]. split; [cbn [length]; rewrite L; reflexivity|]. constructor; auto.
Qed.
Lemma symbols_hard {B} (rs : list (estimate FO * B)) es : map fst rs = map Hard es -> map (fun x => symbol_of FO (fst x)) rs = es.
Proof. intro E. rewrite <- (map_map fst (symbol_of FO)), E, map_map. cbn [symbol_of]. apply map_id. Qed.

(** ** Arrays of floats *)
Lemma floats_stop k obs seen : Forall is_bit obs -> (k < Z.of_nat (seen + length obs))%Z -> obs <> [] -> denoise_floats 2 k seen obs = Err IndexError.
Proof.
  revert seen. induction obs as [|x obs IH]; intros seen Ho Hk Hn; [contradiction|]. inversion Ho; subst. cbn [denoise_floats].
  assert (R : negb ((0 <=? x)%Z && (x <? Z.of_nat 2)%Z) = false) by (match goal with H : is_bit x |- _ => destruct H as [-> | -> ] end; reflexivity). rewrite R.
  destruct (Z.ltb_spec (Z.of_nat seen) k); [|reflexivity]. destruct obs as [|y obs]; [cbn [length] in Hk; lia|].
  assert (X : denoise_floats 2 k (S seen) (y :: obs) = Err IndexError).
  { apply IH; [assumption| |discriminate]. change (length (x :: y :: obs)) with (S (S (length obs))) in Hk. change (length (y :: obs)) with (S (length obs)). lia. }
  rewrite X. reflexivity.
Qed.
Lemma floats_pass k obs seen : Forall is_bit obs -> (Z.of_nat (seen + length obs) <= k)%Z -> denoise_floats 2 k seen obs = Ok obs.
Proof.
  revert seen. induction obs as [|x obs IH]; intros seen Ho Hk; [reflexivity|]. inversion Ho; subst. cbn [denoise_floats].
  assert (R : negb ((0 <=? x)%Z && (x <? Z.of_nat 2)%Z) = false) by (match goal with H : is_bit x |- _ => destruct H as [-> | -> ] end; reflexivity). rewrite R.
  cbn [length] in Hk. destruct (Z.ltb_spec (Z.of_nat seen) k); [|lia]. rewrite IH by (auto; lia). reflexivity.
Qed.
Lemma ints_pass (d : dude FO) obs s : d_hard FO d = true -> d_size FO d = 2 -> Forall is_bit obs -> (Z.of_nat (length (o_last s) + length obs) <= d_k FO d)%Z ->
  exists s' rs, denoise_online FO d s obs = (s', Ok rs) /\ map fst rs = map Hard obs.
Proof.
  intros H1 H2. revert s. induction obs as [|x obs IH]; intros s Ho Hk; [exists s, []; split; reflexivity|]. inversion Ho; subst.
  cbn [denoise_online]. unfold denoise_sample. rewrite H2.
  assert (R : negb ((0 <=? x)%Z && (x <? Z.of_nat 2)%Z) = false) by (match goal with H : is_bit x |- _ => destruct H as [-> | -> ] end; reflexivity). rewrite R.
  cbn [length] in Hk. destruct (Z.ltb_spec (Z.of_nat (length (o_last s))) (d_k FO d)); [|lia].
  destruct (IH (Online (o_contexts s) (o_last s ++ [x]))) as (s' & rs & E & E2); auto; [cbn [o_last]; rewrite app_length; cbn [length]; lia|].
  rewrite E. eexists _, _. split; [reflexivity|]. cbn [map fst]. rewrite E2. f_equal. unfold unchanged. rewrite H1.
  match goal with H : is_bit x |- _ => destruct H as [-> | -> ] end; reflexivity.
Qed.
End Hard.

(** ** The entropy aided denoiser on rows *)
Lemma rows_denoised (c : emle_conf Rops) n rows : (0 < e_f Rops c < / 2)%R -> e_hard Rops c = true -> 1 <= n -> Forall (bits_of_length n) rows -> forall before, Forall (bits_of_length n) before ->
  exists s' rs, denoise_sequence Rops (denoise_hard Rops c) (updated Rops c (emle_new Rops) before) rows = (s', Ok rs) /\
    length rs = length rows /\
    forall j, j < length rows -> exists bits cost, nth_error rs j = Some (Bits bits, cost) /\ bits_of_length n bits /\
      snd (denoise_hard Rops c (updated Rops c (emle_new Rops) (before ++ firstn j rows)) (nth j rows [])) = Ok (Bits bits, cost).
Proof.
  intros Hf Hh Hn Hr. induction Hr as [|x rows Hx Hr IH]; intros before Hb.
  - exists (updated Rops c (emle_new Rops) before), []. split; [reflexivity|]. split; [reflexivity|]. intros j Hj. cbn in Hj. lia.
  - destruct (c44_denoise_hard c n before x Hf Hn Hb Hx) as (_ & est & E & Le & Ed). rewrite Hh in Ed.
    destruct (IH (before ++ [x])) as (s' & rs & Er & Lr & Hj); [apply Forall_app; split; auto|].
    cbn [denoise_sequence]. rewrite Ed, Er. cbn [bind]. eexists _, _. split; [reflexivity|]. split; [cbn [length]; auto|].
    intros [|j] Lj.
    + cbn [nth_error firstn nth]. rewrite app_nil_r. eexists _, _. split; [reflexivity|]. split; [|rewrite Ed; reflexivity].
      split; [rewrite map_length; exact Le|]. apply Forall_forall. intros z Hz. apply in_map_iff in Hz. destruct Hz as (y & <- & _). apply sign_bit_bit.
    + cbn [nth_error firstn nth]. destruct (Hj j ltac:(cbn [length] in Lj; lia)) as (bits & cost & H1 & H2 & H3). exists bits, cost.
      split; [exact H1|]. split; [exact H2|]. rewrite <- app_assoc in H3. exact H3.
Qed.
Lemma rows_estimates (c : emle_conf Rops) n rows : (0 < e_f Rops c < / 2)%R -> e_hard Rops c = true -> 1 <= n -> Forall (bits_of_length n) rows ->
  exists s' rs es, denoise_sequence Rops (denoise_hard Rops c) (emle_new Rops) rows = (s', Ok rs) /\
    map (fun a => bits_of_answer Rops (fst a)) rs = es /\ bit_array (length rows) n es /\ row_by_row c rows es.
Proof.
  intros Hf Hh Hn Hr. destruct (rows_denoised c n rows Hf Hh Hn Hr [] ltac:(constructor)) as (s' & rs & E & L & H).
  exists s', rs, (map (fun a => bits_of_answer Rops (fst a)) rs). split; [exact E|]. split; [reflexivity|]. split; [split|split].
  - rewrite map_length. exact L.
  - apply Forall_forall. intros b Hb. apply in_map_iff in Hb. destruct Hb as (a & <- & Ha). apply In_nth_error in Ha. destruct Ha as [j Ej].
    destruct (H j) as (bits & cost & E1 & E2 & _); [rewrite <- L; apply nth_error_Some; congruence|]. rewrite Ej in E1. injection E1 as ->. exact E2.
  - rewrite map_length. exact L.
  - intros j Hj. destruct (H j Hj) as (bits & cost & E1 & _ & E3). exists cost. cbn [app] in E3. rewrite E3.
    rewrite (nth_indep _ [] (bits_of_answer Rops (fst (@Bits Rops [], 0%Z)))) by (rewrite map_length; lia).
    rewrite (map_nth (fun a => bits_of_answer Rops (fst a))). erewrite nth_error_nth by exact E1. reflexivity.
Qed.

(** ** A source that does not change *)
Lemma sign_bit_neg x : (x < 0)%R -> sign_bit x = 1%Z.
Proof. intro H. unfold sign_bit. destruct (Rlt_dec x 0); [reflexivity|contradiction]. Qed.
Lemma sign_bit_pos x : (0 <= x)%R -> sign_bit x = 0%Z.
Proof. intro H. unfold sign_bit. destruct (Rlt_dec x 0); [lra|reflexivity]. Qed.
Lemma bsc_log_pos f : (0 < f < / 2)%R -> (0 < ln ((1 - f) / f))%R.
Proof.
  intro H. rewrite <- ln_1. apply ln_increasing; [lra|]. apply Rmult_lt_reg_r with f; [lra|].
  unfold Rdiv. rewrite Rmult_assoc, Rinv_l by lra. lra.
Qed.
Lemma weight_nonneg center slope n : (0 <= weight center slope n)%R.
Proof. destruct (weight_range center slope n) as [[_ ->]|[_ H]]; lra. Qed.
Lemma in_window_repeat {A} w (x : A) n : 1 <= n -> exists k, in_window w (repeat x n) = repeat x (S k).
Proof.
  intro Hn. unfold in_window. destruct (Z.ltb_spec 0 w).
  - unfold last_of. rewrite repeat_length. exists (Nat.min n (Z.to_nat w) - 1). replace (S (Nat.min n (Z.to_nat w) - 1)) with (n - (n - Z.to_nat w)) by lia.
    generalize (n - Z.to_nat w). clear. intro m. revert m. induction n as [|n IH]; intros [|m]; try reflexivity. exact (IH m).
  - exists (n - 1). f_equal. lia.
Qed.
Lemma share_repeat (row : list Z) k i : share (repeat row (S k)) 1 i = if Z.eqb (nth i row (-1)%Z) 1 then 1%R else 0%R.
Proof.
  unfold share, votes. rewrite repeat_length.
  assert (X : forall m, length (filter (fun b => Z.eqb (nth i b (-1)%Z) 1) (repeat row m)) = if Z.eqb (nth i row (-1)%Z) 1 then m else 0).
  { induction m as [|m IH]; [destruct (Z.eqb _ 1); reflexivity|]. cbn [repeat filter]. destruct (Z.eqb (nth i row (-1)%Z) 1); cbn [length]; rewrite IH; reflexivity. }
  rewrite X. destruct (Z.eqb _ 1); [apply Rinv_r; apply not_0_INR; lia|]. cbn [INR]. unfold Rdiv. apply Rmult_0_l.
Qed.
Lemma constant_row (c : emle_conf Rops) n row j : (0 < e_f Rops c < / 2)%R -> e_hard Rops c = true -> 1 <= n -> bits_of_length n row ->
  snd (denoise_hard Rops c (updated Rops c (emle_new Rops) (repeat row j)) row) = Ok (Bits row, 0%Z).
Proof.
  intros Hf Hh Hn Hr. assert (Hb : Forall (bits_of_length n) (repeat row j)) by (apply Forall_forall; intros b Hin; apply repeat_spec in Hin; subst; exact Hr).
  destruct (c44_denoise_hard c n (repeat row j) row Hf Hn Hb Hr) as (Es & est & E & Le & Ed). rewrite Hh in Ed.
  assert (X : map sign_bit est = row).
  { destruct j as [|j].
    - rewrite (c44_no_model c n) in E by first [assumption | lra | rewrite map_length; apply Hr | left; cbn; lia]. injection E as <-. exact Es.
    - pose proof Hr as [Lr Hbit].
      destruct (c44_prediction c n (repeat row (S j)) _ ltac:(lra) Hn ltac:(discriminate) Hb
                 (eq_trans (map_length (fun b => if Z.eqb b 1 then - ln ((1 - e_f Rops c) / e_f Rops c) else ln ((1 - e_f Rops c) / e_f Rops c))%R row) Lr)) as (out & E' & Lo & Hv).
      rewrite E in E'. injection E' as <-.
      apply nth_ext with (d := sign_bit 0%R) (d' := 0%Z); [rewrite map_length, Lr; exact Le|]. intros i Hi. rewrite map_length in Hi. change (@length (F Rops) est) with (@length R est) in Le. rewrite Le in Hi.
      rewrite map_nth. specialize (Hv i Hi). cbn zeta in Hv. change (@nth (F Rops) i est 0%R) with (@nth R i est 0%R) in Hv. rewrite Hv. clear Hv.
      destruct (c44_estimates c n (repeat row (S j)) i ltac:(lra) ltac:(discriminate) Hb Hi) as (Hp & He & _).
      destruct (in_window_repeat (e_window Rops c) row (S j) ltac:(lia)) as [k Ek]. rewrite Ek, share_repeat in He.
      set (p := nth i (e_p1 Rops (updated Rops c (emle_new Rops) (repeat row (S j)))) 0%R) in *.
      rewrite (nth_indep _ 0%R ((fun b => if Z.eqb b 1 then - ln ((1 - e_f Rops c) / e_f Rops c) else ln ((1 - e_f Rops c) / e_f Rops c))%R 0%Z)) by (rewrite map_length, Lr; exact Hi).
      rewrite (map_nth (fun b => if Z.eqb b 1 then - ln ((1 - e_f Rops c) / e_f Rops c) else ln ((1 - e_f Rops c) / e_f Rops c))%R).
      rewrite (nth_indep row (-1)%Z 0%Z) in He by (rewrite Lr; exact Hi).
      pose proof (bsc_log_pos _ Hf) as HL. pose proof (weight_nonneg (e_center Rops c) (e_slope Rops c) (Z.of_nat (admitted (e_window Rops c) (length (repeat row (S j)))))) as HW.
      set (w := weight _ _ _) in *. set (L := ln _) in *. set (g := log_ratio p).
      destruct (log_ratio_sign p Hp) as (S1 & S2 & _). fold g in S1, S2.
      assert (Hi' : is_bit (nth i row 0%Z)) by (rewrite Forall_forall in Hbit; apply Hbit, nth_In; rewrite Lr; exact Hi).
      change (F Rops) with R in *.
      destruct Hi' as [B|B]; rewrite B in *; cbn [Z.eqb Pos.eqb] in *.
      + assert (p = 0)%R by (unfold explains in He; destruct He as [[_ ->]|[[H _]|[H _]]]; [reflexivity|lra|lra]).
        assert (0 < g)%R by (apply S1; lra). apply sign_bit_pos. destruct (Rlt_dec _ _); [|lra]. apply Rplus_le_le_0_compat; [lra|]. apply Rmult_le_pos; lra.
      + assert (p = 1)%R by (unfold explains in He; destruct He as [[H _]|[[_ ->]|[H _]]]; [lra|reflexivity|lra]).
        assert (g < 0)%R by (apply S2; lra). apply sign_bit_neg. destruct (Rlt_dec _ _); [|lra].
        assert (0 <= w * - g)%R by (apply Rmult_le_pos; lra). lra. }
  rewrite X in Ed. rewrite Ed. cbn [snd]. f_equal. f_equal. rewrite (proj2 (differences_zero row row eq_refl) eq_refl). reflexivity.
Qed.
Lemma constant_rows (c : emle_conf Rops) n row k : (0 < e_f Rops c < / 2)%R -> e_hard Rops c = true -> 1 <= n -> bits_of_length n row ->
  forall es, row_by_row c (repeat row k) es -> es = repeat row k.
Proof.
  intros Hf Hh Hn Hr es [L H]. rewrite repeat_length in *. apply nth_ext with (d := []) (d' := []); [rewrite repeat_length; exact L|].
  intros j Hj. rewrite L in Hj. destruct (H j Hj) as [cost E].
  assert (X : firstn j (repeat row k) = repeat row j).
  { clear - Hj. revert k Hj. induction j as [|j IH]; intros [|k] Hj; try reflexivity; try lia. cbn [repeat firstn]. rewrite IH by lia. reflexivity. }
  assert (Y : forall d, nth j (repeat row k) d = row).
  { clear - Hj. intro d. revert j Hj. induction k as [|k IH]; intros [|j] Hj; try lia; [reflexivity|]. cbn [repeat nth]. apply IH. lia. }
  rewrite X, !Y in *. rewrite (constant_row c n row j Hf Hh Hn Hr) in E. injection E as E _. symmetry. exact E.
Qed.

(** ** The comparison *)
Lemma map_res_rel {A B} (f : A -> res B) (P : A -> B -> Prop) l : (forall x, In x l -> exists y, f x = Ok y /\ P x y) -> exists ys, map_res f l = Ok ys /\ Forall2 P l ys.
Proof.
  induction l as [|x l IH]; intro H; [exists []; split; [reflexivity|constructor]|].
  destruct (H x (or_introl eq_refl)) as (y & E & Hy). destruct IH as (ys & E2 & H2); [intros z Hz; apply H; right; exact Hz|].
  exists (y :: ys). cbn [map_res]. rewrite E. cbn [bind]. rewrite E2. split; [reflexivity|constructor; auto].
Qed.
Lemma rel_nth {A B} (P : A -> B -> Prop) l ys i a b : Forall2 P l ys -> i < length l -> P (nth i l a) (nth i ys b).
Proof. intro H. revert i. induction H as [|x y l ys Hxy H IH]; intros [|i] Hi; cbn in *; try lia; auto. apply IH. lia. Qed.
Lemma rel_length {A B} (P : A -> B -> Prop) l ys : Forall2 P l ys -> length l = length ys.
Proof. induction 1; cbn; auto. Qed.
Lemma column_bits n rows i : Forall (bits_of_length n) rows -> i < n -> Forall is_bit (column_of i rows).
Proof.
  intros H Hi. apply Forall_forall. intros x Hx. unfold column_of in Hx. apply in_map_iff in Hx. destruct Hx as (r & <- & Hr).
  rewrite Forall_forall in H. destruct (H r Hr) as [L Hb]. rewrite Forall_forall in Hb. apply Hb, nth_In. rewrite L. exact Hi.
Qed.
Lemma transpose_column (cols : list (list Z)) n i : i < length cols -> length (nth i cols []) = n ->
  column_of i (map (fun j => map (fun col => nth j col 0%Z) cols) (seq 0 n)) = nth i cols [].
Proof.
  intros Hi L. unfold column_of. rewrite map_map. apply nth_ext with (d := 0%Z) (d' := 0%Z); [rewrite map_length, seq_length; symmetry; exact L|].
  intros j Hj. rewrite map_length, seq_length in Hj.
  rewrite (nth_indep _ 0%Z ((fun j => nth i (map (fun col => nth j col 0%Z) cols) 0%Z) 0)) by (rewrite map_length, seq_length; exact Hj).
  rewrite (map_nth (fun j => nth i (map (fun col => nth j col 0%Z) cols) 0%Z)), seq_nth by exact Hj. cbn [Nat.add].
  rewrite (nth_indep _ 0%Z ((fun col => nth j col 0%Z) [])) by (rewrite map_length; exact Hi).
  rewrite (map_nth (fun col => nth j col 0%Z)). reflexivity.
Qed.
Lemma array_flat n m a : bit_array n m a -> length (concat a) = n * m /\ Forall is_bit (concat a).
Proof.
  intros [<- H]. induction H as [|r a [Lr Hr] H IH]; [split; [reflexivity|constructor]|].
  cbn [concat length]. rewrite app_length, (proj1 IH), Lr. split; [reflexivity|]. apply Forall_app. split; [exact Hr|exact (proj2 IH)].
Qed.
Lemma concat_inj n m a b : bit_array n m a -> bit_array n m b -> concat a = concat b -> a = b.
Proof.
  intros [La Ha] [Lb Hb]. revert b Lb Hb. subst n. induction Ha as [|r a [Lr _] Ha IH]; intros [|r' b] Lb Hb E; try discriminate Lb; [reflexivity|].
  injection Lb as Lb. inversion Hb as [|? ? [Lr' _] Hb']; subst. cbn [concat] in E.
  assert (X : r = r' /\ concat a = concat b).
  { assert (E1 := f_equal (firstn (length r)) E). assert (E2 := f_equal (skipn (length r)) E).
    rewrite <- Lr' in E1 at 2. rewrite <- Lr' in E2 at 2. rewrite !firstn_app, !Nat.sub_diag, !firstn_all, !firstn_O, !app_nil_r in E1.
    rewrite !skipn_app, !Nat.sub_diag, !skipn_all, !skipn_O in E2. cbn [app] in E2. auto. }
  destruct X as [-> X]. f_equal. apply IH; auto.
Qed.

Lemma compare_ok inv mi f k threshold window center slope rows m : (0 < f < / 2)%R -> 1 <= m -> rows <> [] -> Forall (bits_of_length m) rows ->
  inv (bsc f) = Ok mi ->
  exists D E, bit_array (length rows) m D /\ bit_array (length rows) m E /\
    (forall i, i < m -> alone (Dude Rops (bsc f) mi hamming_loss k true 2) (column_of i rows) (column_of i D)) /\
    row_by_row (EmleConf Rops f threshold window center slope true) rows E /\
    compare_denoisers Rops inv Ints rows m f k threshold window center slope =
      Ok (Comparison Rops (share_differing rows D) (differences (concat rows) (concat D)) (share_differing rows E) (differences (concat rows) (concat E))).
Proof.
  intros Hf Hm Hne Hr Hi.
  destruct (map_res_rel (fun i => dude_column Rops inv Ints f k (column_of i rows))
              (fun i es => alone (Dude Rops (bsc f) mi hamming_loss k true 2) (column_of i rows) es /\ length es = length rows /\ Forall is_bit es) (seq 0 m)) as (cols & Ec & Hc).
  { intros i Hin. apply in_seq in Hin. unfold dude_column, dude_new. cbn [fsub fz Rops]. change (inv [[1 - f; f]; [f; 1 - f]]%R) with (inv (bsc f)). rewrite Hi. cbn [bind].
    destruct (online_bits Rops (Dude Rops (bsc f) mi hamming_loss k true 2) (column_of i rows) eq_refl eq_refl (column_bits m rows i Hr ltac:(lia)) online_new) as (s' & rs & es & E1 & E2 & L & Hb).
    exists es. change [[IZR 0; IZR 1]; [IZR 1; IZR 0]] with hamming_loss. change [[(1 - f)%R; f]; [f; (1 - f)%R]] with (bsc f). rewrite E1. cbn [snd bind].
    rewrite (symbols_hard Rops rs es E2). split; [reflexivity|]. split; [exists rs; rewrite E1; auto|]. split; [rewrite L; unfold column_of; apply map_length|exact Hb]. }
  assert (Lc : length cols = m) by (rewrite <- (rel_length _ _ _ Hc), seq_length; reflexivity).
  assert (Hcol : forall i, i < m -> alone (Dude Rops (bsc f) mi hamming_loss k true 2) (column_of i rows) (nth i cols []) /\ length (nth i cols []) = length rows /\ Forall is_bit (nth i cols [])).
  { intros i Hlt. pose proof (rel_nth _ _ _ i 0 [] Hc ltac:(rewrite seq_length; exact Hlt)) as X. cbn beta in X. rewrite seq_nth in X by exact Hlt. exact X. }
  set (D := map (fun j => map (fun col => nth j col 0%Z) cols) (seq 0 (length rows))).
  destruct (rows_estimates (EmleConf Rops f threshold window center slope true) m rows Hf eq_refl Hm Hr) as (s' & rs & E & E1 & E2 & E3 & E4).
  assert (HD : bit_array (length rows) m D).
  { split; [unfold D; rewrite map_length, seq_length; reflexivity|]. apply Forall_forall. intros r Hin. unfold D in Hin. apply in_map_iff in Hin. destruct Hin as (j & <- & Hj). apply in_seq in Hj.
    split; [rewrite map_length; exact Lc|]. apply Forall_forall. intros x Hx. apply in_map_iff in Hx. destruct Hx as (col & <- & Hcolin).
    apply In_nth with (d := []) in Hcolin. destruct Hcolin as (i & Hlt & <-). destruct (Hcol i ltac:(lia)) as (_ & L & Hb). rewrite Forall_forall in Hb. apply Hb, nth_In. lia. }
  exists D, E. split; [exact HD|]. split; [exact E3|]. split; [|split; [exact E4|]].
  - intros i Hlt. unfold D. rewrite transpose_column; [apply Hcol; exact Hlt|lia|apply Hcol; exact Hlt].
  - unfold compare_denoisers. rewrite Ec. cbn [bind]. rewrite E1. cbn [snd bind]. rewrite E2. fold D.
    destruct (array_flat (length rows) m rows (conj eq_refl Hr)) as [L0 H0]. destruct (array_flat _ _ _ HD) as [L1 H1]. destruct (array_flat _ _ _ E3) as [L2 H2].
    assert (N0 : concat rows <> []) by (intro X; rewrite X in L0; destruct rows; [contradiction|]; cbn in L0; lia).
    rewrite !c35_signed by (first [assumption|congruence]). cbn [bind]. unfold mismatches.
    fold (differences (concat D) (concat rows)). fold (differences (concat E) (concat rows)). rewrite !(differences_sym _ (concat rows)). reflexivity.
Qed.
