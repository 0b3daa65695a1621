(** The metrics of the classifier in double precision. *)
From Coq Require Import List NArith ZArith Reals Bool Lia Lra Psatz Arith Permutation Sorted.
From Flocq Require Import Core IEEE754.BinarySingleNaN.
From Verif.Model Require Import Py Float BitOps InfoTheory Clustering.
From Verif.Spec Require Import RealOps Info Stats Cluster IeeeOps IeeeCluster.
From Verif.Proofs Require Import Base RealP StatReal InfoP PerfP ClusterP ClusterH ClusterR IeeeP IeeeInfoP IeeeHellP IeeeEmleP IeeeSweepP IeeeClusterP.
Import ListNotations.
Open Scope R_scope.

(** ** Copies *)
Lemma votes_all g v i : votes g v i = length g <-> Forall (fun b => nth i b (-1)%Z = v) g.
Proof.
  induction g as [|b g IH]; [split; [constructor|reflexivity]|]. change (b :: g) with ([b] ++ g). rewrite votes_app, votes_one.
  assert (L : (votes g v i <= length g)%nat) by apply IeeeEmleP.votes_le. cbn [app length].
  destruct (Z.eqb_spec (nth i b (-1)%Z) v) as [E|N].
  - split; [intro H; constructor; [exact E|apply IH; lia]|intro H; inversion H; subst; cbn [Nat.add]; f_equal; now apply IH].
  - split; [intro H; exfalso; lia|intro H; inversion H; subst; congruence].
Qed.
Lemma copies_votes n g b : Forall (bits_of_length n) g -> bits_of_length n b ->
  (Forall (eq b) g <-> forall i, (i < n)%nat -> votes g (nth i b (-1)%Z) i = length g).
Proof.
  intros Hg Hb. split.
  - intros F i Hi. apply votes_all. eapply Forall_impl; [|exact F]. intros x <-. reflexivity.
  - intro H. rewrite Forall_forall in *. intros x Hx. apply (nth_ext _ _ (-1)%Z (-1)%Z); [rewrite (proj1 Hb); symmetry; apply (Hg x Hx)|].
    intros i Hi. rewrite (proj1 Hb) in Hi. specialize (H i Hi). apply votes_all in H. rewrite Forall_forall in H. symmetry. apply H, Hx.
Qed.
Lemma votes_max g v i : (votes g v i <= length g)%nat.
Proof. apply IeeeEmleP.votes_le. Qed.

Section M.
Variable l : libm.

(** ** The log likelihood *)
Lemma term_64 n g b i : accurate_log l -> bits_of_length n b -> (i < n)%nat -> g <> [] -> (Z.of_nat (length g) <= 2 ^ 50)%Z ->
  let t := fclip (Bops l) (b64_add (b64_mul (logp (Bops l) g 1 i) (b64_z (nth i b (-1)%Z))) (b64_mul (logp (Bops l) g 0 i) (b64_z (1 - nth i b (-1)%Z)))) (b64_z (-100)) (b64_z 0) in
  fin t /\ -64 <= val t <= 0 /\ Rabs (val t - clip0 (ln (share g (nth i b (-1)%Z) i + / 4503599627370496))) <= p2 (-43) /\
  (votes g (nth i b (-1)%Z) i = length g -> val t = 0) /\ (votes g (nth i b (-1)%Z) i <> length g -> val t <= - p2 (-52)).
Proof.
  intros AL Hb Hi Ng Lg. assert (Pg : (0 < length g)%nat) by (destruct g; [congruence|cbn; lia]).
  assert (P : forall v, let x := logp (Bops l) g v i in fin x /\ -64 <= val x <= 1 /\ Rabs (val x - ln (share g v i + / 4503599627370496)) <= p2 (-43) /\
     (votes g v i = length g -> 0 <= val x) /\ (votes g v i <> length g -> val x <= - p2 (-52))).
  { intro v. pose proof (votes_max g v i). destruct (logp_64 l AL (Z.of_nat (votes g v i)) (Z.of_nat (length g)) ltac:(lia) ltac:(lia)) as (A & B & C & D & E).
    cbv zeta. unfold logp. cbn [flog fadd fdiv fz Bops]. split; [exact A|]. split; [exact B|]. split; [|split; intro Q; [apply D|apply E]; lia].
    unfold share. rewrite !INR_IZR_INZ. exact C. }
  assert (Z : forall x, fin x -> Rabs (val x) <= 64 -> fin (b64_mul x (b64_z 0)) /\ val (b64_mul x (b64_z 0)) = 0).
  { intros x Fx Bx. destruct (z_spec 0 ltac:(lia)) as [F0 V0]. destruct (mul_spec x (b64_z 0) Fx F0) as [F V]; [rewrite V0, Rmult_0_r, Rabs_R0; pose proof big_pos; lra|].
    split; [exact F|]. rewrite V, V0, Rmult_0_r. apply rnd_0. }
  assert (O : forall x, fin x -> Rabs (val x) <= 64 -> fin (b64_mul x (b64_z 1)) /\ val (b64_mul x (b64_z 1)) = val x).
  { intros x Fx Bx. destruct (z_spec 1 ltac:(lia)) as [F1 V1]. destruct (mul_spec x (b64_z 1) Fx F1) as [F V]; [rewrite V1, Rmult_1_r; eapply Rle_trans; [exact Bx|]; change 64 with (p2 6); apply bpow_le; lia|].
    split; [exact F|]. rewrite V, V1, Rmult_1_r. apply rnd_id, fmt_val. }
  assert (B64 : 64 <= big) by (change 64 with (p2 6); apply bpow_le; lia).
  destruct (P 0%Z) as (A0 & B0 & C0 & D0 & E0). destruct (P 1%Z) as (A1 & B1 & C1 & D1 & E1).
  change (F (Bops l)) with b64 in *.
  set (x0 := logp (Bops l) g 0 i) in *. set (x1 := logp (Bops l) g 1 i) in *.
  assert (R0 : Rabs (val x0) <= 64) by (apply Rabs_le; lra). assert (R1 : Rabs (val x1) <= 64) by (apply Rabs_le; lra).
  destruct (Z x0 A0 R0) as [FZ0 VZ0]. destruct (Z x1 A1 R1) as [FZ1 VZ1]. destruct (O x0 A0 R0) as [FO0 VO0]. destruct (O x1 A1 R1) as [FO1 VO1].
  assert (Fin : forall w v, fin w -> val w = val (logp (Bops l) g v i) ->
     let t := fclip (Bops l) w (b64_z (-100)) (b64_z 0) in
     fin t /\ -64 <= val t <= 0 /\ Rabs (val t - clip0 (ln (share g v i + / 4503599627370496))) <= p2 (-43) /\
     (votes g v i = length g -> val t = 0) /\ (votes g v i <> length g -> val t <= - p2 (-52))).
  { intros w v Fw Vw t. destruct (clip_64 l w Fw) as [Ft Vt]. fold t in Ft, Vt. destruct (P v) as (_ & Bv & Cv & Dv & Ev). rewrite <- Vw in Bv, Cv, Dv, Ev.
    split; [exact Ft|]. rewrite Vt. assert (P52 := bpow_gt_0 radix2 (-52)).
    split; [unfold Rmin, Rmax; repeat match goal with |- context [Rle_dec ?a ?b] => destruct (Rle_dec a b) end; lra|].
    split; [apply clip_lip; exact Cv|]. split; intro Q.
    - specialize (Dv Q). rewrite Rmax_left by lra. apply Rmin_right. exact Dv.
    - specialize (Ev Q). rewrite Rmax_left by lra. rewrite Rmin_left by lra. exact Ev. }
  destruct (bit_nth n b i Hb Hi) as [Eb|Eb]; rewrite Eb; [change (1 - 0)%Z with 1%Z|change (1 - 1)%Z with 0%Z].
  - destruct (add_spec _ _ FZ1 FO0) as [Fs Vs]; [rewrite VZ1, VO0, Rplus_0_l; lra|]. apply (Fin _ 0%Z Fs). rewrite Vs, VZ1, VO0, Rplus_0_l. apply rnd_id, fmt_val.
  - destruct (add_spec _ _ FO1 FZ0) as [Fs Vs]; [rewrite VZ0, VO1, Rplus_0_r; lra|]. apply (Fin _ 1%Z Fs). rewrite Vs, VZ0, VO1, Rplus_0_r. apply rnd_id, fmt_val.
Qed.

Lemma fit_64 n g c b : accurate_log l -> counts_exactly n g c -> Forall (bits_of_length n) g -> bits_of_length n b -> (0 < n)%nat -> (Z.of_nat n <= 2 ^ 40)%Z -> (Z.of_nat (length g) <= 2 ^ 50)%Z ->
  exists x : b64, log_likelihood (Bops l) c b = Ok x /\ fin x /\ -100 <= val x <= 0 /\ Rabs (val x - fit g b) <= tolerance n /\ (val x = 0 <-> Forall (eq b) g).
Proof.
  intros AL G Hg Hb Pn Bn Lg. assert (Ng : g <> []) by (destruct G as (_ & _ & _ & X); exact X).
  rewrite (log_likelihood_spec (Bops l) n g c b (proj1 Hb) G). eexists. split; [reflexivity|].
  set (tm := fun i => fclip (Bops l) (b64_add (b64_mul (logp (Bops l) g 1 i) (b64_z (nth i b (-1)%Z))) (b64_mul (logp (Bops l) g 0 i) (b64_z (1 - nth i b (-1)%Z)))) (b64_z (-100)) (b64_z 0)).
  set (ex := fun i => clip0 (ln (share g (nth i b (-1)%Z) i + / 4503599627370496))).
  change (fmean (Bops l) _) with (b64_div (fold_left b64_add (map tm (seq 0 n)) (b64_z 0)) (b64_z (Z.of_nat (length (map tm (seq 0 n)))))).
  assert (T : forall i, (i < n)%nat -> fin (tm i) /\ -64 <= val (tm i) <= 0 /\ Rabs (val (tm i) - ex i) <= p2 (-43) /\
    (votes g (nth i b (-1)%Z) i = length g -> val (tm i) = 0) /\ (votes g (nth i b (-1)%Z) i <> length g -> val (tm i) <= - p2 (-52))) by (intros i Hi; apply (term_64 n g b i AL Hb Hi Ng Lg)).
  assert (P43 := bpow_gt_0 radix2 (-43)). destruct (z_spec 0 ltac:(lia)) as [F0 V0].
  destruct (fold_64 (p2 (-43)) (map tm (seq 0 n)) (map ex (seq 0 n))) with (a := b64_z 0) (A := 0) (E := 0) (j := 0%Z) as (S1 & S2 & S3 & _ & S5 & S6).
  - lra.
  - assert (Q : forall is, (forall i, In i is -> (i < n)%nat) -> Forall2 (fun t e => fin t /\ -64 <= val t <= 0 /\ Rabs (val t - e) <= p2 (-43)) (map tm is) (map ex is)).
    { induction is as [|i is IH]; intro H; [constructor|]. cbn [map]. constructor; [|apply IH; intros; apply H; right; assumption].
      destruct (T i) as (A & B & C & _); [apply H; left; reflexivity|]. tauto. }
    apply Q. intros i Hi. apply in_seq in Hi. lia.
  - exact F0.
  - lia.
  - rewrite V0. lra.
  - rewrite V0, Rminus_0_r, Rabs_R0. lra.
  - rewrite map_length, seq_length. lia.
  - rewrite map_length, seq_length in *. set (S := fold_left b64_add (map tm (seq 0 n)) (b64_z 0)) in *. cbn [Z.add] in S2, S3. rewrite !Rplus_0_l in S3. rewrite V0 in S6.
    set (N := IZR (Z.of_nat n)) in *. assert (PN : 1 <= N) by (apply IZR_le; lia).
    destruct (z_spec (Z.of_nat n) ltac:(lia)) as [Fn Vn]. fold N in Vn.
    assert (Rq : -64 <= val S / N <= 0).
    { split; [apply (Rmult_le_reg_r N)|apply (Rmult_le_reg_r N)]; try lra; unfold Rdiv; rewrite Rmult_assoc, Rinv_l by lra; lra. }
    destruct (div_spec S (b64_z (Z.of_nat n)) S1) as [Fx Vx]; [rewrite Vn; lra|rewrite Vn; eapply Rle_trans; [apply Rabs_le with (b := 64); lra|]; change 64 with (p2 6); apply bpow_le; lia|].
    rewrite Vn in Vx. split; [exact Fx|]. rewrite Vx.
    split; [split; [apply Rle_trans with (-64); [lra|]; apply rnd_ge; [apply (fmt_IZR (-64)); lia|lra]|apply rnd_le'; [apply fmt_0|lra]]|]. split.
    + assert (Q := rnd_abs_err (val S / N) 6 ltac:(lia) ltac:(change (p2 6) with 64; apply Rabs_le; lra)). change (6 - 53)%Z with (-47)%Z in Q.
      assert (Ef : fit g b = Rsum (map ex (seq 0 n)) / N) by (unfold fit; rewrite (proj1 Hb), INR_IZR_INZ; reflexivity). rewrite Ef.
      assert (Q2 : Rabs (val S / N - Rsum (map ex (seq 0 n)) / N) <= p2 (-43) + p2 (-46) * N).
      { replace (val S / N - Rsum (map ex (seq 0 n)) / N) with ((val S - Rsum (map ex (seq 0 n))) * / N) by (field; lra).
        rewrite Rabs_mult, (Rabs_pos_eq (/ N)) by (left; apply Rinv_0_lt_compat; lra). apply (Rmult_le_reg_r N); [lra|]. rewrite Rmult_assoc, Rinv_l by lra. lra. }
      apply Rabs_le_inv in Q. apply Rabs_le_inv in Q2. unfold tolerance. rewrite INR_IZR_INZ. fold N.
      assert (E1 : p2 (-43) = 8 * p2 (-46)) by (change (-43)%Z with (3 + -46)%Z; rewrite bpow_plus; reflexivity).
      assert (E2 : p2 (-47) <= p2 (-46)) by (apply bpow_le; lia). assert (P46 := bpow_gt_0 radix2 (-46)). apply Rabs_le. lra.
    + rewrite (copies_votes n g b Hg Hb). split.
      * intros E i Hi. destruct (Nat.eq_dec (votes g (nth i b (-1)%Z) i) (length g)) as [|Ne]; [assumption|]. exfalso.
        destruct (T i Hi) as (_ & _ & _ & _ & Q). specialize (Q Ne). assert (Q2 : val S <= val (tm i)) by (apply S5, in_map, in_seq; lia).
        assert (Rn : rnd (val S / N) <= - p2 (-92)).
        { apply rnd_le'; [apply generic_format_opp, generic_format_bpow; cbn; lia|].
          apply (Rmult_le_reg_r N); [lra|]. unfold Rdiv. rewrite Rmult_assoc, Rinv_l by lra.
          assert (N <= p2 40) by (change (p2 40) with (IZR (2 ^ 40)); apply IZR_le; lia). assert (Ep : p2 (-52) = p2 (-92) * p2 40) by (rewrite <- bpow_plus; reflexivity).
          assert (P92 := bpow_gt_0 radix2 (-92)). nra. }
        assert (P92 := bpow_gt_0 radix2 (-92)). lra.
      * intro H. rewrite S6; [unfold Rdiv; rewrite Rmult_0_l; apply rnd_0|]. intros t It. apply in_map_iff in It as (i & <- & Hi). apply in_seq in Hi. destruct (T i ltac:(lia)) as (_ & _ & _ & Q & _). apply Q, H. lia.
Qed.

(** ** The hard bits *)
Lemma hard_of_64 g i : g <> [] -> (Z.of_nat (length g) <= 2 ^ 53)%Z -> hard_of (Bops l) g i = hard_bit g i.
Proof.
  intros Ng Lg. unfold hard_of, hard_bit. rewrite votes_any. pose proof (ClusterR.votes_le g i) as T. assert (Pg : (0 < length g)%nat) by (destruct g; [congruence|cbn; lia]).
  cbn [flt fdiv fz Bops]. destruct (quot_spec (Z.of_nat (votes g 0 i)) (Z.of_nat (length g)) ltac:(lia) ltac:(lia)) as (Fq & _ & Rq & _ & Oq).
  destruct (z_spec (Z.of_nat (votes g 1 i)) ltac:(lia)) as [F1 V1]. set (q := b64_div (b64_z (Z.of_nat (votes g 0 i))) (b64_z (Z.of_nat (length g)))) in *.
  destruct (Nat.ltb_spec 0 (votes g 1 i)) as [H|H].
  - rewrite (proj2 (ltb_spec _ _ Fq F1)); [reflexivity|]. rewrite V1. assert (Ne : val q <> 1) by (intro E; apply Oq in E; lia). assert (1 <= IZR (Z.of_nat (votes g 1 i))) by (apply IZR_le; lia). lra.
  - destruct (Bltb q (b64_z (Z.of_nat (votes g 1 i)))) eqn:E; [|reflexivity]. apply (ltb_spec _ _ Fq F1) in E. rewrite V1 in E. replace (votes g 1 i) with 0%nat in E by lia. cbn in E. lra.
Qed.
Lemma hamming_64 n g c b : bits_of_length n b -> counts_exactly n g c -> (Z.of_nat (length g) <= 2 ^ 53)%Z ->
  (do! h <- hard_bits (Bops l) c in hamming_distance (HArray b) (HArray h) 8) = Ok (mismatch b g).
Proof.
  intros Hb G Lg. assert (NE : g <> []) by (destruct G as (_ & _ & _ & X); auto).
  rewrite (hard_bits_spec (Bops l) n g c G). cbn [bind]. rewrite hamming_arrays by (rewrite map_length, seq_length; apply Hb).
  f_equal. unfold mismatch. rewrite (proj1 Hb).
  assert (Eb : b = map (fun i => nth i b (-1)%Z) (seq 0 n)) by (rewrite <- (proj1 Hb) at 1; apply list_seq).
  rewrite Eb at 1. rewrite (map_ext _ _ (fun i => hard_of_64 g i NE Lg)). apply xor_count_seq with n; auto.
  - intros i Hi. apply (bit_nth n b i Hb Hi).
  - intros i _. unfold hard_bit, is_bit. destruct (existsb _ _); auto.
Qed.
End M.
