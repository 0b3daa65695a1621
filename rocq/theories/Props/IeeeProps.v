(** C97: the statistics of the library in double precision. *)
From Coq Require Import List NArith ZArith Reals Bool Lia Lra Sorted.
From Flocq Require Import Core IEEE754.BinarySingleNaN.
From Verif.Model Require Import Py Float Struct InfoTheory Perf StatModels Sweep.
From Verif.Spec Require Import RealOps Info IeeeOps IeeeStatSpec.
From Verif.Proofs Require Import Base InfoP PerfP IeeeP IeeeInfoP IeeeHellP IeeeFitP IeeeSweepP IeeeFreqP.
Import ListNotations.
Open Scope R_scope.

(** C97: ber of two bit arrays is the double nearest to the fraction of wrong bits; it is 0 just for equal arrays and 1 just when every bit is
    wrong, and nan for empty arrays. *)
Theorem c97_ber : forall (l : libm) g p, length g = length p -> g <> [] -> (Z.of_nat (length g) <= 2 ^ 53)%Z -> Forall is_bit g -> Forall is_bit p ->
  exists x : b64, ber (Bops l) Signed g p = Ok x /\ fin x /\ val x = rnd (INR (differences g p) / INR (length g)) /\ 0 <= val x <= 1 /\
    (val x = 0 <-> g = p) /\ (val x = 1 <-> differences g p = length g).
Proof.
  intros l g p E N B Wg Wp. pose proof (differences_le g p) as D. assert (length g <> 0)%nat by (destruct g; easy).
  destruct (quot_spec (Z.of_nat (differences g p)) (Z.of_nat (length g)) ltac:(lia) ltac:(lia)) as (A & C & R & Z & O).
  exists (quot (Z.of_nat (differences g p)) (Z.of_nat (length g))). rewrite ber_ok, abs_sum by assumption. split; [reflexivity|].
  split; [exact A|]. split; [now rewrite !INR_IZR_INZ|]. split; [exact R|]. rewrite <- (differences_same g p E). fold (quot (Z.of_nat (differences g p)) (Z.of_nat (length g))) in *.
  split; [rewrite Z|rewrite O]; lia.
Qed.
Print Assumptions c97_ber.
Theorem c97_ber_empty : forall l : libm, ber (Bops l) Signed [] [] = Ok B754_nan.
Proof. intro l. vm_compute. reflexivity. Qed.
Print Assumptions c97_ber_empty.
Example c97_ex_ber : length [0; 1; 1]%Z = length [0; 0; 1]%Z /\ Forall is_bit [0; 1; 1]%Z /\ differences [0; 1; 1]%Z [0; 0; 1]%Z = 1%nat.
Proof. repeat split; repeat constructor; (left; reflexivity) || (right; reflexivity). Qed.

(** C97: the frequencies of a matrix are the nearest doubles; a frequency is 0 just for a value absent from the row and 1 just for a row of one
    value.  In a matrix of bits the two frequencies of a row add up to exactly 1. *)
Theorem c97_prob : forall (l : libm) rows cols, Forall (fun r => length r = cols) rows -> (0 < cols)%nat -> (Z.of_nat cols <= 2 ^ 53)%Z ->
  exists (p : list (list b64)) a, prob_with_alphabet (Bops l) (DMat rows cols) = Ok (FMat p, a) /\ alphabet_of (concat rows) a /\ length p = length rows /\
    forall i r, nth_error rows i = Some r -> exists q : list b64, nth_error p i = Some q /\ length q = length a /\
      (forall j v, nth_error a j = Some v -> exists x, nth_error q j = Some x /\ fin x /\ val x = rnd (INR (occurrences r v) / INR cols) /\
         0 <= val x <= 1 /\ (val x = 0 <-> ~ In v r) /\ (val x = 1 <-> Forall (fun y => y = v) r)) /\
      (a = [0; 1]%Z -> fin (fsum (Bops l) q) /\ val (fsum (Bops l) q) = 1).
Proof.
  intros l rows cols W Pc B. exists (map (fun r => freq_row cols r (unique (concat rows))) rows), (unique (concat rows)).
  rewrite prob_mat. split; [do 3 f_equal; apply map_ext; intro r; apply divide_row|]. split; [now apply alphabet_fun|]. split; [apply map_length|].
  intros i r E. exists (freq_row cols r (unique (concat rows))). split; [now rewrite nth_error_map, E|]. split; [unfold freq_row; apply map_length|].
  assert (I : In r rows) by (eapply nth_error_In; exact E).
  assert (L : length r = cols) by (rewrite Forall_forall in W; auto). subst cols. assert (N : r <> []) by (destruct r; [cbn in Pc; lia|easy]). split.
  - intros j v Ej. exists (quot (Z.of_nat (occurrences r v)) (Z.of_nat (length r))). unfold freq_row. rewrite nth_error_map, Ej. split; [reflexivity|]. now apply freq_spec.
  - intro Ea. rewrite Ea. apply two_sum; auto. apply Forall_forall. intros y Iy. assert (Iu : In y (unique (concat rows))) by (apply in_unique, in_concat; eauto).
    rewrite Ea in Iu. cbn in Iu. unfold is_bit. intuition.
Qed.
Print Assumptions c97_prob.

(** C97: whatever the library's logarithm, as long as it is roughly one, the entropy of a row of frequencies is a number, is not negative, and is
    0 just when the row has one value.  So a bit that never changes is below every positive threshold, and no other bit has entropy 0. *)
Theorem c97_entropy : forall (l : libm) b rows cols, good_log l -> (2 <= b <= 2 ^ 53)%Z ->
  Forall (fun r => length r = cols) rows -> (0 < cols)%nat -> (Z.of_nat cols <= 2 ^ 50)%Z -> (Z.of_nat (distinct (concat rows)) <= 2 ^ 40)%Z ->
  exists (p : farr b64) (hs : list b64), prob (Bops l) (DMat rows cols) = Ok p /\ entropy (Bops l) p b = Ok hs /\ length hs = length rows /\
    forall i r, nth_error rows i = Some r -> exists h, nth_error hs i = Some h /\ fin h /\ 0 <= val h /\
      (val h = 0 <-> forall x y, In x r -> In y r -> x = y).
Proof.
  intros l b rows cols G Hb W Pc B D.
  exists (FMat (map (fun r => freq_row cols r (unique (concat rows))) rows)), (map (fun r => row_entropy (Bops l) b (freq_row cols r (unique (concat rows)))) rows).
  split. { unfold prob. rewrite prob_mat. cbn [bind fst]. do 2 f_equal. apply map_ext. intro r. apply divide_row. }
  split. { unfold entropy. f_equal. rewrite map_map. reflexivity. }
  split; [apply map_length|]. intros i r E. exists (row_entropy (Bops l) b (freq_row cols r (unique (concat rows)))). split; [now rewrite nth_error_map, E|].
  assert (I : In r rows) by (eapply nth_error_In; exact E).
  assert (L : length r = cols) by (rewrite Forall_forall in W; auto). subst cols.
  assert (Lu : length (unique (concat rows)) = distinct (concat rows)).
  { unfold distinct. apply Nat.le_antisymm; apply NoDup_incl_length; try apply unique_nodup; try apply NoDup_nodup; intros x Hx.
    - apply nodup_In. now apply in_unique.
    - apply in_unique. now apply nodup_In in Hx. }
  apply freq_entropy; auto; try lia; [destruct r; [cbn in Pc; lia|easy]|apply unique_nodup|]. intros x Hx. apply in_unique, in_concat. eauto.
Qed.
Print Assumptions c97_entropy.
(** A library whose functions are correctly rounded is one. *)
Theorem c97_library : good_log rounded /\ good_exp rounded.
Proof. split; [exact rounded_log|exact rounded_exp]. Qed.
Print Assumptions c97_library.
Example c97_ex_entropy : Forall (fun r : list Z => length r = 3%nat) [[0; 1; 1]; [1; 1; 1]]%Z /\ distinct (concat [[0; 1; 1]; [1; 1; 1]]%Z) = 2%nat.
Proof. split; [repeat constructor|reflexivity]. Qed.

(** C97: the distance of the frequencies of two matrices of bits is a number from 0 to 1, and 0 just for equal frequencies. *)
Theorem c97_hellinger : forall (l : libm) rows rows' cols cols', Forall (fun r => length r = cols) rows -> Forall (fun r => length r = cols') rows' ->
  length rows = length rows' -> (0 < cols)%nat -> (0 < cols')%nat -> (Z.of_nat cols * Z.of_nat cols' <= 2 ^ 24)%Z ->
  alphabet_of (concat rows) [0; 1]%Z -> alphabet_of (concat rows') [0; 1]%Z ->
  exists (p p' : farr b64) (ds : list b64), prob (Bops l) (DMat rows cols) = Ok p /\ prob (Bops l) (DMat rows' cols') = Ok p' /\
    hellinger (Bops l) p p' = Ok ds /\ length ds = length rows /\
    forall i r r', nth_error rows i = Some r -> nth_error rows' i = Some r' -> exists d, nth_error ds i = Some d /\ fin d /\ 0 <= val d <= 1 /\
      (val d = 0 <-> (occurrences r 1 * cols' = occurrences r' 1 * cols)%nat).
Proof.
  intros l rows rows' cols cols' W W' EL Pc Pc' B A A'.
  set (P := map (fun r => freq_row cols r [0; 1]%Z) rows). set (P' := map (fun r => freq_row cols' r [0; 1]%Z) rows').
  assert (Bits : forall rs c, Forall (fun r => length r = c) rs -> alphabet_of (concat rs) [0; 1]%Z -> (0 < c)%nat -> forall r, In r rs -> Forall is_bit r /\ r <> [] /\ length r = c).
  { intros rs c Wr Ar Pr r I. assert (length r = c) by (rewrite Forall_forall in Wr; auto). split; [|split; [destruct r; [cbn in *; lia|easy]|assumption]].
    apply Forall_forall. intros y Iy. destruct Ar as [_ Ar]. assert (J : In y [0; 1]%Z) by (apply Ar, in_concat; eauto). cbn in J. unfold is_bit. intuition. }
  assert (Row : forall r r', In r rows -> In r' rows' -> exists x, hellinger_row (Bops l) (freq_row cols r [0; 1]%Z) (freq_row cols' r' [0; 1]%Z) = Ok x /\ fin x /\ 0 <= val x <= 1 /\
    (val x = 0 <-> (occurrences r 1 * cols' = occurrences r' 1 * cols)%nat)).
  { intros r r' I I'. destruct (Bits rows cols W A Pc r I) as (b1 & b2 & b3). destruct (Bits rows' cols' W' A' Pc' r' I') as (c1 & c2 & c3). rewrite <- b3, <- c3. apply freq_hell; auto. now rewrite b3, c3. }
  assert (Ds : exists ds : list b64, map_res (fun xy => hellinger_row (Bops l) (fst xy) (snd xy)) (combine P P') = Ok ds /\ length ds = length rows /\
    forall i r r', nth_error rows i = Some r -> nth_error rows' i = Some r' -> exists d, nth_error ds i = Some d /\ fin d /\ 0 <= val d <= 1 /\
      (val d = 0 <-> (occurrences r 1 * cols' = occurrences r' 1 * cols)%nat)).
  { unfold P, P'. clear P P' W W' A A' Bits B. revert rows' EL Row. induction rows as [|r rs IH]; intros [|r' rs'] EL Row; try discriminate EL.
    - exists []. split; [reflexivity|]. split; [reflexivity|]. intros i r r' E. destruct i; discriminate E.
    - destruct (Row r r' ltac:(now left) ltac:(now left)) as (x & Ex & Fx). destruct (IH rs' ltac:(now injection EL) ltac:(intros; apply Row; now right)) as (ds & Ed & Ld & Hd).
      exists (x :: ds). cbn [map combine map_res fst snd]. rewrite Ex. cbn [bind]. rewrite Ed. split; [reflexivity|]. split; [cbn; now rewrite Ld|].
      intros [|i] s s' Es Es'; cbn [nth_error] in *; [injection Es as <-; injection Es' as <-; eauto|eauto]. }
  destruct Ds as (ds & Ed & Ld & Hd). exists (FMat P), (FMat P'), ds.
  assert (Pr : forall rs c, alphabet_of (concat rs) [0; 1]%Z -> prob (Bops l) (DMat rs c) = Ok (FMat (map (fun r => freq_row c r [0; 1]%Z) rs))).
  { intros rs c Ar. unfold prob. rewrite prob_mat. cbn [bind fst]. do 2 f_equal. apply map_ext. intro r. rewrite divide_row. f_equal. symmetry. now apply alphabet_fun. }
  split; [now apply Pr|]. split; [now apply Pr|]. split; [|auto]. unfold hellinger, P, P'. rewrite !map_length, EL, Nat.eqb_refl. exact Ed.
Qed.
Print Assumptions c97_hellinger.
Example c97_ex_hellinger : alphabet_of (concat [[0; 1; 1]; [1; 1; 1]]%Z) [0; 1]%Z /\ (3 * 3 <= 2 ^ 24)%Z.
Proof. split; [|lia]. split; [repeat constructor; lia|]. intro v. cbn. intuition. Qed.
(** C97: with more symbols it can be nan: these thirteen samples have no distance to themselves. *)
Theorem c97_hellinger_refuted : exists sample, forall l : libm, exists p, prob (Bops l) (DVec sample) = Ok p /\ hellinger (Bops l) p p = Ok [B754_nan].
Proof. exists [0; 1; 1; 1; 2; 2; 2; 3; 3; 3; 4; 4; 4]%Z. intro l.
  set (sample := [0; 1; 1; 1; 2; 2; 2; 3; 3; 3; 4; 4; 4]%Z).
  assert (C : match prob (Bops l) (DVec sample) with Ok p => match hellinger (Bops l) p p with Ok [x] => is_nan x | _ => false end | Err _ => false end = true)
    by (vm_compute; reflexivity).
  destruct (prob (Bops l) (DVec sample)) as [p|e]; [|discriminate C]. exists p. split; [reflexivity|].
  destruct (hellinger (Bops l) p p) as [[|x [|y r]]|e]; try discriminate C. destruct x; try discriminate C. reflexivity.
Qed.
Print Assumptions c97_hellinger_refuted.

(** C97: the number of errors int(n * p) for a probability p is at most n, is the whole part of n * p or one more, and does not decrease with p. *)
Theorem c97_flips : forall (l : libm) n p, (0 <= n <= 2 ^ 53)%Z -> fin p -> 0 <= val p <= 1 ->
  exists z, no_errors (Bops l) b64_int n p = Ok z /\ (0 <= z <= n)%Z /\ (Zfloor (IZR n * val p) <= z <= Zfloor (IZR n * val p) + 1)%Z /\
    forall q z', fin q -> val p <= val q <= 1 -> no_errors (Bops l) b64_int n q = Ok z' -> (z <= z')%Z.
Proof.
  intros l n p Hn Fp Rp. destruct (errors_spec l n p Hn Fp Rp) as (z & E & Ez & B & C). exists z. split; [exact E|]. split; [exact B|]. split; [exact C|].
  intros q z' Fq Rq Eq. destruct (errors_spec l n q Hn Fq ltac:(lra)) as (w & E' & Ew & _). rewrite E' in Eq. injection Eq as <-. rewrite Ez, Ew. apply errors_mono; [lia|lra].
Qed.
Print Assumptions c97_flips.
(** C97: asking for the probability k / n flips k bits or k - 1; both happen. *)
Theorem c97_fraction : forall (l : libm) k n, (0 <= k <= n)%Z -> (0 < n <= 2 ^ 51)%Z ->
  no_errors (Bops l) b64_int n (fdiv (Bops l) (fz (Bops l) k) (fz (Bops l) n)) = Ok k \/
  no_errors (Bops l) b64_int n (fdiv (Bops l) (fz (Bops l) k) (fz (Bops l) n)) = Ok (k - 1)%Z /\ (0 < k)%Z.
Proof.
  intros l k n Hk Hn. change (fdiv (Bops l) (fz (Bops l) k) (fz (Bops l) n)) with (quot k n).
  destruct (quot_spec k n Hk ltac:(lia)) as (F & _ & R & _). fold (quot k n) in F, R. destruct (errors_spec l n (quot k n) ltac:(lia) F R) as (z & E & Ez & B & _). rewrite E.
  pose proof (errors_quot k n Hk Hn) as C. rewrite <- Ez in C. assert (H : z = k \/ z = (k - 1)%Z) by lia. destruct H as [-> | -> ]; [now left|right; split; [reflexivity|lia]].
Qed.
Print Assumptions c97_fraction.
Theorem c97_fraction_refuted : exists k n, (0 < k < n)%Z /\ forall l : libm,
  no_errors (Bops l) b64_int n (fdiv (Bops l) (fz (Bops l) k) (fz (Bops l) n)) = Ok (k - 1)%Z.
Proof. exists 127%Z, 1944%Z. split; [lia|]. intro l. vm_compute. reflexivity. Qed.
Print Assumptions c97_fraction_refuted.
(** C97: the probabilities of a sweep from start to stop lie between them, start at start, end at stop when there are two or more, and increase;
    so do the numbers of errors. *)
Theorem c97_sweep : forall (l : libm) n (start stop : b64) num, (0 <= n <= 2 ^ 53)%Z -> fin start -> fin stop -> 0 <= val start -> val stop <= 1 ->
  val start = val stop \/ bpow radix2 (-900) <= val stop - val start -> (1 <= num <= 2 ^ 40)%Z ->
  exists (ps : list b64) zs, linspace (Bops l) start stop num = Ok ps /\ sweep (Bops l) b64_int n start stop num = Ok zs /\
    Z.of_nat (length ps) = num /\ length zs = length ps /\ Forall (fun p => fin p /\ val start <= val p <= val stop) ps /\
    (forall i j, (i <= j < length ps)%nat -> val (nth i ps start) <= val (nth j ps start) /\ (nth i zs 0 <= nth j zs 0)%Z) /\
    val (nth 0 ps start) = val start /\ ((2 <= num)%Z -> nth (length ps - 1) ps start = stop) /\
    Forall2 (fun p z => no_errors (Bops l) b64_int n p = Ok z /\ (0 <= z <= n)%Z) ps zs.
Proof.
  intros l n start stop num Hn Fa Fb Ra Rb HD Hm.
  assert (Le : val start <= val stop) by (destruct HD; [lra|pose proof (bpow_gt_0 radix2 (-900)); lra]).
  assert (B1 : 1 <= bpow radix2 100) by (change 1 with (bpow radix2 0); apply bpow_le; lia).
  destruct (linspace_spec l start stop num Fa Fb) as (ps & E & L & R & M & H0 & H1); auto; try (rewrite Rabs_pos_eq; lra).
  assert (Zs : exists zs, map_res (no_errors (Bops l) b64_int n) ps = Ok zs /\ length zs = length ps /\
    Forall2 (fun p z => no_errors (Bops l) b64_int n p = Ok z /\ (0 <= z <= n)%Z) ps zs).
  { clear L M H0 H1 E. induction ps as [|p ps IH]; [exists []; auto|]. destruct (R p ltac:(now left)) as [Fp Rp].
    destruct (errors_spec l n p Hn Fp ltac:(lra)) as (z & Ez & _ & Bz & _). destruct IH as (zs & Es & Ls & Fs); [intros; apply R; now right|].
    exists (z :: zs). cbn [map_res]. rewrite Ez. cbn [bind]. rewrite Es. split; [reflexivity|]. split; [cbn; now rewrite Ls|]. constructor; auto. }
  destruct Zs as (zs & Es & Ls & Fs). exists ps, zs. split; [exact E|]. split; [unfold sweep; rewrite E; exact Es|]. split; [exact L|]. split; [exact Ls|].
  split; [apply Forall_forall; exact R|]. split; [|auto].
  intros i j Hij. split; [now apply M|].
  assert (Nth : forall i, (i < length ps)%nat -> no_errors (Bops l) b64_int n (nth i ps start) = Ok (nth i zs 0%Z)).
  { clear - Fs. induction Fs as [|p z ps zs [Hp _] Fs IH]; intros i Hi; [cbn in Hi; lia|]. destruct i as [|i]; [exact Hp|]. apply IH. cbn in Hi. lia. }
  pose proof (Nth i ltac:(lia)) as N1. pose proof (Nth j ltac:(lia)) as N2.
  destruct (R (nth i ps start)) as [Fi Ri]; [apply nth_In; lia|]. destruct (R (nth j ps start)) as [Fj Rj]; [apply nth_In; lia|].
  destruct (errors_spec l n _ Hn Fi ltac:(lra)) as (z & E1 & Z1 & _). destruct (errors_spec l n _ Hn Fj ltac:(lra)) as (w & E2 & Z2 & _).
  rewrite E1 in N1. injection N1 as <-. rewrite E2 in N2. injection N2 as <-. rewrite Z1, Z2. apply errors_mono; [lia|]. now apply M.
Qed.
Print Assumptions c97_sweep.
Example c97_ex_sweep : forall l, sweep (Bops l) b64_int 1944 (b64_div (b64_z 1) (b64_z 1000)) (b64_div (b64_z 5) (b64_z 1000)) 5 = Ok [1; 3; 5; 7; 9]%Z.
Proof. intro l. vm_compute. reflexivity. Qed.

(** C97: fitting a field to samples that are doubles gives numbers; the deviation is not negative, and is 0 just when the samples are all the same,
    provided their sum needs no rounding. *)
Theorem c97_fit : forall (l : libm) vs, Forall held vs -> vs <> [] -> (Z.of_nat (length vs) <= 2 ^ 40)%Z ->
  exists mu sd : b64, norm_fit (Bops l) vs = Ok (mu, sd) /\ fin mu /\ fin sd /\ 0 <= val sd /\
    (val sd = 0 -> forall v w, In v vs -> In w vs -> number v = number w).
Proof. exact fit_spec. Qed.
Print Assumptions c97_fit.
Theorem c97_constant : forall (l : libm) v k, held v -> summable v k -> (0 < k)%nat -> (Z.of_nat k <= 2 ^ 53)%Z ->
  exists mu sd : b64, norm_fit (Bops l) (repeat v k) = Ok (mu, sd) /\ fin mu /\ fin sd /\ val mu = number v /\ val sd = 0.
Proof. exact fit_const. Qed.
Print Assumptions c97_constant.
Theorem c97_mean : forall (l : libm) zs, zs <> [] -> (total_size zs <= 2 ^ 53)%Z -> (Z.of_nat (length zs) <= 2 ^ 53)%Z ->
  exists mu sd : b64, norm_fit (Bops l) (map VInt zs) = Ok (mu, sd) /\ fin mu /\ val mu = rnd (IZR (total zs) / IZR (Z.of_nat (length zs))).
Proof. exact fit_mean. Qed.
Print Assumptions c97_mean.
(** Beyond that a constant field can have another mean and a positive deviation. *)
Theorem c97_constant_refuted : exists z k, (0 < z < 2 ^ 53)%Z /\ forall l : libm, exists mu sd : b64,
  norm_fit (Bops l) (repeat (VInt z) k) = Ok (mu, sd) /\ val mu <> IZR z /\ 0 < val sd.
Proof.
  exists 9007199254740991%Z, 5%nat. split; [lia|]. intro l.
  assert (C : match norm_fit (Bops l) (repeat (VInt 9007199254740991) 5) with
              | Ok (mu, sd) => is_finite mu && is_finite sd && negb (Beqb mu (b64_z 9007199254740991)) && Bltb (b64_z 0) sd
              | Err _ => false end = true) by (vm_compute; reflexivity).
  destruct (norm_fit (Bops l) (repeat (VInt 9007199254740991) 5)) as [[mu sd]|e]; [|discriminate C].
  apply andb_prop in C as [C C4]. apply andb_prop in C as [C C3]. apply andb_prop in C as [C1 C2]. exists mu, sd. split; [reflexivity|].
  destruct (z_spec 9007199254740991 ltac:(lia)) as [Fz Vz]. destruct (z_spec 0 ltac:(lia)) as [F0 V0]. split.
  - intro E. apply negb_true_iff in C3. rewrite (proj2 (eqb_spec mu _ C1 Fz)) in C3; [discriminate C3|]. now rewrite Vz.
  - apply (ltb_spec _ sd F0 C2) in C4. now rewrite V0 in C4.
Qed.
Print Assumptions c97_constant_refuted.
Example c97_ex_fit : Forall held [VInt 3; VInt (-7); VF32 1065353216] /\ number (VF32 1065353216) = 1 /\ summable (VInt 1530000000) 500.
Proof.
  split; [apply Forall_cons; [cbn; lia|apply Forall_cons; [cbn; lia|apply Forall_cons; [reflexivity|apply Forall_nil]]]|]. split; [|unfold summable; lia]. rewrite number_f32.
  change (f32_sign 1065353216 * f32_mant 1065353216)%Z with 8388608%Z. change (f32_scale 1065353216) with (-23)%Z. change (bpow radix2 (-23)) with (/ 8388608). field.
Qed.
