(** C94: what the comparisons of the denoisers report. *)
From Coq Require Import List Arith ZArith QArith Reals Bool Lia Lra.
From Verif.Model Require Import Py Float Dude Emle Perf Compare.
From Verif.Spec Require Import RealOps Info Cluster EmleSpec DudeSpec CompareSpec.
From Verif.Proofs Require Import Base RealP DudeP DudeH EmleP PerfP CompareP.
From Verif.Props Require Import InfoProps DudeProps EmleProps.
Import ListNotations.
Close Scope Q_scope.
Close Scope R_scope.
Open Scope nat_scope.

(** Every column is denoised alone, by a denoiser that has seen nothing else; EMLE sees the rows in turn; the reported error rates and flips are
    the share and the number of the bits that each denoiser changed. *)
Theorem c94_compare : forall inv mi f k threshold window center slope rows m, (0 < f < / 2)%R -> 1 <= m -> rows <> [] -> Forall (bits_of_length m) rows ->
  inv (bsc f) = Ok mi ->
  exists D E, bit_array (length rows) m D /\ bit_array (length rows) m E /\
    (forall i, i < m -> alone (Dude Rops (bsc f) mi hamming_loss k true 2) (column_of i rows) (column_of i D)) /\
    row_by_row (EmleConf Rops f threshold window center slope true) rows E /\
    compare_denoisers Rops inv Ints rows m f k threshold window center slope =
      Ok (Comparison Rops (share_differing rows D) (differences (concat rows) (concat D)) (share_differing rows E) (differences (concat rows) (concat E))).
Proof. exact compare_ok. Qed.
Print Assumptions c94_compare.

(** Hence the reported rate is 0 exactly if nothing was changed; and a denoiser that recovers the sent bits is reported to be wrong in as many
    bits as the channel has changed, while one that does nothing is reported to be never wrong. *)
Theorem c94_rate : forall n m rows D, 1 <= n -> 1 <= m -> bit_array n m rows -> bit_array n m D ->
  (share_differing rows D = 0%R <-> D = rows) /\
  (forall truth, bit_array n m truth -> D = truth -> share_differing rows D = share_differing truth rows) /\
  (forall truth, bit_array n m truth -> (share_differing truth D < share_differing truth rows)%R -> (0 < share_differing rows D)%R).
Proof.
  intros n m rows D Hn Hm HR HD. destruct (array_flat _ _ _ HR) as [L0 _]. destruct (array_flat _ _ _ HD) as [L1 _].
  assert (HP : (0 < INR (n * m))%R) by (apply lt_0_INR; nia).
  assert (Z0 : share_differing rows D = 0%R <-> D = rows).
  { unfold share_differing. rewrite L0. split.
    - intro H. assert (INR (differences (concat rows) (concat D)) = 0)%R.
      { apply Rmult_eq_reg_r with (/ INR (n * m))%R; [unfold Rdiv in H; rewrite Rmult_0_l; exact H|]. apply Rinv_neq_0_compat. lra. }
      symmetry. apply (concat_inj n m); auto. apply (proj1 (differences_zero (concat rows) (concat D) ltac:(congruence))). apply INR_eq. exact H0.
    - intros ->. rewrite (proj2 (differences_zero (concat rows) (concat rows) eq_refl) eq_refl). cbn [INR]. unfold Rdiv. apply Rmult_0_l. }
  split; [exact Z0|]. split.
  - intros truth _ ->. unfold share_differing. rewrite L0, L1, differences_sym. reflexivity.
  - intros truth HT H. destruct (Rle_lt_or_eq_dec 0 (share_differing rows D)) as [|E]; auto.
    + unfold share_differing. rewrite L0. apply Rmult_le_pos; [apply pos_INR|apply Rlt_le, Rinv_0_lt_compat, HP].
    + exfalso. symmetry in E. apply Z0 in E. subst. lra.
Qed.
Print Assumptions c94_rate.

(** A denoiser that only improves is reported to be worse than one that does nothing. *)
Theorem c94_rate_refuted : exists inv mi rows truth D c, inv (bsc (1 / 5)) = Ok mi /\ inverse_of 2 (bsc (1 / 5)) mi /\ bit_array 5 1 rows /\ bit_array 5 1 truth /\ rows <> truth /\
  alone (Dude Rops (bsc (1 / 5)) mi hamming_loss 1 true 2) (column_of 0 rows) (column_of 0 D) /\ D = truth /\
  compare_denoisers Rops inv Ints rows 1 (1 / 5)%R 1 (36 / 100)%R 0 40 (35 / 100)%R = Ok c /\ cmp_dude_ber Rops c = (1 / 5)%R.
Proof.
  set (mi := [[4 / 3; - (1 / 3)]; [- (1 / 3); 4 / 3]]%R). set (rows := [[1]; [1]; [1]; [1]; [0]]%Z). set (truth := [[1]; [1]; [1]; [1]; [1]]%Z).
  assert (HR : bit_array 5 1 rows) by (split; [reflexivity|]; repeat (constructor; [split; [reflexivity|repeat constructor; unfold is_bit; auto]|]); constructor).
  assert (HT : bit_array 5 1 truth) by (split; [reflexivity|]; repeat (constructor; [split; [reflexivity|repeat constructor; unfold is_bit; auto]|]); constructor).
  destruct (compare_ok (fun _ => Ok mi) mi (1 / 5)%R 1 (36 / 100)%R 0 40 (35 / 100)%R rows 1 ltac:(lra) ltac:(lia) ltac:(discriminate) (proj2 HR) eq_refl) as (D & E & HD & HE & HA & HB & HC).
  set (d := Dude Rops (bsc (1 / 5)) mi hamming_loss 1 true 2) in *.
  assert (HI : inverse_of 2 (bsc (1 / 5)) mi).
  { intros [|[|i]] [|[|j]] Hi Hj; try lia; unfold ent, bsc, mi; cbn; lra. }
  assert (T : forall i u cost, 1 <= i -> i < 5 -> snd (denoise_sample Rops d (fed Rops d online_new (firstn i (column_of 0 rows))) (nth i (column_of 0 rows) 0%Z)) = Ok (Hard u, cost) -> u = 1%Z).
  { intros i u cost Hi1 Hi2 Eu.
    destruct (c40_threshold d (1 / 5)%R 1 (firstn i (column_of 0 rows)) (nth i (column_of 0 rows) 0%Z) ltac:(lra) (conj eq_refl (conj eq_refl (conj eq_refl eq_refl))) eq_refl HI eq_refl eq_refl ltac:(lia) eq_refl) as (u' & cost' & E1 & Hu & T0 & T1).
    - destruct i as [|[|[|[|[|i]]]]]; try lia; cbn; repeat constructor; unfold in_alphabet; lia.
    - rewrite firstn_length. cbn. lia.
    - rewrite Eu in E1. injection E1 as <- _. destruct (Z.eq_dec u 1) as [|Nu]; [assumption|exfalso].
      destruct i as [|[|[|[|[|i]]]]]; try lia;
        repeat match goal with H : context [holding ?o ?a ?l] |- _ => let v := eval vm_compute in (holding o a l) in change (holding o a l) with v in H end;
        cbn [rows column_of map nth firstn INR] in T0, T1; change (F Rops) with R in *.
      + assert (u <> 1%Z) as Q by exact Nu. apply (T1 eq_refl) in Q. lra.
      + assert (u <> 1%Z) as Q by exact Nu. apply (T1 eq_refl) in Q. lra.
      + assert (u <> 1%Z) as Q by exact Nu. apply (T1 eq_refl) in Q. lra.
      + assert (u <> 0%Z) as Q by (apply (T0 eq_refl); lra). lia. }
  assert (X : column_of 0 D = [1; 1; 1; 1; 1]%Z).
  { destruct (HA 0 ltac:(lia)) as (rs & E1 & E2).
    destruct (sequence_ok Rops d (column_of 0 rows) (or_introl eq_refl) ltac:(cbn; repeat constructor; unfold in_alphabet; cbn; lia) online_new) as (rs' & E3 & L & HS).
    fold d in E1. rewrite E3 in E1. cbn [snd] in E1. injection E1 as ->.
    assert (LD : length (column_of 0 D) = 5) by (unfold column_of; rewrite map_length; exact (proj1 HD)).
    apply nth_ext with (d := 0%Z) (d' := 1%Z); [rewrite LD; reflexivity|]. intros i Hi. rewrite LD in Hi.
    destruct (HS i (nth i (column_of 0 rows) 0%Z)) as (r & Er & Es); [apply nth_error_nth'; cbn; lia|].
    assert (Fr : fst r = Hard (nth i (column_of 0 D) 0%Z)).
    { assert (Y : nth_error (map fst rs) i = Some (fst r)) by (apply map_nth_error; exact Er). rewrite E2 in Y.
      rewrite (map_nth_error Hard i (column_of 0 D) (d := nth i (column_of 0 D) 0%Z)) in Y by (apply nth_error_nth'; rewrite LD; exact Hi). injection Y as Y. symmetry. exact Y. }
    destruct r as [e cost]. cbn [fst] in Fr. subst e.
    transitivity 1%Z; [|destruct i as [|[|[|[|[|i]]]]]; try lia; reflexivity].
    destruct i as [|i]; [|apply (T (S i) _ cost); [lia|lia|exact Es]].
    cbn [firstn fed fold_left] in Es. unfold denoise_sample in Es. cbn in Es. injection Es as Es _. symmetry. exact Es. }
  assert (ED : D = truth).
  { destruct HD as [LD HD]. destruct D as [|r0 [|r1 [|r2 [|r3 [|r4 [|]]]]]]; try discriminate LD.
    repeat match goal with H : Forall _ (_ :: _) |- _ => inversion H; clear H; subst end.
    repeat match goal with H : bits_of_length 1 ?r |- _ => destruct H as [H _]; destruct r as [|? [|]]; try discriminate H; clear H end.
    cbn in X. injection X as -> -> -> -> ->. reflexivity. }
  exists (fun _ => Ok mi), mi, rows, truth, D. eexists. split; [reflexivity|]. split; [exact HI|]. split; [exact HR|]. split; [exact HT|]. split; [discriminate|].
  split; [exact (HA 0 ltac:(lia))|]. split; [exact ED|]. split; [exact HC|]. cbn [cmp_dude_ber]. rewrite ED. unfold share_differing, differences. cbn. lra.
Qed.
Print Assumptions c94_rate_refuted.

(** An array of floats is denoised only if no context ever fills; else the comparison fails.  The channel matrix must be invertible. *)
Lemma map_res_ext_in {A B} (f g : A -> res B) l : (forall x, In x l -> f x = g x) -> map_res f l = map_res g l.
Proof. induction l as [|x l IH]; intro H; [reflexivity|]. cbn [map_res]. rewrite (H x (or_introl eq_refl)), IH by (intros y Hy; apply H; right; exact Hy). reflexivity. Qed.
Theorem c94_floats : forall inv f k threshold window center slope rows m, 1 <= m -> rows <> [] -> Forall (bits_of_length m) rows ->
  let run t := compare_denoisers Rops inv t rows m f k threshold window center slope in
  (forall e t, inv (bsc f) = Err e -> run t = Err e) /\
  (forall mi, inv (bsc f) = Ok mi -> (k < Z.of_nat (length rows))%Z -> run Floats = Err IndexError) /\
  (forall mi, inv (bsc f) = Ok mi -> (Z.of_nat (length rows) <= k)%Z -> run Floats = run Ints).
Proof.
  intros inv f k threshold window center slope rows m Hm Hne Hr run.
  assert (Hd : forall t i, dude_column Rops inv t f k (column_of i rows) =
     (do! mi <- inv (bsc f) in match t with
        | Ints => do! r <- snd (denoise_online Rops (Dude Rops (bsc f) mi hamming_loss k true 2) online_new (column_of i rows)) in Ok (map (fun x => symbol_of Rops (fst x)) r)
        | Floats => denoise_floats 2 k 0 (column_of i rows) end)).
  { intros t i. unfold dude_column, dude_new. cbn [fsub fz Rops]. change (inv [[1 - f; f]; [f; 1 - f]]%R) with (inv (bsc f)). destruct (inv (bsc f)); reflexivity. }
  assert (Lc : forall i, length (column_of i rows) = length rows) by (intro i; apply map_length).
  destruct m as [|m]; [lia|]. split; [|split].
  - intros e t He. unfold run, compare_denoisers. cbn [seq map_res]. rewrite Hd, He. reflexivity.
  - intros mi Hi Hk. unfold run, compare_denoisers. cbn [seq map_res]. rewrite Hd, Hi. cbn [bind].
    rewrite floats_stop; [reflexivity|apply (column_bits (S m)); [exact Hr|lia]|rewrite Lc; exact Hk|].
    intro E. apply (f_equal (@length Z)) in E. rewrite Lc in E. destruct rows; [contradiction|discriminate].
  - intros mi Hi Hk. unfold run, compare_denoisers. erewrite map_res_ext_in; [reflexivity|]. intros i Hin. apply in_seq in Hin. cbn beta. rewrite !Hd, Hi. cbn [bind].
    assert (Hb : Forall is_bit (column_of i rows)) by (apply (column_bits (S m)); [exact Hr|lia]).
    rewrite floats_pass by (auto; rewrite Lc; exact Hk).
    destruct (ints_pass Rops (Dude Rops (bsc f) mi hamming_loss k true 2) (column_of i rows) online_new eq_refl eq_refl Hb ltac:(cbn [o_last online_new length d_k]; rewrite Lc; exact Hk)) as (s' & rs & E1 & E2).
    rewrite E1. cbn [snd bind]. rewrite (symbols_hard Rops rs _ E2). reflexivity.
Qed.
Print Assumptions c94_floats.

(** A section of the example: what is printed, and that the denoisers are left as new. *)
Theorem c94_section : forall (d1 d2 : dude Rops) k2 c sequence noisy, d_hard Rops d1 = true -> d_size Rops d1 = 2 -> matrices d2 2 -> d_hard Rops d2 = true -> d_k Rops d2 = Z.of_nat k2 ->
  (0 < e_f Rops c < / 2)%R -> e_hard Rops c = true -> Forall is_bit sequence -> Forall is_bit noisy ->
  exists eo eb ee cost, alone d1 noisy eo /\ denoise_batch Rops d2 noisy = Ok (map Hard eb, cost) /\ row_by_row c (map (fun b => [b]) sequence) (map (fun b => [b]) ee) /\
    length eo = length noisy /\ length eb = length noisy /\ length ee = length sequence /\ Forall is_bit eo /\ Forall is_bit eb /\ Forall is_bit ee /\
    noisy_section Rops d1 d2 c (online_new, emle_new Rops) sequence noisy =
      ((online_new, emle_new Rops), Ok (Printed (differences noisy sequence) (differences eo sequence) (differences eo noisy)
                                               (differences eb sequence) (differences eb noisy) (differences ee sequence) (differences ee noisy))).
Proof.
  intros d1 d2 k2 c sequence noisy H1 H2 Hm H3 H4 Hf Hh Hs Hn.
  destruct (online_bits Rops d1 noisy H1 H2 Hn online_new) as (s1 & rs1 & eo & A1 & A2 & A3 & A4).
  assert (Ha : Forall (in_alphabet 2) noisy) by (eapply Forall_impl; [|exact Hn]; intros x [-> | -> ]; unfold in_alphabet; lia).
  destruct (c42_hard d2 2 k2 noisy Hm H3 H4 Ha) as (us & cs & B1 & B2 & B3 & B4 & B5).
  assert (Hseq : Forall (bits_of_length 1) (map (fun b => [b]) sequence)).
  { apply Forall_forall. intros r Hr. apply in_map_iff in Hr. destruct Hr as (b & <- & Hb). rewrite Forall_forall in Hs. split; [reflexivity|constructor; [apply Hs; exact Hb|constructor]]. }
  destruct (rows_estimates c 1 (map (fun b => [b]) sequence) Hf Hh (le_n 1) Hseq) as (s3 & rs3 & es & C1 & C2 & C3 & C4).
  assert (Es : exists ee, es = map (fun b => [b]) ee /\ length ee = length sequence /\ Forall is_bit ee).
  { destruct C3 as [L3 C3]. rewrite map_length in L3. clear - L3 C3. revert sequence L3. induction C3 as [|r es [Lr Hr] C3 IH]; intros [|q sequence] L3; try discriminate L3; [exists []; repeat split; constructor|].
    injection L3 as L3. destruct (IH sequence L3) as (ee & -> & Le & He). destruct r as [|b [|]]; try discriminate Lr. exists (b :: ee). cbn [map length].
    split; [reflexivity|]. split; [rewrite Le; reflexivity|constructor; [exact (Forall_inv Hr)|exact He]]. }
  destruct Es as (ee & Ee & Le & He). rewrite Ee in C2, C3, C4. clear Ee es. exists eo, (map Z.of_nat us), ee. eexists. split; [exists rs1; rewrite A1; auto|].
  split; [rewrite B1, map_map; reflexivity|]. split; [exact C4|]. split; [exact A3|]. split; [rewrite map_length; exact B2|]. split; [exact Le|]. split; [exact A4|].
  assert (Hu : Forall is_bit (map Z.of_nat us)).
  { apply Forall_forall. intros z Hz. apply in_map_iff in Hz. destruct Hz as (u & <- & Hin). apply In_nth with (d := 0) in Hin. destruct Hin as (i & Hi & <-). rewrite B2 in Hi.
    destruct (le_lt_dec k2 i) as [L1|L1]; [destruct (le_lt_dec (length noisy) (i + k2)) as [L2|L2]|].
    - destruct (B4 i (or_intror L2) Hi) as [-> _]. rewrite Forall_forall in Hn. apply Hn, nth_In, Hi.
    - destruct (B5 i L1 L2) as [[L3 _] _]. destruct (nth i us 0) as [|[|u]]; [left|right|lia]; reflexivity.
    - destruct (B4 i (or_introl L1) Hi) as [-> _]. rewrite Forall_forall in Hn. apply Hn, nth_In, Hi. }
  split; [exact Hu|]. split; [exact He|].
  unfold noisy_section. cbn [fst snd]. rewrite A1, B1, C1, C2, (symbols_hard Rops rs1 eo A2).
  assert (F1 : concat (map (fun b : Z => [b]) ee) = ee) by (clear; induction ee as [|b ee IH]; [reflexivity|cbn; rewrite IH; reflexivity]).
  rewrite F1, map_map. cbn [symbol_of]. reflexivity.
Qed.
Print Assumptions c94_section.

(** The sections do not affect each other: each prints what it prints on its own. *)
Theorem c94_sections : forall c s l, (0 < e_f Rops c < / 2)%R -> e_hard Rops c = true -> s = emle_new Rops ->
  Forall (fun x => let '(d1, d2, sequence, noisy) := x in d_hard Rops d1 = true /\ d_size Rops d1 = 2 /\ matrices d2 2 /\ d_hard Rops d2 = true /\ (0 <= d_k Rops d2)%Z /\
                   Forall is_bit sequence /\ Forall is_bit noisy) l ->
  exists ps, noisy_sections Rops c s l = (ps, None) /\ length ps = length l /\
    forall i d1 d2 sequence noisy, nth_error l i = Some (d1, d2, sequence, noisy) -> exists p, nth_error ps i = Some p /\
      snd (noisy_section Rops d1 d2 c (online_new, emle_new Rops) sequence noisy) = Ok p.
Proof.
  intros c s l Hf Hh -> Hl. induction Hl as [|[[[d1 d2] sequence] noisy] l Hx Hl IH].
  - exists []. split; [reflexivity|]. split; [reflexivity|]. intros [|i]; discriminate.
  - destruct Hx as (H1 & H2 & H3 & H4 & H5 & H6 & H7). destruct IH as (ps & E1 & E2 & E3).
    destruct (c94_section d1 d2 (Z.to_nat (d_k Rops d2)) c sequence noisy H1 H2 H3 H4 ltac:(lia) Hf Hh H6 H7) as (eo & eb & ee & cost & _ & _ & _ & _ & _ & _ & _ & _ & _ & E).
    cbn [noisy_sections]. rewrite E, E1. eexists. split; [reflexivity|]. split; [cbn [length]; rewrite E2; reflexivity|].
    intros [|i] d1' d2' sequence' noisy' Hi; cbn [nth_error] in *.
    + injection Hi as -> -> -> ->. eexists. split; [reflexivity|]. rewrite E. reflexivity.
    + apply (E3 i); exact Hi.
Qed.
Print Assumptions c94_sections.

(** What is printed as the errors of EMLE does not depend on the noise, since EMLE is given the clean sequence ... *)
Theorem c94_blind : forall (d1 d2 d1' d2' : dude Rops) c st st' sequence noisy noisy' s s' p p', snd st = snd st' ->
  noisy_section Rops d1 d2 c st sequence noisy = (s, Ok p) -> noisy_section Rops d1' d2' c st' sequence noisy' = (s', Ok p') ->
  p_emle_errors p = p_emle_errors p'.
Proof.
  intros d1 d2 d1' d2' c st st' sequence noisy noisy' s s' p p' Hs. unfold noisy_section. rewrite <- Hs.
  destruct (denoise_online Rops d1 (fst st) noisy) as [s1 [r1|e1]]; [|discriminate].
  destruct (denoise_online Rops d1' (fst st') noisy') as [s1' [r1'|e1']]; [|discriminate].
  destruct (denoise_batch Rops d2 noisy) as [[r2 m2]|]; [|discriminate]. destruct (denoise_batch Rops d2' noisy') as [[r2' m2']|]; [|discriminate].
  destruct (denoise_sequence Rops (denoise_hard Rops c) (snd st) (map (fun b => [b]) sequence)) as [s2 [r3|e3]]; [|discriminate].
  intros [= _ <-] [= _ <-]. reflexivity.
Qed.
Print Assumptions c94_blind.
(** ... so that for a source that does not change EMLE is reported to be always right, and its flips to be the noise, whatever the noise. *)
Theorem c94_constant : forall (d1 d2 : dude Rops) k2 c b n noisy, d_hard Rops d1 = true -> d_size Rops d1 = 2 -> matrices d2 2 -> d_hard Rops d2 = true -> d_k Rops d2 = Z.of_nat k2 ->
  (0 < e_f Rops c < / 2)%R -> e_hard Rops c = true -> is_bit b -> Forall is_bit noisy ->
  exists p, noisy_section Rops d1 d2 c (online_new, emle_new Rops) (repeat b n) noisy = ((online_new, emle_new Rops), Ok p) /\
    p_emle_errors p = 0 /\ p_emle_flips p = p_noise p.
Proof.
  intros d1 d2 k2 c b n noisy H1 H2 Hm H3 H4 Hf Hh Hb Hn.
  assert (Hs : Forall is_bit (repeat b n)) by (apply Forall_forall; intros x Hx; apply repeat_spec in Hx; subst; exact Hb).
  destruct (c94_section d1 d2 k2 c (repeat b n) noisy H1 H2 Hm H3 H4 Hf Hh Hs Hn) as (eo & eb & ee & cost & _ & _ & R & _ & _ & _ & _ & _ & _ & E).
  eexists. split; [exact E|]. cbn [p_emle_errors p_emle_flips p_noise].
  assert (X : map (fun b => [b]) (repeat b n) = repeat [b] n) by (clear; induction n as [|n IH]; [reflexivity|cbn; rewrite IH; reflexivity]).
  rewrite X in R. apply (constant_rows c 1 [b] n Hf Hh (le_n 1)) in R; [|split; [reflexivity|constructor; [exact Hb|constructor]]].
  rewrite <- X in R. assert (Y : ee = repeat b n).
  { apply (f_equal (@concat Z)) in R. assert (Fl : forall l : list Z, concat (map (fun b => [b]) l) = l) by (induction l as [|y l IH]; [reflexivity|cbn; rewrite IH; reflexivity]).
    rewrite !Fl in R. exact R. }
  rewrite Y. split; [apply differences_zero; reflexivity|apply differences_sym].
Qed.
Print Assumptions c94_constant.

(** Soft estimates are read as the more probable bit, 0 if there is none. *)
Theorem c94_soft : forall p0 p1 : R, symbol_of Rops (@Soft Rops [p0; p1]) = if Rlt_dec p0 p1 then 1%Z else 0%Z.
Proof. intros p0 p1. unfold symbol_of, argmax. cbn [argmax_from flt Rops]. unfold Rltb. destruct (Rlt_dec p0 p1); reflexivity. Qed.
Print Assumptions c94_soft.

(** With any number of symbols: the first one that no other exceeds. *)
Theorem c94_soft_any : forall p : list R, p <> [] -> exists i, symbol_of Rops (@Soft Rops p) = Z.of_nat i /\ i < length p /\
  (forall j, j < length p -> (nth j p 0 <= nth i p 0)%R) /\ (forall j, j < i -> (nth j p 0 < nth i p 0)%R).
Proof.
  intros p Hp.
  assert (G : forall t q b, b < length q -> (forall j, j < length q -> (nth j q 0 <= nth b q 0)%R) -> (forall j, j < b -> (nth j q 0 < nth b q 0)%R) ->
    let i := argmax_from Rops t (length q) b (nth b q 0%R) in let a := q ++ t in
    i < length a /\ (forall j, j < length a -> (nth j a 0 <= nth i a 0)%R) /\ (forall j, j < i -> (nth j a 0 < nth i a 0)%R)).
  { induction t as [|x t IH]; intros q b Hb U L; cbn [argmax_from]; cbv zeta.
    - rewrite app_nil_r. auto.
    - assert (N : forall j, j < length q -> nth j (q ++ [x]) 0%R = nth j q 0%R) by (intros; now rewrite app_nth1).
      assert (X : nth (length q) (q ++ [x]) 0%R = x) by (rewrite app_nth2, Nat.sub_diag by lia; reflexivity).
      replace (q ++ x :: t) with ((q ++ [x]) ++ t) by (rewrite <- app_assoc; reflexivity).
      assert (Ln : length (q ++ [x]) = S (length q)) by (rewrite app_length; cbn; lia). rewrite <- Ln.
      cbn [flt Rops]. unfold Rltb. destruct (Rlt_dec (nth b q 0%R) x) as [Lt|Ge].
      + pose proof (IH (q ++ [x]) (length q)) as G. rewrite X in G. apply G; rewrite ?Ln; [lia| |].
        * intros j Hj. destruct (Nat.eq_dec j (length q)) as [->|]; [rewrite X; lra|]. rewrite N by lia. pose proof (U j ltac:(lia)). lra.
        * intros j Hj. rewrite N by lia. pose proof (U j ltac:(lia)). lra.
      + rewrite <- (N b Hb). apply IH; rewrite ?Ln, ?(N b Hb); [lia| |].
        * intros j Hj. destruct (Nat.eq_dec j (length q)) as [->|]; [rewrite X; lra|]. rewrite N by lia. apply U. lia.
        * intros j Hj. rewrite N by lia. apply L. lia. }
  destruct p as [|x t]; [contradiction|]. specialize (G t [x] 0). cbn [length nth app] in G.
  exists (argmax_from Rops t 1 0 x). split; [reflexivity|]. apply G; [lia| |lia]. intros [|j] Hj; [cbn; lra|cbn in Hj; lia].
Qed.
Print Assumptions c94_soft_any.

(** The printed counts balance: flips are good or erroneous; errors that remain are those of the channel, less the good flips, plus the erroneous ones.
    So a denoiser leaves fewer errors than it received exactly if more of its flips are good than erroneous. *)
Theorem c94_balance : forall truth noisy estimate, length noisy = length truth -> length estimate = length truth -> Forall is_bit truth -> Forall is_bit noisy -> Forall is_bit estimate ->
  let good := good_flips truth noisy estimate in
  let bad := erroneous_flips truth noisy estimate in
  good = positions truth noisy estimate (fun t r e => negb (Z.eqb e r) && Z.eqb e t)%bool /\
  bad = positions truth noisy estimate (fun t r e => negb (Z.eqb e r) && negb (Z.eqb e t))%bool /\
  mismatches estimate noisy = good + bad /\
  mismatches estimate truth + good = mismatches noisy truth + bad /\
  (mismatches estimate truth < mismatches noisy truth <-> bad < good) /\
  good <= mismatches noisy truth.
Proof.
  intros truth noisy estimate L1 L2 H1 H2 H3 good bad.
  pose proof (flips_split truth noisy estimate L1 L2) as A. pose proof (errors_balance truth noisy estimate L1 L2 H1 H2 H3) as B. fold good bad in A, B.
  assert (C : good <= mismatches noisy truth).
  { clear A B. unfold good, good_flips, mismatches. clear bad good. revert noisy estimate L1 L2 H1 H2 H3. induction truth as [|x truth IH]; intros [|y noisy] [|z estimate] L1 L2 H1 H2 H3; try discriminate; [cbn; lia|].
    injection L1 as L1. injection L2 as L2. inversion H1; inversion H2; inversion H3; subst. specialize (IH noisy estimate L1 L2 ltac:(auto) ltac:(auto) ltac:(auto)).
    cbn [combine filter fst snd]. destruct (Z.eqb_spec z y); destruct (Z.eqb_spec z x); destruct (Z.eqb_spec y x); cbn [negb andb length]; try lia; congruence. }
  split; [rewrite <- count3_positions by assumption; reflexivity|]. split; [rewrite <- count3_positions by assumption; reflexivity|].
  split; [exact A|]. split; [exact B|]. split; [lia|exact C].
Qed.
Print Assumptions c94_balance.

(** Examples. *)
Definition c94_inv : list (list Q) := [[4 # 3; - (1 # 3)]; [- (1 # 3); 4 # 3]]%Q.
Example c94_ex : dude_column Qops (fun _ => Ok c94_inv) Ints (1 # 5)%Q 1 [1; 1; 1; 1; 0]%Z = Ok [1; 1; 1; 1; 1]%Z /\
  dude_column Qops (fun _ => Ok c94_inv) Floats (1 # 5)%Q 1 [1; 1; 1; 1; 0]%Z = Err IndexError /\
  dude_column Qops (fun _ => Ok c94_inv) Floats (1 # 5)%Q 5 [1; 1; 1; 1; 0]%Z = Ok [1; 1; 1; 1; 0]%Z.
Proof. vm_compute. auto. Qed.
Example c94_ex_balance : let truth := [1; 1; 1; 1; 0; 0]%Z in let noisy := [1; 0; 1; 0; 0; 0]%Z in let estimate := [1; 1; 1; 0; 1; 0]%Z in
  (mismatches noisy truth, mismatches estimate truth, mismatches estimate noisy, good_flips truth noisy estimate, erroneous_flips truth noisy estimate) = (2, 2, 2, 1, 1).
Proof. reflexivity. Qed.
(** The hypotheses of [c94_compare], [c94_section] and [c94_constant] are met. *)
Example c94_ex_hypotheses : exists c (d : dude Rops), (0 < e_f Rops c < / 2)%R /\ e_hard Rops c = true /\ matrices d 2 /\ d_hard Rops d = true /\ d_k Rops d = Z.of_nat 1 /\ d_size Rops d = 2 /\
  Forall (bits_of_length 2) [[1; 0]; [0; 0]]%Z.
Proof.
  exists (EmleConf Rops (1 / 5)%R (36 / 100)%R 50 40 (35 / 100)%R true), (Dude Rops (bsc (1 / 5)) [[4 / 3; - (1 / 3)]; [- (1 / 3); 4 / 3]]%R hamming_loss 1 true 2).
  cbn [e_f e_hard d_hard d_k d_size]. split; [lra|]. split; [reflexivity|]. split; [repeat split|]. split; [reflexivity|]. split; [reflexivity|]. split; [reflexivity|].
  repeat (constructor; [split; [reflexivity|repeat (constructor; [unfold is_bit; auto|]); constructor]|]). constructor.
Qed.
Example c94_ex_soft : symbol_of Qops (@Soft Qops [1 # 5; 2 # 5; 2 # 5]%Q) = 1%Z.
Proof. vm_compute. reflexivity. Qed.
