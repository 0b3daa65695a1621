(** C106: the denoisers in double precision. *)
From Coq Require Import List ZArith Reals Bool Lia Lra.
From Flocq Require Import Core IEEE754.BinarySingleNaN.
From Verif.Model Require Import Py Float Dude.
From Verif.Spec Require Import RealOps DudeSpec IeeeOps IeeeDudeSpec.
From Verif.Proofs Require Import Base DudeP DudeB IeeeP IeeeInfoP IeeeEmleP IeeeDudeP IeeeDudeQ IeeeDudeS.
Import ListNotations.
Open Scope R_scope.

(** What was counted. *)
Lemma counted_two obs l : counts_of 2 obs l = [Z.of_nat (holding obs 0 l); Z.of_nat (holding obs 1 l)].
Proof. reflexivity. Qed.
Lemma held_le obs a l : (holding obs a l <= length l)%nat.
Proof. unfold holding. induction l as [|i l IH]; [reflexivity|]. cbn [filter length]. destruct (Z.eqb _ _); cbn [length]; lia. Qed.
Lemma held_one obs a l i : In i l -> nth i obs (-1)%Z = Z.of_nat a -> (1 <= holding obs a l)%nat.
Proof.
  intros Hi E. unfold holding. induction l as [|j l IH]; [contradiction|]. cbn [filter]. destruct Hi as [->|Hi].
  - rewrite E, Z.eqb_refl. cbn [length]. lia.
  - specialize (IH Hi). destruct (Z.eqb _ _); cbn [length]; lia.
Qed.
Lemma filter_le {A} (f : A -> bool) l : (length (filter f l) <= length l)%nat.
Proof. induction l as [|x l IH]; [reflexivity|]. cbn [filter length]. destruct (f x); cbn [length]; lia. Qed.
Lemma follows_le k obs c : (length (follows k obs c) <= length obs - k)%nat.
Proof. unfold follows. rewrite <- (seq_length (length obs - k) k) at 2. apply filter_le. Qed.
Lemma bit_nat x : in_alphabet 2 x -> (Z.to_nat x < 2)%nat /\ Z.of_nat (Z.to_nat x) = x.
Proof. intros [H1 H2]. cbn in H2. lia. Qed.
Lemma seen_facts k obs x : (1 <= k <= length obs)%nat -> in_alphabet 2 x ->
  (seen k obs x 0 <= length obs)%nat /\ (seen k obs x 1 <= length obs)%nat /\ (1 <= seen k obs x (Z.to_nat x))%nat.
Proof.
  intros L Hx. unfold seen. assert (B : (length (follows k (obs ++ [x]) (last_k k obs)) <= length obs)%nat) by (pose proof (follows_le k (obs ++ [x]) (last_k k obs)) as B; rewrite app_length in B; cbn [length] in B; lia).
  split; [pose proof (held_le (obs ++ [x]) 0 (follows k (obs ++ [x]) (last_k k obs))); lia|]. split; [pose proof (held_le (obs ++ [x]) 1 (follows k (obs ++ [x]) (last_k k obs))); lia|].
  apply held_one with (i := length obs).
  - rewrite follows_snoc by lia. apply in_or_app. right. destruct (list_eq_dec Z.eq_dec (last_k k obs) (last_k k obs)) as [_|N]; [left; reflexivity|congruence].
  - rewrite app_nth2, Nat.sub_diag by lia. cbn [nth]. symmetry. apply bit_nat. exact Hx.
Qed.
Lemma sample_decides (l : libm) (d : dude (Bops l)) k hard obs x : binary l d k hard -> Forall (in_alphabet 2) (obs ++ [x]) -> (k <= length obs)%nat ->
  in_alphabet 2 x /\ snd (denoise_sample (Bops l) d (fed (Bops l) d online_new obs) x) = decide (Bops l) d [Z.of_nat (seen k obs x 0); Z.of_nat (seen k obs x 1)] (Z.to_nat x).
Proof.
  intros (En & Eh & Hk & Ek) Ho L. apply Forall_app in Ho. destruct Ho as [Ho Hx]. inversion_clear Hx as [|? ? Hx' _]. split; [exact Hx'|].
  destruct (sample_late (Bops l) d k (fed (Bops l) d online_new obs) obs x Hk Ek) as [s' [-> _]]; auto.
  - apply fed_inv; auto. rewrite En. exact Ho.
  - rewrite En. exact Hx'.
  - cbn [snd]. unfold next_counts. rewrite En. rewrite counted_two. reflexivity.
Qed.

(** C106: a hard decision is monotone: if 1 is answered after some observations, it is answered after any others in whose context the symbol 0 was seen no
    more often and the symbol 1 no less often.  For any channel and any inverse with the signs of one. *)
Theorem c106_monotone : forall (l : libm) (d : dude (Bops l)) k obs obs' x cost, binary l d k true -> d_loss _ d = hamming64 -> channel64 (d_channel _ d) -> inverse_signs (d_inv _ d) ->
  Forall (in_alphabet 2) (obs ++ [x]) -> Forall (in_alphabet 2) (obs' ++ [x]) -> (k <= length obs)%nat -> (k <= length obs')%nat ->
  (Z.of_nat (length obs) <= 2 ^ 53)%Z -> (Z.of_nat (length obs') <= 2 ^ 53)%Z ->
  (seen k obs' x 0 <= seen k obs x 0)%nat -> (seen k obs x 1 <= seen k obs' x 1)%nat ->
  snd (denoise_sample (Bops l) d (fed (Bops l) d online_new obs) x) = Ok (Hard 1, cost) ->
  exists cost', snd (denoise_sample (Bops l) d (fed (Bops l) d online_new obs') x) = Ok (Hard 1, cost').
Proof.
  intros l d k obs obs' x cost Hb El (a & b & c & e & Ec & Hc) (i00 & i01 & i10 & i11 & Ei & F0 & F1 & F2 & F3 & B0 & B1 & B2 & B3) Ho Ho' Lk Lk' Ln Ln' S0 S1 E.
  destruct (sample_decides l d k true obs x Hb Ho Lk) as [Hx Q]. destruct (sample_decides l d k true obs' x Hb Ho' Lk') as [_ Q']. rewrite Q in E. rewrite Q'. clear Q Q'.
  destruct Hb as (En & Eh & Hk & Ek). destruct (seen_facts k obs x (conj Hk Lk) Hx) as (N0 & N1 & _). destruct (seen_facts k obs' x (conj Hk Lk') Hx) as (N0' & N1' & _).
  destruct (bit_nat x Hx) as [Hx2 _].
  assert (Hi : Forall entry_ok [i00; i01; i10; i11]).
  { constructor; [split; [exact F0|apply Rabs_le; lra]|]. constructor; [split; [exact F1|apply Rabs_le; lra]|]. constructor; [split; [exact F2|apply Rabs_le; lra]|].
    constructor; [split; [exact F3|apply Rabs_le; lra]|constructor]. }
  assert (C : forall m, (m <= length obs)%nat -> count_ok (Z.of_nat m)) by (intros m Hm; unfold count_ok; lia).
  assert (C' : forall m, (m <= length obs')%nat -> count_ok (Z.of_nat m)) by (intros m Hm; unfold count_ok; lia).
  destruct (hard_64 l d _ _ (Z.to_nat x) a b c e i00 i01 i10 i11 En Eh El Ec Ei (C _ N0) (C _ N1) Hc Hi Hx2) as [cost1 D].
  destruct (hard_64 l d _ _ (Z.to_nat x) a b c e i00 i01 i10 i11 En Eh El Ec Ei (C' _ N0') (C' _ N1') Hc Hi Hx2) as [cost2 D'].
  rewrite D in E. rewrite D'. exists cost2. f_equal. f_equal. f_equal.
  assert (P : 0 <= val (nth (Z.to_nat x) [a; b] (b64_z 0)) /\ 0 <= val (nth (Z.to_nat x) [c; e] (b64_z 0))).
  { inversion_clear Hc as [|? ? Pa H]; inversion_clear H as [|? ? Pb H']; inversion_clear H' as [|? ? Pc H]; inversion_clear H as [|? ? Pe _].
    destruct (Z.to_nat x) as [|[|]]; [split; [apply Pa|apply Pc]|split; [apply Pb|apply Pe]|lia]. }
  destruct P as [P0 P1].
  assert (Vd : forall w0 w1, verdict w0 w1 = 1%Z <-> w0 < w1) by (intros w0 w1; unfold verdict; destruct (Rlt_dec w0 w1); split; intro; [assumption|reflexivity|discriminate|contradiction]).
  apply Vd. assert (Lt := E). apply (f_equal (fun r => match r with Ok (Hard z, _) => z | _ => 0%Z end)) in Lt. apply Vd in Lt.
  eapply Rle_lt_trans; [|eapply Rlt_le_trans; [exact Lt|]].
  - apply weight_mono; try lia; [apply B0|apply B2|exact P0].
  - apply weight_mono'; try lia; [apply B1|apply B3|exact P1].
Qed.
Print Assumptions c106_monotone.

(** C106: for the matrices of a binary symmetric channel, its inverse accurate to 2^-40, an observation is kept if it makes up at least the share 2 f (1 - f) plus 2^-36
    of the symbols seen in its context, and changed if it makes up at most that share minus 2^-36. *)
Definition decides64 (f : b64) (v x : Z) (own all : nat) : Prop :=
  (v = 0%Z \/ v = 1%Z) /\ ((share (val f) + bpow radix2 (-36)) * INR all <= INR own -> v = x) /\ (INR own <= (share (val f) - bpow radix2 (-36)) * INR all -> v <> x).
Lemma eta_36 : 16 * eta = bpow radix2 (-36).
Proof. unfold eta. change (-36)%Z with (4 + -40)%Z. rewrite bpow_plus. reflexivity. Qed.
Lemma decides_lemma (l : libm) (d : dude (Bops l)) f n0 n1 obs : d_size _ d = 2%nat -> d_hard _ d = true -> d_loss _ d = hamming64 -> d_channel _ d = bsc64 f ->
  fin f -> 0 <= val f <= 63 / 128 -> near_matrix (bpow radix2 (-40)) (d_inv _ d) (bsc_inverse (val f)) -> (Z.of_nat n0 <= 2 ^ 53)%Z -> (Z.of_nat n1 <= 2 ^ 53)%Z ->
  (1 <= n0 + n1)%nat -> (obs < 2)%nat ->
  exists v cost, decide (Bops l) d [Z.of_nat n0; Z.of_nat n1] obs = Ok (Hard v, cost) /\ decides64 f v (Z.of_nat obs) (nth obs [n0; n1] 0%nat) (n0 + n1).
Proof.
  intros En Eh El Ec F R Hi H0 H1 H2 Ho.
  destruct (hard_close l d f (Z.of_nat n0) (Z.of_nat n1) obs En Eh El Ec F R Hi) as (v & cost & E & Hv & K1 & K2); try (unfold count_ok; lia).
  exists v, cost. split; [exact E|]. unfold decides64. split; [exact Hv|]. rewrite eta_36 in *. rewrite <- Nat2Z.inj_add, <- !INR_IZR_INZ in K1, K2.
  assert (En' : IZR (nth obs [Z.of_nat n0; Z.of_nat n1] 0%Z) = INR (nth obs [n0; n1] 0%nat)) by (rewrite INR_IZR_INZ; destruct obs as [|[|]]; [reflexivity|reflexivity|lia]).
  rewrite En' in *. split; assumption.
Qed.
Theorem c106_hard : forall (l : libm) (d : dude (Bops l)) f k obs x, binary l d k true -> d_loss _ d = hamming64 -> d_channel _ d = bsc64 f ->
  fin f -> 0 <= val f <= 63 / 128 -> near_matrix (bpow radix2 (-40)) (d_inv _ d) (bsc_inverse (val f)) ->
  Forall (in_alphabet 2) (obs ++ [x]) -> (k <= length obs)%nat -> (Z.of_nat (length obs) <= 2 ^ 53)%Z ->
  exists v cost, snd (denoise_sample (Bops l) d (fed (Bops l) d online_new obs) x) = Ok (Hard v, cost) /\
    decides64 f v x (seen k obs x (Z.to_nat x)) (seen k obs x 0 + seen k obs x 1).
Proof.
  intros l d f k obs x Hb El Ec F R Hi Ho Lk Ln. destruct (sample_decides l d k true obs x Hb Ho Lk) as [Hx ->].
  destruct Hb as (En & Eh & Hk & Ek). destruct (seen_facts k obs x (conj Hk Lk) Hx) as (N0 & N1 & N). destruct (bit_nat x Hx) as [Hx2 Ex].
  destruct (decides_lemma l d f (seen k obs x 0) (seen k obs x 1) (Z.to_nat x) En Eh El Ec F R Hi) as (v & cost & E & K); try lia.
  { destruct (Z.to_nat x) as [|[|]]; lia. }
  exists v, cost. split; [exact E|]. rewrite Ex in K. replace (seen k obs x (Z.to_nat x)) with (nth (Z.to_nat x) [seen k obs x 0; seen k obs x 1] 0%nat); [exact K|].
  destruct (Z.to_nat x) as [|[|]]; [reflexivity|reflexivity|lia].
Qed.
Print Assumptions c106_hard.
(** In particular a symbol that makes up at least half of those seen in its context is kept. *)
Theorem c106_majority : forall (l : libm) (d : dude (Bops l)) f k obs x, binary l d k true -> d_loss _ d = hamming64 -> d_channel _ d = bsc64 f ->
  fin f -> 0 <= val f <= 63 / 128 -> near_matrix (bpow radix2 (-40)) (d_inv _ d) (bsc_inverse (val f)) ->
  Forall (in_alphabet 2) (obs ++ [x]) -> (k <= length obs)%nat -> (Z.of_nat (length obs) <= 2 ^ 53)%Z ->
  (seen k obs x 0 + seen k obs x 1 <= 2 * seen k obs x (Z.to_nat x))%nat ->
  exists cost, snd (denoise_sample (Bops l) d (fed (Bops l) d online_new obs) x) = Ok (Hard x, cost).
Proof.
  intros l d f k obs x Hb El Ec F R Hi Ho Lk Ln M. destruct (c106_hard l d f k obs x Hb El Ec F R Hi Ho Lk Ln) as (v & cost & E & _ & K & _).
  assert (Ev : v = x); [|subst v; exists cost; exact E]. apply K. apply le_INR in M. rewrite mult_INR in M. change (INR 2) with 2 in M.
  set (n := INR (seen k obs x 0 + seen k obs x 1)) in *. assert (P : 0 <= n) by apply pos_INR.
  assert (S : share (val f) + bpow radix2 (-36) <= / 2) by (unfold share; change (bpow radix2 (-36)) with (/ 68719476736); nra). nra.
Qed.
Print Assumptions c106_majority.

(** C106: the same of denoising a whole sequence with two-sided contexts. *)
Lemma between_facts k obs i : (k <= i)%nat -> (i + k < length obs)%nat -> let l := between k obs (slice obs (i - k) i) (slice obs (i + 1) (i + k + 1)) in In i l /\ (length l <= length obs)%nat.
Proof.
  intros H1 H2 l. split.
  - unfold l, between. apply filter_In. split; [apply in_seq; lia|]. destruct (list_eq_dec _ _ _) as [_|N]; [|congruence]. destruct (list_eq_dec _ _ _) as [_|N]; [reflexivity|congruence].
  - unfold l, between. eapply Nat.le_trans; [apply filter_le|]. rewrite seq_length. lia.
Qed.
Theorem c106_batch : forall (l : libm) (d : dude (Bops l)) f k obs, binary l d k true -> d_loss _ d = hamming64 -> d_channel _ d = bsc64 f ->
  fin f -> 0 <= val f <= 63 / 128 -> near_matrix (bpow radix2 (-40)) (d_inv _ d) (bsc_inverse (val f)) ->
  Forall (in_alphabet 2) obs -> (Z.of_nat (length obs) <= 2 ^ 53)%Z ->
  exists es cost, denoise_batch (Bops l) d obs = Ok (es, cost) /\ length es = length obs /\
    forall i, (i < length obs)%nat -> exists v, nth_error es i = Some (Hard v) /\
      ((i < k)%nat \/ (length obs <= i + k)%nat -> v = nth i obs 0%Z) /\
      ((k <= i)%nat -> (i + k < length obs)%nat ->
        let there := between k obs (slice obs (i - k) i) (slice obs (i + 1) (i + k + 1)) in
        decides64 f v (nth i obs 0%Z) (holding obs (Z.to_nat (nth i obs 0%Z)) there) (holding obs 0 there + holding obs 1 there)).
Proof.
  intros l d f k obs (En & Eh & Hk & Ek) El Ec F R Hi Ho Ln.
  destruct (batch_spec (Bops l) d k obs Ek) as (es & cs & E & Le & _ & Hborder & Hm); [rewrite En; exact Ho|left; exact Eh|].
  exists es, (fmean (Bops l) cs). split; [exact E|]. split; [exact Le|]. intros i Hl.
  assert (Hb : in_alphabet 2 (nth i obs 0%Z)) by (rewrite Forall_forall in Ho; apply Ho, nth_In; exact Hl). destruct (bit_nat _ Hb) as [Hx2 Ex].
  assert (Ne : nth_error es i = Some (nth i es (Hard 0))) by (apply nth_error_nth'; rewrite Le; exact Hl).
  assert (Out : (i < k)%nat \/ (length obs <= i + k)%nat -> nth i es (Hard 0) = Hard (nth i obs 0%Z)).
  { intro H. destruct (Hborder i (Hard 0) (fz (Bops l) 0) Hl H) as [X _]. rewrite X. unfold unchanged. rewrite Eh, Ex. reflexivity. }
  destruct (le_lt_dec k i) as [Lk|Lk]; [|exists (nth i obs 0%Z); rewrite Ne, Out by (left; exact Lk); split; [reflexivity|split; [reflexivity|lia]]].
  destruct (le_lt_dec (length obs) (i + k)) as [Lb|Lb]; [exists (nth i obs 0%Z); rewrite Ne, Out by (right; exact Lb); split; [reflexivity|split; [reflexivity|lia]]|].
  specialize (Hm i (Hard 0) (fz (Bops l) 0) Lk Lb). unfold two_sided_counts in Hm. rewrite En in Hm.
  destruct (between_facts k obs i Lk Lb) as [In_i Lth]. set (there := between k obs (slice obs (i - k) i) (slice obs (i + 1) (i + k + 1))) in *.
  rewrite counted_two in Hm. pose proof (held_le obs 0 there). pose proof (held_le obs 1 there).
  assert (One : (1 <= holding obs (Z.to_nat (nth i obs 0%Z)) there)%nat) by (apply held_one with (i := i); [exact In_i|rewrite Ex; apply nth_indep; exact Hl]).
  destruct (decides_lemma l d f (holding obs 0 there) (holding obs 1 there) (Z.to_nat (nth i obs 0%Z)) En Eh El Ec F R Hi) as (v & cost & D & K); try lia.
  { destruct (Z.to_nat (nth i obs 0%Z)) as [|[|]]; lia. }
  rewrite D in Hm. assert (Ev : nth i es (Hard 0) = @Hard (Bops l) v) by congruence. exists v. rewrite Ne, Ev. split; [reflexivity|]. split; [lia|]. intros _ _. cbv zeta.
  rewrite Ex in K. replace (holding obs (Z.to_nat (nth i obs 0%Z)) there) with (nth (Z.to_nat (nth i obs 0%Z)) [holding obs 0 there; holding obs 1 there] 0%nat); [exact K|].
  destruct (Z.to_nat (nth i obs 0%Z)) as [|[|]]; [reflexivity|reflexivity|lia].
Qed.
Print Assumptions c106_batch.

(** C106: a soft decision is a pair of positive doubles of at most 1 that add up to 1 within 2^-51, each within the factor 1 +- n 2^-34 of the exact one, n being the
    number of symbols seen in the context. *)
Theorem c106_soft : forall (l : libm) (d : dude (Bops l)) f k obs x, binary l d k false -> d_channel _ d = bsc64 f ->
  fin f -> bpow radix2 (-30) <= val f <= 63 / 128 -> near_matrix (bpow radix2 (-40)) (d_inv _ d) (bsc_inverse (val f)) ->
  Forall (in_alphabet 2) (obs ++ [x]) -> (k <= length obs)%nat -> (Z.of_nat (length obs) <= 2 ^ 29)%Z ->
  let n := (seen k obs x 0 + seen k obs x 1)%nat in
  let exact := soft_estimate (bsc (val f)) (bsc_inverse (val f)) [Z.of_nat (seen k obs x 0); Z.of_nat (seen k obs x 1)] (Z.to_nat x) in
  exists p0 p1 cost, snd (denoise_sample (Bops l) d (fed (Bops l) d online_new obs) x) = Ok (@Soft (Bops l) [p0; p1], cost) /\
    fin p0 /\ fin p1 /\ 0 < val p0 <= 1 /\ 0 < val p1 <= 1 /\ Rabs (val p0 + val p1 - 1) <= bpow radix2 (-51) /\
    Rabs (val p0 - nth 0 exact 0) <= nth 0 exact 0 * (INR n * bpow radix2 (-34)) /\ Rabs (val p1 - nth 1 exact 0) <= nth 1 exact 0 * (INR n * bpow radix2 (-34)).
Proof.
  intros l d f k obs x Hb Ec F R Hi Ho Lk Ln n exact. destruct (sample_decides l d k false obs x Hb Ho Lk) as [Hx ->].
  destruct Hb as (En & Eh & Hk & Ek). destruct (seen_facts k obs x (conj Hk Lk) Hx) as (N0 & N1 & N). destruct (bit_nat x Hx) as [Hx2 Ex].
  destruct (soft_close l d f (Z.of_nat (seen k obs x 0)) (Z.of_nat (seen k obs x 1)) (Z.to_nat x) En Eh Ec F R Hi) as (p0 & p1 & cost & E & F0 & F1 & B0 & B1 & K0 & K1 & Ks); try lia.
  { destruct (Z.to_nat x) as [|[|]]; lia. }
  exists p0, p1, cost. split; [exact E|]. split; [exact F0|]. split; [exact F1|]. split; [exact B0|]. split; [exact B1|].
  assert (T : 64 * (IZR (Z.of_nat (seen k obs x 0) + Z.of_nat (seen k obs x 1)) * eta) = INR n * bpow radix2 (-34)).
  { rewrite <- Nat2Z.inj_add, <- INR_IZR_INZ. fold n. unfold eta. replace (bpow radix2 (-34)) with (bpow radix2 6 * bpow radix2 (-40)) by (rewrite <- bpow_plus; reflexivity). change (bpow radix2 6) with 64. ring. }
  rewrite T in *. split; [|split; [exact K0|exact K1]].
  eapply Rle_trans; [exact Ks|]. apply Req_le. unfold u. change (-51)%Z with (2 + -53)%Z. rewrite bpow_plus. reflexivity.
Qed.
Print Assumptions c106_soft.

(** Examples: flip probability 1/4, whose inverse has entries 3/2 and -1/2, all exact. *)
Definition quarter : b64 := make 1 (-2).
Definition ex_inv64 : list (list b64) := [[make 3 (-1); make (-1) (-1)]; [make (-1) (-1); make 3 (-1)]].
Definition ex_dude64 (l : libm) (hard : bool) : dude (Bops l) := Dude (Bops l) (bsc64 quarter) ex_inv64 hamming64 1 hard 2.
Lemma make_exact m e : (Z.abs m <= 2 ^ 53)%Z -> (-1074 <= e <= 0)%Z -> fin (make m e) /\ val (make m e) = IZR m * bpow radix2 e.
Proof.
  intros Hm He. destruct (make_spec m e) as [F V].
  - rewrite Rabs_mult, (Rabs_pos_eq (bpow radix2 e)) by apply bpow_ge_0. apply Rle_trans with (bpow radix2 53 * bpow radix2 0).
    + apply Rmult_le_compat; [apply Rabs_pos|apply bpow_ge_0| |apply bpow_le; lia]. rewrite <- abs_IZR. change (bpow radix2 53) with (IZR (2 ^ 53)). apply IZR_le. exact Hm.
    + rewrite <- bpow_plus. apply bpow_le. lia.
  - split; [exact F|]. rewrite V. apply rnd_id. apply fmt_F2R; lia.
Qed.
Lemma quarter_val : fin quarter /\ val quarter = / 4.
Proof. destruct (make_exact 1 (-2)) as [F V]; [lia|lia|]. split; [exact F|]. unfold quarter. rewrite V. change (bpow radix2 (-2)) with (/ 4). lra. Qed.
Example c106_ex_inverse : near_matrix (bpow radix2 (-40)) ex_inv64 (bsc_inverse (val quarter)).
Proof.
  destruct quarter_val as [_ ->]. destruct (make_exact 3 (-1)) as [F3 V3]; [lia|lia|]. destruct (make_exact (-1) (-1)) as [F1 V1]; [lia|lia|].
  change (bpow radix2 (-1)) with (/ 2) in *. pose proof (bpow_gt_0 radix2 (-40)) as P.
  assert (N3 : near (bpow radix2 (-40)) (make 3 (-1)) ((1 - / 4) / (1 - 2 * / 4))) by (split; [exact F3|]; rewrite V3; replace (3 * / 2 - (1 - / 4) / (1 - 2 * / 4)) with 0 by field; rewrite Rabs_R0; lra).
  assert (N1 : near (bpow radix2 (-40)) (make (-1) (-1)) (- / 4 / (1 - 2 * / 4))) by (split; [exact F1|]; rewrite V1; replace (-1 * / 2 - - / 4 / (1 - 2 * / 4)) with 0 by field; rewrite Rabs_R0; lra).
  constructor; [|constructor; [|constructor]]; (constructor; [|constructor; [|constructor]]); assumption.
Qed.
(** After 0 0 0 0 1 0 0 0 0 the symbol 1 was seen twice among the eight symbols that followed a 0: below the share 3/8, it is changed to 0. *)
Example c106_ex : forall l, exists cost, snd (denoise_sample (Bops l) (ex_dude64 l true) (fed (Bops l) (ex_dude64 l true) online_new [0; 0; 0; 0; 1; 0; 0; 0; 0]%Z) 1%Z) = Ok (Hard 0, cost).
Proof.
  intro l. destruct quarter_val as [F V].
  assert (Ho : Forall (in_alphabet 2) ([0; 0; 0; 0; 1; 0; 0; 0; 0] ++ [1])%Z) by (repeat (constructor; [unfold in_alphabet; cbn; lia|]); constructor).
  destruct (c106_hard l (ex_dude64 l true) quarter 1 [0; 0; 0; 0; 1; 0; 0; 0; 0]%Z 1%Z) as (v & cost & E & Hv & _ & K); auto.
  - split; [reflexivity|]. split; [reflexivity|]. split; [lia|reflexivity].
  - rewrite V. lra.
  - apply c106_ex_inverse.
  - cbn. lia.
  - cbn. lia.
  - exists cost. rewrite E. f_equal. f_equal. f_equal. destruct Hv as [-> | ->]; [reflexivity|]. exfalso. apply K; [|reflexivity].
    replace (seen 1 [0; 0; 0; 0; 1; 0; 0; 0; 0]%Z 1 (Z.to_nat 1)) with 2%nat by reflexivity. replace (_ + _)%nat with 8%nat by reflexivity.
    rewrite V. unfold share. change (bpow radix2 (-36)) with (/ 68719476736). rewrite !INR_IZR_INZ. cbn [Z.of_nat Pos.of_succ_nat Pos.succ]. lra.
Qed.
