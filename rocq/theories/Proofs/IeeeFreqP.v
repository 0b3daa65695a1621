(** Lemmas about frequencies, their entropies and distances in double precision. *)
From Coq Require Import List NArith ZArith Reals Bool Lia Lra Sorted.
From Flocq Require Import Core IEEE754.BinarySingleNaN.
From Verif.Model Require Import Py Float InfoTheory Perf.
From Verif.Spec Require Import RealOps Info IeeeOps.
From Verif.Proofs Require Import Base InfoP PerfP IeeeP IeeeInfoP IeeeHellP.
Import ListNotations.
Open Scope R_scope.

Lemma occ_le r v : (occurrences r v <= length r)%nat.
Proof. unfold occurrences. induction r as [|x r IH]; cbn; [lia|]. destruct (Z.eq_dec x v); lia. Qed.
Lemma occ_all r v : occurrences r v = length r <-> Forall (fun x => x = v) r.
Proof.
  unfold occurrences. induction r as [|x r IH]; cbn; [easy|]. pose proof (occ_le r v) as L. unfold occurrences in L.
  destruct (Z.eq_dec x v) as [E|E].
  - split; [intro H; constructor; [exact E|apply IH; lia]|intro H; inversion H; subst; f_equal; now apply IH].
  - split; [lia|]. intro H. inversion H; contradiction.
Qed.
Lemma occ_in r v : (0 < occurrences r v)%nat <-> In v r.
Proof. unfold occurrences. rewrite (count_occ_In Z.eq_dec). lia. Qed.
Lemma differences_same g p : length g = length p -> (differences g p = 0%nat <-> g = p).
Proof.
  unfold differences. revert p. induction g as [|x g IH]; intros [|y p] L; try discriminate L; [easy|]. cbn [combine filter fst snd].
  destruct (Z.eqb_spec x y) as [E|E]; cbn [negb].
  - rewrite IH by (now injection L). split; [now intros ->; subst|intro H; now injection H].
  - cbn [length]. split; [lia|intro H; injection H; contradiction].
Qed.
Lemma differences_le g p : (differences g p <= length g)%nat.
Proof. unfold differences. revert p. induction g as [|x g IH]; intros [|y p]; cbn; try lia. specialize (IH p). destruct (negb (x =? y)%Z); cbn; lia. Qed.

Definition freq_row (n : nat) (r a : list Z) : list b64 := map (fun v => quot (Z.of_nat (occurrences r v)) (Z.of_nat n)) a.
Lemma divide_row (l : libm) n r a : divide (Bops l) n (map (occurrences r) a) = freq_row n r a.
Proof. unfold divide, freq_row. rewrite map_map. reflexivity. Qed.

Lemma freq_spec r v : r <> [] -> (Z.of_nat (length r) <= 2 ^ 53)%Z ->
  let x := quot (Z.of_nat (occurrences r v)) (Z.of_nat (length r)) in
  fin x /\ val x = rnd (INR (occurrences r v) / INR (length r)) /\ 0 <= val x <= 1 /\ (val x = 0 <-> ~ In v r) /\ (val x = 1 <-> Forall (fun y => y = v) r).
Proof.
  intros N B x. pose proof (occ_le r v) as L. assert (length r <> 0)%nat by (destruct r; easy).
  destruct (quot_spec (Z.of_nat (occurrences r v)) (Z.of_nat (length r)) ltac:(lia) ltac:(lia)) as (A & C & D & E & G). fold (quot (Z.of_nat (occurrences r v)) (Z.of_nat (length r))) in *.
  fold x in A, C, D, E, G. rewrite !INR_IZR_INZ. split; [exact A|]. split; [exact C|]. split; [exact D|]. split.
  - rewrite E, <- occ_in. lia.
  - rewrite G, <- occ_all. lia.
Qed.
Lemma freq_min r v : In v r -> (Z.of_nat (length r) <= 2 ^ 50)%Z -> bpow radix2 (-200) <= val (quot (Z.of_nat (occurrences r v)) (Z.of_nat (length r))).
Proof.
  intros I B. assert (N : r <> []) by (destruct r; easy). destruct (freq_spec r v N ltac:(lia)) as (_ & V & _). cbv zeta in V. rewrite V.
  apply rnd_ge; [apply generic_format_bpow; cbn; lia|]. apply Rle_trans with (bpow radix2 (-50)); [apply bpow_le; lia|].
  change (bpow radix2 (-50)) with (/ IZR (2 ^ 50)). apply occ_in in I. rewrite !INR_IZR_INZ.
  assert (P : (0 < length r)%nat) by (destruct r; [easy|cbn; lia]).
  rewrite <- (Rmult_1_l (/ IZR (2 ^ 50))). apply Rmult_le_compat; [lra|left; apply Rinv_0_lt_compat, IZR_lt; lia|apply IZR_le; lia|].
  apply Rinv_le; [apply IZR_lt; lia|apply IZR_le; lia].
Qed.
Lemma freq_row_ok r a : r <> [] -> (Z.of_nat (length r) <= 2 ^ 53)%Z -> (Z.of_nat (length a) <= 2 ^ 40)%Z -> row_ok (freq_row (length r) r a).
Proof.
  intros N B La. split; [|unfold freq_row; now rewrite map_length]. apply Forall_forall. intros x I. unfold freq_row in I. apply in_map_iff in I as (v & <- & _).
  destruct (freq_spec r v N B) as (A & _ & C & _). split; [exact A|exact C].
Qed.
(** ** Entropies of rows of frequencies *)
Lemma freq_entropy (l : libm) b r a : good_log l -> (2 <= b <= 2 ^ 53)%Z -> r <> [] -> (Z.of_nat (length r) <= 2 ^ 50)%Z -> (Z.of_nat (length a) <= 2 ^ 40)%Z ->
  NoDup a -> incl r a ->
  let h := row_entropy (Bops l) b (freq_row (length r) r a) in
  fin h /\ 0 <= val h /\ (val h = 0 <-> forall x y, In x r -> In y r -> x = y).
Proof.
  intros G Hb N B La Na Ia h. pose proof (freq_row_ok r a N ltac:(lia) La) as Ok.
  assert (I0 : exists v, In v r) by (destruct r as [|v r]; [easy|exists v; now left]). destruct I0 as [v0 I0].
  assert (P0 : 0 < val (quot (Z.of_nat (occurrences r v0)) (Z.of_nat (length r)))).
  { eapply Rlt_le_trans; [apply bpow_gt_0|apply (freq_min r v0 I0 B)]. }
  assert (Ix : In (quot (Z.of_nat (occurrences r v0)) (Z.of_nat (length r))) (freq_row (length r) r a)).
  { unfold freq_row. apply (in_map (fun v => quot (Z.of_nat (occurrences r v)) (Z.of_nat (length r)))). now apply Ia. }
  destruct (entropy_within l G b _ _ Hb Ok Ix P0) as [Fh Rh]. fold h in Fh, Rh. split; [exact Fh|]. split; [apply Rh|]. split.
  - intros Z x y Jx Jy. destruct (Z.eq_dec x y) as [E|E]; [exact E|]. exfalso.
    assert (Split : exists xs ys zs u w, a = xs ++ u :: ys ++ w :: zs /\ In u r /\ In w r).
    { destruct (in_split x a (Ia x Jx)) as (l1 & l2 & Ea). pose proof (Ia y Jy) as Iy. rewrite Ea in Iy. apply in_app_or in Iy as [Iy|[Iy|Iy]].
      - destruct (in_split y l1 Iy) as (m1 & m2 & Em). exists m1, m2, l2, y, x. split; [|auto]. rewrite Ea, Em, <- app_assoc. reflexivity.
      - contradiction.
      - destruct (in_split y l2 Iy) as (m1 & m2 & Em). exists l1, m1, m2, x, y. split; [|auto]. now rewrite Ea, Em. }
    destruct Split as (xs & ys & zs & u' & w & Ea & Ju & Jw).
    assert (Er2 : freq_row (length r) r a = freq_row (length r) r xs ++ quot (Z.of_nat (occurrences r u')) (Z.of_nat (length r)) :: freq_row (length r) r ys ++
                  quot (Z.of_nat (occurrences r w)) (Z.of_nat (length r)) :: freq_row (length r) r zs).
    { unfold freq_row. rewrite Ea, map_app. cbn [map]. rewrite map_app. reflexivity. }
    assert (0 < val h); [|lra]. unfold h. rewrite Er2 in Ok |- *. apply (entropy_pos l G b _ _ _ _ _ Hb Ok); now apply freq_min.
  - intro C. destruct (in_split v0 a (Ia v0 I0)) as (xs & ys & Ea).
    assert (Er2 : freq_row (length r) r a = freq_row (length r) r xs ++ quot (Z.of_nat (occurrences r v0)) (Z.of_nat (length r)) :: freq_row (length r) r ys).
    { unfold freq_row. rewrite Ea, map_app. reflexivity. }
    unfold h. rewrite Er2. destruct (freq_spec r v0 N ltac:(lia)) as (A & _ & D & _).
    refine (proj2 (entropy_zero l G b _ _ _ Hb _ P0 _)); [split; [exact A|exact D]|].
    unfold freq_row. rewrite <- map_app. apply Forall_forall. intros x I. apply in_map_iff in I as (v & <- & I).
    destruct (freq_spec r v N ltac:(lia)) as (Av & _ & _ & Ev & _). split; [exact Av|]. apply Ev. intro Iv.
    assert (v = v0) by (apply C; auto). subst v. rewrite Ea in Na. apply NoDup_remove_2 in Na. apply Na, I.
Qed.
(** ** Two symbols *)
Lemma occ_two r : Forall is_bit r -> (occurrences r 0 + occurrences r 1 = length r)%nat.
Proof.
  unfold occurrences. induction 1 as [|x r [-> | -> ] H IH]; cbn [count_occ length]; [reflexivity| |].
  - destruct (Z.eq_dec 0 0); [|easy]. destruct (Z.eq_dec 0 1); [easy|]. lia.
  - destruct (Z.eq_dec 1 0); [easy|]. destruct (Z.eq_dec 1 1); [|easy]. lia.
Qed.
Lemma two_sum (l : libm) r : Forall is_bit r -> r <> [] -> (Z.of_nat (length r) <= 2 ^ 53)%Z ->
  fin (fsum (Bops l) (freq_row (length r) r [0; 1]%Z)) /\ val (fsum (Bops l) (freq_row (length r) r [0; 1]%Z)) = 1.
Proof.
  intros W N B. destruct (freq_spec r 0%Z N B) as (F0 & V0 & R0 & _). destruct (freq_spec r 1%Z N B) as (F1 & V1 & R1 & _). cbv zeta in *.
  change (fsum (Bops l) (freq_row (length r) r [0; 1]%Z)) with
    (b64_add (b64_add (b64_z 0) (quot (Z.of_nat (occurrences r 0)) (Z.of_nat (length r)))) (quot (Z.of_nat (occurrences r 1)) (Z.of_nat (length r)))).
  set (p0 := quot (Z.of_nat (occurrences r 0)) (Z.of_nat (length r))) in *. set (p1 := quot (Z.of_nat (occurrences r 1)) (Z.of_nat (length r))) in *.
  destruct (z_spec 0 ltac:(lia)) as [Fz Vz]. pose proof big_1 as B1. pose proof (big_Z 2 ltac:(lia)) as B2. rewrite Rabs_pos_eq in B2 by lra.
  destruct (add_spec (b64_z 0) p0 Fz F0) as [Fa Va]; [rewrite Vz, Rabs_pos_eq; lra|]. rewrite Vz, Rplus_0_l, (rnd_id _ (fmt_val p0)) in Va.
  destruct (add_spec _ p1 Fa F1) as [Fs Vs]; [rewrite Va, Rabs_pos_eq; lra|]. split; [exact Fs|]. rewrite Vs, Va, V0, V1.
  assert (Pn : 0 < INR (length r)) by (apply lt_0_INR; destruct r; [easy|cbn; lia]).
  assert (E : INR (occurrences r 1) / INR (length r) = 1 - INR (occurrences r 0) / INR (length r)).
  { rewrite <- (occ_two r W) in Pn |- *. rewrite plus_INR in *. field. lra. }
  rewrite E. apply complement'. pose proof (pos_INR (occurrences r 0)). pose proof (pos_INR (occurrences r 1)).
  rewrite <- (occ_two r W) in Pn |- *. rewrite plus_INR in *. split; [apply Rmult_le_pos; [lra|left; now apply Rinv_0_lt_compat]|].
  apply (Rmult_le_reg_r (INR (occurrences r 0) + INR (occurrences r 1))); [lra|]. unfold Rdiv. rewrite Rmult_assoc, Rinv_l by lra. lra.
Qed.
Lemma freq_two r : Forall is_bit r -> freq_row (length r) r [0; 1]%Z =
  [quot (Z.of_nat (occurrences r 0)) (Z.of_nat (length r)); quot (Z.of_nat (length r) - Z.of_nat (occurrences r 0)) (Z.of_nat (length r))].
Proof. intro W. unfold freq_row. cbn [map]. do 2 f_equal. f_equal. rewrite <- (occ_two r W). lia. Qed.
Lemma freq_hell (l : libm) r s : Forall is_bit r -> Forall is_bit s -> r <> [] -> s <> [] -> (Z.of_nat (length r) * Z.of_nat (length s) <= 2 ^ 24)%Z ->
  exists x, hellinger_row (Bops l) (freq_row (length r) r [0; 1]%Z) (freq_row (length s) s [0; 1]%Z) = Ok x /\ fin x /\ 0 <= val x <= 1 /\
    (val x = 0 <-> (occurrences r 1 * length s = occurrences s 1 * length r)%nat).
Proof.
  intros Wr Ws Nr Ns B. rewrite !freq_two by assumption. pose proof (occ_le r 0) as Lr. pose proof (occ_le s 0) as Ls.
  assert (length r <> 0)%nat by (destruct r; easy). assert (length s <> 0)%nat by (destruct s; easy).
  destruct (hell_row l (Z.of_nat (occurrences r 0)) (Z.of_nat (length r)) (Z.of_nat (occurrences s 0)) (Z.of_nat (length s)) ltac:(lia) ltac:(lia) ltac:(lia) ltac:(lia) B)
    as (x & E & Fx & Rx & Zx & _). exists x. split; [exact E|]. split; [exact Fx|]. split; [exact Rx|]. rewrite Zx.
  pose proof (occ_two r Wr). pose proof (occ_two s Ws). split; intro; nia.
Qed.
