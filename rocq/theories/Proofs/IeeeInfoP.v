(** Lemmas about sums, entropies and distances in double precision. *)
From Coq Require Import List NArith ZArith Reals Bool Lia Lra.
From Flocq Require Import Core IEEE754.BinarySingleNaN.
From Verif.Model Require Import Py Float InfoTheory.
From Verif.Spec Require Import RealOps IeeeOps.
From Verif.Proofs Require Import IeeeP.
Import ListNotations.
Open Scope R_scope.

Definition within (m : Z) (x : b64) : Prop := fin x /\ 0 <= val x <= IZR m.

Lemma big_53 x : 0 <= x <= IZR (2 ^ 53) -> Rabs x <= big.
Proof.
  intro H. rewrite Rabs_pos_eq by lra. apply Rle_trans with (IZR (2 ^ 53)); [lra|]. rewrite <- (Rabs_pos_eq (IZR (2 ^ 53))) by (apply IZR_le; lia).
  apply big_Z. lia.
Qed.

(** ** Sums *)
Lemma fold_add m l : (0 <= m)%Z -> Forall (within m) l -> forall a k, within k a -> (0 <= k)%Z -> (k + m * Z.of_nat (length l) <= 2 ^ 53)%Z ->
  let s := fold_left b64_add l a in
  within (k + m * Z.of_nat (length l)) s /\ val a <= val s /\ (forall x, In x l -> val x <= val s) /\
  (forall x, In x l -> rnd (val a + val x) <= val s).
Proof.
  intros Hm F. induction F as [|x l [Fx Rx] F IH]; intros a k [Fa Ra] Hk B s.
  - cbn in s. subst s. replace (k + m * Z.of_nat (length (@nil b64)))%Z with k by (cbn; lia).
    repeat split; try tauto; try lra; intros ? [].
  - assert (Bl : (k + m <= 2 ^ 53)%Z) by (cbn [length] in B; nia).
    destruct (add_spec a x Fa Fx) as [Fs Vs].
    { apply big_53. apply IZR_le in Bl. rewrite plus_IZR in Bl. lra. }
    assert (Ws : within (k + m) (b64_add a x)).
    { split; [exact Fs|]. rewrite Vs. split; [apply rnd_ge; [apply fmt_0|lra]|]. apply rnd_le'; [apply fmt_IZR; lia|]. rewrite plus_IZR. lra. }
    destruct (IH (b64_add a x) (k + m)%Z Ws ltac:(lia) ltac:(cbn [length] in B; nia)) as (W & L1 & L2 & L3).
    change (fold_left b64_add (x :: l) a) with (fold_left b64_add l (b64_add a x)) in s. fold s in W, L1, L2, L3.
    assert (La : val a <= val (b64_add a x)) by (rewrite Vs; apply rnd_ge; [apply fmt_val|lra]).
    assert (Lx : val x <= val (b64_add a x)) by (rewrite Vs; apply rnd_ge; [apply fmt_val|lra]).
    split; [|split; [lra|split]].
    + replace (k + m * Z.of_nat (length (x :: l)))%Z with (k + m + m * Z.of_nat (length l))%Z by (cbn [length]; lia). exact W.
    + intros y [<-|I]; [lra|auto].
    + intros y [<-|I]; [rewrite <- Vs; lra|]. eapply Rle_trans; [|apply L3, I]. apply rnd_le. lra.
Qed.
Lemma zero_within k : (0 <= k)%Z -> within k (b64_z 0).
Proof. intro H. destruct (z_spec 0) as [A B]; [lia|]. split; [exact A|]. rewrite B. apply IZR_le in H. lra. Qed.
Lemma val_0 : val (b64_z 0) = 0.
Proof. apply z_spec. lia. Qed.
Lemma fsum_spec (l : libm) m xs : (0 <= m)%Z -> Forall (within m) xs -> (m * Z.of_nat (length xs) <= 2 ^ 53)%Z ->
  let s := fsum (Bops l) xs in
  within (m * Z.of_nat (length xs)) s /\ (forall x, In x xs -> val x <= val s).
Proof.
  intros Hm F B s. destruct (fold_add m xs Hm F (b64_z 0) 0%Z (zero_within 0 ltac:(lia)) ltac:(lia) ltac:(lia)) as (W & _ & L & _).
  split; [exact W|exact L].
Qed.
(** Two positions. *)
Lemma fsum_two (l : libm) m xs ys zs x y : (0 <= m)%Z -> Forall (within m) (xs ++ x :: ys ++ y :: zs) ->
  (m * Z.of_nat (length (xs ++ x :: ys ++ y :: zs)) <= 2 ^ 53)%Z ->
  rnd (val x + val y) <= val (fsum (Bops l) (xs ++ x :: ys ++ y :: zs)).
Proof.
  intros Hm F B. unfold fsum. change (fadd (Bops l)) with b64_add. change (fz (Bops l) 0) with (b64_z 0).
  rewrite fold_left_app. cbn [fold_left].
  apply Forall_app in F as [F1 F2]. rewrite app_length in B. cbn [length] in B.
  destruct (fold_add m xs Hm F1 (b64_z 0) 0%Z (zero_within 0 ltac:(lia)) ltac:(lia) ltac:(nia)) as (W1 & _ & _ & _).
  set (a := fold_left b64_add xs (b64_z 0)) in *. cbn [app] in F2. inversion F2 as [|? ? [Fx Rx] F3]; subst.
  assert (Wx : Forall (within m) [x]) by (constructor; [split; auto|constructor]).
  destruct (fold_add m [x] Hm Wx a _ W1 ltac:(nia) ltac:(cbn [length]; nia)) as (W2 & _ & L2 & _). cbn [fold_left] in W2, L2.
  destruct (fold_add m (ys ++ y :: zs) Hm F3 (b64_add a x) _ W2 ltac:(nia) ltac:(cbn [length]; nia)) as (_ & _ & _ & L3).
  eapply Rle_trans; [|apply (L3 y)]; [|apply in_or_app; right; now left]. apply rnd_le. specialize (L2 x (or_introl eq_refl)). lra.
Qed.
(** One positive entry. *)
Lemma fold_zeros l a : fin a -> Rabs (val a) <= big -> Forall (fun x => fin x /\ val x = 0) l -> fin (fold_left b64_add l a) /\ val (fold_left b64_add l a) = val a.
Proof.
  revert a; induction l as [|x l IH]; intros a Fa Ba F; [cbn; auto|]. inversion F as [|? ? [Fx Vx] F']; subst. cbn [fold_left].
  destruct (add_spec a x Fa Fx) as [Fs Vs]; [rewrite Vx, Rplus_0_r; exact Ba|]. rewrite Vx, Rplus_0_r, (rnd_id _ (fmt_val a)) in Vs.
  rewrite <- Vs. apply IH; auto. now rewrite Vs.
Qed.
Lemma fsum_one (l : libm) xs x ys : fin x -> Rabs (val x) <= big -> Forall (fun x => fin x /\ val x = 0) (xs ++ ys) ->
  fin (fsum (Bops l) (xs ++ x :: ys)) /\ val (fsum (Bops l) (xs ++ x :: ys)) = val x.
Proof.
  intros Fx Bx F. apply Forall_app in F as [F1 F2]. unfold fsum. rewrite fold_left_app. cbn [fold_left].
  change (fadd (Bops l)) with b64_add. change (fz (Bops l) 0) with (b64_z 0).
  assert (F0 : fin (b64_z 0)) by (apply z_spec; lia).
  destruct (fold_zeros xs (b64_z 0) F0) as [A B]; [rewrite val_0, Rabs_R0; left; apply big_pos|exact F1|]. rewrite val_0 in B.
  destruct (add_spec _ x A Fx) as [C D]; [rewrite B, Rplus_0_l; exact Bx|]. rewrite B, Rplus_0_l, (rnd_id _ (fmt_val x)) in D.
  rewrite <- D. apply fold_zeros; auto. now rewrite D.
Qed.

(** ** Entropy *)
Section Entropy.
Variable l : libm.
Hypothesis G : good_log l.
Notation O := (Bops l).

Lemma quot_le (x s : b64) : fin x -> 0 <= val x <= val s -> 0 < val s -> fin (b64_div x s) /\ val (b64_div x s) = rnd (val x / val s) /\ 0 <= val (b64_div x s) <= 1.
Proof.
  intros Fx [H0 H1] Hs.
  assert (R : 0 <= val x / val s <= 1).
  { split; [apply Rmult_le_pos; [lra|left; now apply Rinv_0_lt_compat]|]. apply (Rmult_le_reg_r (val s)); [lra|].
    unfold Rdiv. rewrite Rmult_assoc, Rinv_l by lra. lra. }
  destruct (div_spec x s Fx) as [A B]; [lra|rewrite Rabs_pos_eq by lra; pose proof big_1; lra|].
  split; [exact A|]. split; [exact B|]. rewrite B. split; [apply rnd_ge; [apply fmt_0|lra]|apply rnd_le'; [apply (fmt_IZR 1); lia|lra]].
Qed.
Lemma entr_zero x : fin x -> val x = 0 \/ val x = 1 -> fin (entr O x) /\ val (entr O x) = 0.
Proof.
  intros Fx H. unfold entr. change (flt O) with (@Bltb 53 1024). change (fz O 0) with (b64_z 0).
  destruct (z_spec 0 ltac:(lia)) as [F0 V0]. destruct (Bltb (b64_z 0) x) eqn:E; [|split; [exact F0|exact V0]].
  apply ltb_spec in E; auto. rewrite V0 in E. destruct H as [H|H]; [lra|].
  destruct (G x Fx ltac:(lra)) as (A & _ & B & C & _). assert (Z : val (l_log l x) = 0) by (apply Rle_antisym; [apply B; lra|apply C; lra]).
  change (fneg O) with (@Bopp 53 1024). change (fmul O) with b64_mul. change (flog O) with (l_log l).
  destruct (mul_spec x (l_log l x) Fx A) as [M1 M2]; [rewrite Z, Rmult_0_r, Rabs_R0; left; apply big_pos|].
  rewrite Z, Rmult_0_r, rnd_0 in M2. destruct (opp_spec _ M1) as [N1 N2]. split; [exact N1|]. rewrite N2, M2. lra.
Qed.
Lemma entr_within x : fin x -> 0 <= val x <= 1 -> within 1000 (entr O x).
Proof.
  intros Fx H. destruct (Rle_lt_or_eq_dec 0 (val x) (proj1 H)) as [P|Z]; [|destruct (entr_zero x Fx (or_introl (eq_sym Z))) as [A B]; split; [exact A|]; rewrite B; lra].
  unfold entr. change (flt O) with (@Bltb 53 1024). change (fz O 0) with (b64_z 0).
  destruct (z_spec 0 ltac:(lia)) as [F0 V0].
  assert (E : Bltb (b64_z 0) x = true) by (apply ltb_spec; auto; rewrite V0; exact P). rewrite E.
  change (fneg O) with (@Bopp 53 1024). change (fmul O) with b64_mul. change (flog O) with (l_log l).
  destruct (G x Fx P) as (A & B & C & _). specialize (C (proj2 H)). apply Rabs_le_inv in B.
  assert (R : -1000 <= val x * val (l_log l x) <= 0) by nra.
  destruct (mul_spec x (l_log l x) Fx A) as [M1 M2].
  { rewrite <- Rabs_Ropp, Rabs_pos_eq by lra. apply Rle_trans with 1000; [lra|]. rewrite <- (Rabs_pos_eq 1000) by lra. apply big_Z. lia. }
  destruct (opp_spec _ M1) as [N1 N2]. split; [exact N1|]. rewrite N2, M2.
  assert (rnd (val x * val (l_log l x)) <= 0) by (apply rnd_le'; [apply fmt_0|lra]).
  assert (-1000 <= rnd (val x * val (l_log l x))) by (apply rnd_ge; [apply (fmt_IZR (-1000)); lia|lra]). lra.
Qed.
Lemma entr_pos x e : fin x -> (-300 <= e)%Z -> bpow radix2 e <= val x <= / 2 -> bpow radix2 (e - 1) <= val (entr O x).
Proof.
  intros Fx He [H0 H1]. pose proof (bpow_gt_0 radix2 e) as Pe.
  unfold entr. change (flt O) with (@Bltb 53 1024). change (fz O 0) with (b64_z 0).
  destruct (z_spec 0 ltac:(lia)) as [F0 V0].
  assert (E : Bltb (b64_z 0) x = true) by (apply ltb_spec; auto; rewrite V0; lra). rewrite E.
  change (fneg O) with (@Bopp 53 1024). change (fmul O) with b64_mul. change (flog O) with (l_log l).
  destruct (G x Fx ltac:(lra)) as (A & B & C & _ & D & _). specialize (D H1). apply Rabs_le_inv in B.
  assert (R : -1000 <= val x * val (l_log l x) <= - (val x * / 2)) by nra.
  destruct (mul_spec x (l_log l x) Fx A) as [M1 M2].
  { rewrite <- Rabs_Ropp, Rabs_pos_eq by nra. apply Rle_trans with 1000; [lra|]. rewrite <- (Rabs_pos_eq 1000) by lra. apply big_Z. lia. }
  destruct (opp_spec _ M1) as [N1 N2]. rewrite N2, M2, <- rnd_opp. apply rnd_ge; [apply generic_format_bpow; unfold FLT_exp; lia|].
  replace (e - 1)%Z with (e + -1)%Z by lia. rewrite bpow_plus. change (bpow radix2 (-1)) with (/ 2). nra.
Qed.

Lemma base_log b : (2 <= b <= 2 ^ 53)%Z -> fin (l_log l (b64_z b)) /\ / 2 <= val (l_log l (b64_z b)) <= 1000.
Proof.
  intro Hb. destruct (z_spec b ltac:(lia)) as [A B]. assert (2 <= IZR b) by (apply IZR_le; lia).
  destruct (G (b64_z b) A ltac:(lra)) as (F1 & F2 & _ & _ & _ & F3). apply Rabs_le_inv in F2. rewrite B in F3. split; [exact F1|]. specialize (F3 ltac:(lra)). lra.
Qed.

Definition terms (s : b64) (pk : list b64) : list b64 := map (fun x => entr O (b64_div x s)) pk.
Lemma row_entropy_eq b pk : row_entropy O b pk = b64_div (fsum O (terms (fsum O pk) pk)) (l_log l (b64_z b)).
Proof. reflexivity. Qed.
(** The rows entropies are taken of. *)
Definition positive (x : b64) : Prop := 0 < val x.
Definition row_ok (pk : list b64) : Prop :=
  Forall (within 1) pk /\ (Z.of_nat (length pk) <= 2 ^ 40)%Z.
Lemma entropy_within b pk x : (2 <= b <= 2 ^ 53)%Z -> row_ok pk -> In x pk -> 0 < val x ->
  fin (row_entropy O b pk) /\ 0 <= val (row_entropy O b pk) <= IZR (2 ^ 52).
Proof.
  intros Hb [F L] I P. rewrite row_entropy_eq.
  destruct (fsum_spec l 1 pk ltac:(lia) F ltac:(lia)) as ((Fs & Rs) & Ls). set (s := fsum O pk) in *.
  pose proof (Ls x I) as Lx.
  assert (Fe : Forall (within 1000) (terms s pk)).
  { apply Forall_forall. intros e Ie. apply in_map_iff in Ie as (y & <- & Iy). rewrite Forall_forall in F. destruct (F y Iy) as [Fy Ry].
    destruct (quot_le y s Fy) as (A & _ & B); [split; [lra|now apply Ls]|lra|]. now apply entr_within. }
  destruct (fsum_spec l 1000 _ ltac:(lia) Fe) as ((Fh & Rh) & _); [unfold terms; rewrite map_length; lia|].
  
  set (h := fsum O (terms s pk)) in *. destruct (base_log b Hb) as [Fl Rl].
  assert (Hh : 0 <= val h <= IZR (2 ^ 51)).
  { split; [lra|]. apply Rle_trans with (1 := proj2 Rh). apply IZR_le. unfold terms; rewrite map_length. lia. }
  assert (Q : 0 <= val h / val (l_log l (b64_z b)) <= IZR (2 ^ 52)).
  { assert (/ val (l_log l (b64_z b)) <= 2) by (rewrite <- (Rinv_inv 2) at 1 || replace 2 with (/ / 2) by field; apply Rinv_le; lra).
    assert (0 < / val (l_log l (b64_z b))) by (apply Rinv_0_lt_compat; lra). unfold Rdiv.
    change (IZR (2 ^ 52)) with (IZR (2 ^ 51 * 2)). rewrite mult_IZR. nra. }
  destruct (div_spec h (l_log l (b64_z b)) Fh) as [A B]; [lra|apply big_53; split; [lra|]; eapply Rle_trans; [apply Q|apply IZR_le; lia]|].
  split; [exact A|]. rewrite B. split; [apply rnd_ge; [apply fmt_0|lra]|apply rnd_le'; [apply fmt_IZR; lia|lra]].
Qed.
Lemma entropy_zero b xs x ys : (2 <= b <= 2 ^ 53)%Z -> within 1 x -> 0 < val x -> Forall (fun x => fin x /\ val x = 0) (xs ++ ys) ->
  fin (row_entropy O b (xs ++ x :: ys)) /\ val (row_entropy O b (xs ++ x :: ys)) = 0.
Proof.
  intros Hb [Fx Rx] P F. rewrite row_entropy_eq.
  assert (Bx : Rabs (val x) <= big) by (rewrite Rabs_pos_eq by lra; pose proof big_1; lra).
  destruct (fsum_one l xs x ys Fx Bx F) as [Fs Vs]. set (s := fsum O (xs ++ x :: ys)) in *.
  assert (Z : forall zs, Forall (fun x => fin x /\ val x = 0) zs -> Forall (fun x => fin x /\ val x = 0) (terms s zs)).
  { intros zs Fz. apply Forall_forall. intros e Ie. apply in_map_iff in Ie as (y & <- & Iy). rewrite Forall_forall in Fz. destruct (Fz y Iy) as [Fy Vy].
    destruct (quot_le y s Fy) as (A & B & _); [lra|lra|]. apply entr_zero; [exact A|]. left. rewrite B, Vy. unfold Rdiv. rewrite Rmult_0_l. apply rnd_0. }
  apply Forall_app in F as [F1 F2].
  destruct (quot_le x s Fx) as (A & B & _); [lra|lra|]. rewrite Vs in B. unfold Rdiv in B. rewrite Rinv_r, rnd_1 in B by lra.
  destruct (entr_zero _ A (or_intror B)) as [Fe Ve].
  assert (X : fin (fsum O (terms s (xs ++ x :: ys))) /\ val (fsum O (terms s (xs ++ x :: ys))) = val (entr O (b64_div x s))).
  { unfold terms. rewrite map_app. cbn [map]. apply (fsum_one l (terms s xs) (entr O (b64_div x s)) (terms s ys) Fe).
    - rewrite Ve, Rabs_R0. left. apply big_pos.
    - apply Forall_app. split; now apply Z. }
  destruct X as [Fh Vh]. set (h := fsum O (terms s (xs ++ x :: ys))) in *. destruct (base_log b Hb) as [Fl Rl]. rewrite Ve in Vh.
  destruct (div_spec h (l_log l (b64_z b)) Fh) as [Fd Vd]; [lra| |].
  { rewrite Vh. unfold Rdiv. rewrite Rmult_0_l, Rabs_R0. left. apply big_pos. }
  split; [exact Fd|]. rewrite Vd, Vh. unfold Rdiv. rewrite Rmult_0_l. apply rnd_0.
Qed.
Lemma entropy_pos b xs x ys y zs : (2 <= b <= 2 ^ 53)%Z -> row_ok (xs ++ x :: ys ++ y :: zs) ->
  bpow radix2 (-200) <= val x -> bpow radix2 (-200) <= val y -> 0 < val (row_entropy O b (xs ++ x :: ys ++ y :: zs)).
Proof.
  intros Hb [F L] Px Py. rewrite row_entropy_eq. set (pk := xs ++ x :: ys ++ y :: zs) in *.
  assert (Ix : In x pk) by (apply in_or_app; right; now left).
  assert (Iy : In y pk) by (apply in_or_app; right; right; apply in_or_app; right; now left).
  destruct (fsum_spec l 1 pk ltac:(lia) F ltac:(lia)) as ((Fs & Rs) & Ls).
  assert (T : rnd (val x + val y) <= val (fsum O pk)) by (apply (fsum_two l 1); [lia|exact F|fold pk; lia]).
  set (s := fsum O pk) in *. pose proof (bpow_gt_0 radix2 (-200)) as P0.
  assert (Fe : Forall (within 1000) (terms s pk)).
  { apply Forall_forall. intros e Ie. apply in_map_iff in Ie as (z & <- & Iz). rewrite Forall_forall in F. destruct (F z Iz) as [Fz Rz].
    destruct (quot_le z s Fz) as (A & _ & B); [split; [lra|now apply Ls]|specialize (Ls x Ix); lra|]. now apply entr_within. }
  destruct (fsum_spec l 1000 _ ltac:(lia) Fe) as ((Fh & Rh) & Lh); [unfold terms; rewrite map_length; lia|].
  
  set (h := fsum O (terms s pk)) in *. destruct (base_log b Hb) as [Fl Rl].
  assert (M : exists z, In z pk /\ bpow radix2 (-200) <= val z /\ 2 * val z <= val s).
  { rewrite Forall_forall in F.
    assert (D : forall z : b64, fin z -> val z <= 1 -> 0 < val z -> fmt (2 * val z)).
    { intros z Fz H1 H2. pose proof (fmt_val z) as Q.
      apply FLT_format_generic in Q; [|reflexivity]. destruct Q as [f Q1 Q2 Q3]. apply generic_format_FLT.
      exists (Float radix2 (Fnum f) (Fexp f + 1)); [|exact Q2|cbn; lia]. rewrite Q1. unfold F2R. cbn [Fnum Fexp]. rewrite bpow_plus.
      change (bpow radix2 1) with 2. ring. }
    destruct (F x Ix) as [Fx Rx]. destruct (F y Iy) as [Fy Ry].
    destruct (Rle_dec (val x) (val y)) as [C|C].
    - exists x. split; [exact Ix|]. split; [exact Px|]. eapply Rle_trans; [|exact T]. apply rnd_ge; [apply D; auto; lra|lra].
    - exists y. split; [exact Iy|]. split; [exact Py|]. eapply Rle_trans; [|exact T]. apply rnd_ge; [apply D; auto; lra|lra]. }
  destruct M as (z & Iz & Pz & Sz). rewrite Forall_forall in F. destruct (F z Iz) as [Fz Rz].
  destruct (quot_le z s Fz) as (A & B & C); [lra|lra|].
  assert (Ps : 0 < val s) by lra.
  assert (Q : bpow radix2 (-240) <= val z / val s <= / 2).
  { split.
    - apply (Rmult_le_reg_r (val s)); [lra|]. unfold Rdiv. rewrite Rmult_assoc, Rinv_l by lra. rewrite Rmult_1_r.
      eapply Rle_trans; [|exact Pz]. change (bpow radix2 (-200)) with (bpow radix2 (-240 + 40)). rewrite bpow_plus.
      apply Rmult_le_compat_l; [apply bpow_ge_0|]. eapply Rle_trans; [apply Rs|]. change (bpow radix2 40) with (IZR (2 ^ 40)). apply IZR_le. lia.
    - apply (Rmult_le_reg_r (val s)); [lra|]. unfold Rdiv. rewrite Rmult_assoc, Rinv_l by lra. lra. }
  assert (Q' : bpow radix2 (-240) <= val (b64_div z s) <= / 2).
  { rewrite B. split; [apply rnd_ge; [apply generic_format_bpow; cbn; lia|apply Q]|].
    apply rnd_le'; [apply (generic_format_bpow radix2 (FLT_exp (-1074) 53) (-1)); cbn; lia|apply Q]. }
  pose proof (entr_pos _ (-240) A ltac:(lia) Q') as E.
  assert (Hh : bpow radix2 (-241) <= val h).
  { eapply Rle_trans; [exact E|]. apply Lh. apply in_map_iff. exists z. auto. }
  assert (Rq : bpow radix2 (-251) <= val h / val (l_log l (b64_z b))).
  { change (bpow radix2 (-251)) with (bpow radix2 (-241 + -10)). rewrite bpow_plus.
    apply Rmult_le_compat; [apply bpow_ge_0|apply bpow_ge_0|exact Hh|]. change (bpow radix2 (-10)) with (/ 1024). apply Rinv_le; lra. }
  destruct (div_spec h (l_log l (b64_z b)) Fh) as [Fd Vd]; [lra| |].
  { pose proof (bpow_gt_0 radix2 (-251)). apply big_53. split; [lra|].
    assert (/ val (l_log l (b64_z b)) <= 2) by (replace 2 with (/ / 2) by field; apply Rinv_le; lra).
    assert (0 < / val (l_log l (b64_z b))) by (apply Rinv_0_lt_compat; lra).
    assert (val h <= IZR (2 ^ 52)) by (apply Rle_trans with (1 := proj2 Rh); apply IZR_le; unfold terms; rewrite map_length; lia).
    change (IZR (2 ^ 53)) with (IZR (2 ^ 52 * 2)). rewrite mult_IZR. unfold Rdiv. pose proof (bpow_gt_0 radix2 (-241)). nra. }
  rewrite Vd. apply Rlt_le_trans with (bpow radix2 (-251)); [apply bpow_gt_0|]. apply rnd_ge; [apply generic_format_bpow; cbn; lia|exact Rq].
Qed.
End Entropy.
