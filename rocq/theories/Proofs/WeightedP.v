(** Lemmas about EntropyBitwiseWeightedDecoder. *)
From Coq Require Import List ZArith NArith Reals Lra Bool Lia Arith Sorted.
From Verif.Model Require Import Py Float InfoTheory Clustering Segmentation DecoderBase WeightedDecoder.
From Verif.Spec Require Import RealOps Info Cluster Stats EmleSpec DecoderSpec WeightedSpec.
From Verif.Proofs Require Import Base RealP StatReal InfoP EntropyP PerfP ClusterP ClusterH ClusterR EmleP TurboP DecoderP EntropyDecP.
Import ListNotations.
Local Close Scope R_scope.

(** ** Learning from stored buffers *)
Lemma share_list_unit n data : data <> [] -> Forall (bits_of_length n) data -> Forall (fun x => (0 <= x <= 1)%R) (map (share data 1) (seq 0 n)).
Proof. intros N H. apply Forall_forall. intros x Hx. apply in_map_iff in Hx. destruct Hx as (i & <- & Hi). apply in_seq in Hi. apply (share_unit n); auto. lia. Qed.
Lemma estimates_unit cr f n data : data <> [] -> Forall (bits_of_length n) data -> Forall (fun x => (0 <= x <= 1)%R) (map (bit_estimate cr f data) (seq 0 n)).
Proof.
  intros N H. apply Forall_forall. intros x Hx. apply in_map_iff in Hx. destruct Hx as (i & <- & Hi). apply in_seq in Hi. unfold bit_estimate. destruct cr; [apply unflipped_unit|].
  apply (share_unit n); auto. lia.
Qed.
Lemma finish_R m ps : ps <> [] -> Forall (fun x => (0 <= x <= 1)%R) ps -> wm_rows Rops m = map (fun p => [1 - p; p]%R) ps ->
  w_finish Rops m ps = (WM Rops (wm_data Rops m) (wm_ones Rops m) (wm_zeros Rops m) (map (fun p => [1 - p; p]%R) ps) (wm_cols Rops m) (map bit_entropy ps) (wm_var Rops m), Ok tt).
Proof.
  intros N H E. unfold w_finish. rewrite (check_unit ps N H). cbn [bind entropy]. change (F Rops) with R in *. rewrite E. rewrite map_map.
  assert (Eh : map (fun x => row_entropy Rops 2 [(1 - x)%R; x]) ps = map bit_entropy ps).
  { apply map_ext_in. intros p Hi. apply shannon_bit. rewrite Forall_forall in H. exact (H p Hi). }
  exact (f_equal (fun h => (WM Rops (wm_data Rops m) (wm_ones Rops m) (wm_zeros Rops m) (map (fun p => [1 - p; p]%R) ps) (wm_cols Rops m) h (wm_var Rops m), Ok tt)) Eh).
Qed.
Lemma mixed_nonempty data : mixed data -> data <> [].
Proof. intros [M _] ->. exact M. Qed.

Lemma mle_learn c m h bits : w_bayes Rops c = false -> 1 <= w_length Rops c -> Forall (bits_of_length (w_length Rops c)) (h ++ [bits]) -> wm_data Rops m = kept (w_window Rops c) h ->
  let data := kept (w_window Rops c) (h ++ [bits]) in
  let ps := map (bit_estimate (w_corrected Rops c) (w_flip Rops c) data) (seq 0 (w_length Rops c)) in
  (mixed data -> exists m', w_update Rops c m bits = (m', Ok tt) /\ wm_data Rops m' = data /\ w_knows m' ps (bernoulli_spread ps)) /\
  (~ mixed data -> exists m', w_update Rops c m bits = (m', Err IndexError) /\ wm_data Rops m' = data /\ wm_cols Rops m' <= 1 /\
     wm_entropy Rops m' = wm_entropy Rops m /\ wm_var Rops m' = wm_var Rops m).
Proof.
  intros Hy Hn H E. set (n := w_length Rops c) in *. cbn zeta. unfold w_update. assert (Hb : bits_of_length n bits) by (rewrite Forall_forall in H; apply H, in_or_app; right; left; reflexivity).
  fold n. rewrite (proj1 Hb), Nat.eqb_refl, Hy. cbn [negb]. rewrite E.
  assert (Hl : Forall (fun b : list Z => length b = n) h). { apply Forall_app in H. apply bits_lengths, H. }
  rewrite (append_buffer_kept _ h bits n) by auto. set (data := kept (w_window Rops c) (h ++ [bits])).
  assert (Hd : Forall (bits_of_length n) data). { apply Forall_forall. intros b Hi. rewrite Forall_forall in H. apply H, (kept_incl (w_window Rops c)), Hi. }
  pose proof (data_prob_R n data (bits_lengths _ _ Hd)) as P. change (F Rops) with R in *. rewrite P. split.
  - intro M. rewrite (unique_mixed n) by auto. cbn [length]. unfold column. cbn [Nat.ltb Nat.leb]. rewrite !map_map. cbn [map nth].
    pose proof (mixed_nonempty data M) as Nd. set (f := w_flip Rops c). set (cr := w_corrected Rops c).
    assert (Ep : (if cr then map (fun x => corrected Rops f (share data 1 x)) (seq 0 n) else map (fun x => share data 1 x) (seq 0 n)) = map (bit_estimate cr f data) (seq 0 n)).
    { destruct cr; apply map_ext; intro i; [apply corrected_R|reflexivity]. }
    change (F Rops) with R in *. rewrite Ep. set (ps := map (bit_estimate cr f data) (seq 0 n)).
    assert (Er : (if cr then map (fun p => [fsub Rops (fz Rops 1) p; p]) ps else map (fun i => [share data 0 i; share data 1 i]) (seq 0 n)) = map (fun p => [1 - p; p]%R) ps).
    { destruct cr eqn:Cr; [reflexivity|]. unfold ps. rewrite map_map. apply map_ext_in. intros i Hi. apply in_seq in Hi. unfold bit_estimate. rewrite (share_complement n data i) by (auto; lia). reflexivity. }
    change (F Rops) with R in *. rewrite Er. replace (if cr then 2 else 2) with 2 by (destruct cr; reflexivity).
    rewrite finish_R; [|unfold ps; destruct n; [lia|discriminate]|apply estimates_unit; auto|reflexivity]. cbn [wm_data wm_ones wm_zeros wm_rows wm_cols wm_var].
    eexists. split; [reflexivity|]. split; [reflexivity|]. split; [reflexivity|]. split; [reflexivity|]. split; [reflexivity|]. cbn [wm_var]. f_equal. unfold bernoulli_spread.
    rewrite <- (fmean_R (map (fun p => (p - p * p)%R) ps)). reflexivity.
  - intro M. set (u := unique (concat (data_rows n data))) in *. assert (Hu : length u <= 1).
    { unfold u. destruct data as [|b t] eqn:Ed.
      - assert (E0 : data_rows n [] = repeat [] n). { unfold data_rows. cbn [map]. rewrite map_const_R, seq_length. reflexivity. }
        rewrite E0. assert (E1 : concat (repeat (@nil Z) n) = []) by (clear; induction n; [reflexivity|cbn; auto]). rewrite E1. cbn. lia.
      - destruct (unique_constant n (b :: t) Hd ltac:(discriminate) Hn M) as (v & _ & _ & ->). cbn. lia. }
    assert (Ec : forall rows, column rows (length u) 1 (fz Rops 0) = Err IndexError).
    { intro rows. unfold column. destruct (Nat.ltb_spec 1 (length u)); [lia|reflexivity]. }
    change (F Rops) with R in *. rewrite Ec. eexists. split; [reflexivity|]. cbn [wm_data wm_cols wm_entropy wm_var]. auto.
Qed.

(** ** Learning by counting *)
Definition added (ones bits : list Z) (n : nat) : list Z := map (fun i => nth i ones 0 + nth i bits 0)%Z (seq 0 n).
Definition unadded (zeros bits : list Z) (n : nat) : list Z := map (fun i => nth i zeros 0 + (1 - nth i bits 0))%Z (seq 0 n).
Lemma nth_positive n l i : length l = n -> Forall (fun x => 0 < x)%Z l -> i < n -> (0 < nth i l 0)%Z.
Proof. intros L H Hi. rewrite Forall_forall in H. apply H, nth_In. lia. Qed.
Lemma index_nth (l : list Z) i : i < length l -> index l i = Ok (nth i l 0%Z).
Proof. intro H. unfold index. rewrite (nth_error_nth' l 0%Z H). reflexivity. Qed.
Lemma gcd_quotient a b : (0 < a)%Z -> (0 < b)%Z -> (0 < Z.gcd a b)%Z /\ (0 < a / Z.gcd a b)%Z /\ (0 < b / Z.gcd a b)%Z.
Proof.
  intros Ha Hb. pose proof (Z.gcd_nonneg a b) as G0. assert (G : Z.gcd a b <> 0%Z) by (intro E; apply Z.gcd_eq_0_l in E; lia).
  destruct (Z.gcd_divide_l a b) as [p Hp]. destruct (Z.gcd_divide_r a b) as [q Hq]. split; [lia|]. split.
  - rewrite Hp at 1. rewrite Z.div_mul by exact G. nia.
  - rewrite Hq at 1. rewrite Z.div_mul by exact G. nia.
Qed.
Lemma map_as_seq (f : Z -> Z) l : map f l = map (fun i => f (nth i l 0%Z)) (seq 0 (length l)).
Proof. induction l as [|x t IH]; [reflexivity|]. cbn [map length seq nth]. f_equal. rewrite IH, <- seq_shift, map_map. reflexivity. Qed.

Lemma reduce_spec n w ones zeros : 1 <= n -> priors n ones zeros -> exists ones' zeros', w_reduce w ones zeros = Ok (ones', zeros') /\ priors n ones' zeros' /\ reduced w ones zeros ones' zeros'.
Proof.
  intros Hn (Lo & Lz & Fo & Fz). unfold w_reduce, reduced. rewrite !index_nth by lia. cbn [bind].
  assert (P : forall i, i < n -> let d := Z.gcd (nth i ones 0%Z) (nth i zeros 0%Z) in (0 < d /\ 0 < nth i ones 0 / d /\ 0 < nth i zeros 0 / d)%Z).
  { intros i Hi. apply gcd_quotient; eapply nth_positive; eauto. }
  destruct (Z.leb_spec (nth 0 ones 0 + nth 0 zeros 0)%Z (2 * w)%Z) as [Hs|Hs].
  { destruct (Z.ltb_spec (2 * w)%Z (nth 0 ones 0 + nth 0 zeros 0)%Z); [lia|]. exists ones, zeros. repeat split; auto. }
  destruct (Z.ltb_spec (2 * w)%Z (nth 0 ones 0 + nth 0 zeros 0)%Z); [|lia].
  rewrite (zip_with_as_seq Z.gcd ones zeros 0%Z 0%Z) by lia. rewrite Lo. set (g := map (fun i => Z.gcd (nth i ones 0%Z) (nth i zeros 0%Z)) (seq 0 n)).
  assert (Lg : length g = n) by (unfold g; rewrite map_length, seq_length; reflexivity).
  rewrite (zip_with_as_seq Z.div ones g 0%Z 0%Z), (zip_with_as_seq Z.div zeros g 0%Z 0%Z) by lia. rewrite Lo, Lz.
  assert (Ng : forall i, i < n -> nth i g 0%Z = Z.gcd (nth i ones 0%Z) (nth i zeros 0%Z)) by (intros i Hi; unfold g; rewrite nth_map_seq by exact Hi; reflexivity).
  set (o := map (fun i => nth i ones 0 / nth i g 0)%Z (seq 0 n)). set (z := map (fun i => nth i zeros 0 / nth i g 0)%Z (seq 0 n)).
  assert (Lo' : length o = n) by (unfold o; rewrite map_length, seq_length; reflexivity). assert (Lz' : length z = n) by (unfold z; rewrite map_length, seq_length; reflexivity).
  assert (No : forall i, i < n -> nth i o 0%Z = (nth i ones 0 / Z.gcd (nth i ones 0) (nth i zeros 0))%Z).
  { intros i Hi. unfold o. rewrite nth_map_seq by exact Hi. rewrite Ng by exact Hi. reflexivity. }
  assert (Nz : forall i, i < n -> nth i z 0%Z = (nth i zeros 0 / Z.gcd (nth i ones 0) (nth i zeros 0))%Z).
  { intros i Hi. unfold z. rewrite nth_map_seq by exact Hi. rewrite Ng by exact Hi. reflexivity. }
  rewrite !index_nth by lia. cbn [bind]. rewrite !No, !Nz by lia. destruct (P 0 ltac:(lia)) as (P0 & P1 & P2). set (o0 := (nth 0 ones 0 / Z.gcd (nth 0 ones 0) (nth 0 zeros 0))%Z) in *.
  set (z0 := (nth 0 zeros 0 / Z.gcd (nth 0 ones 0) (nth 0 zeros 0))%Z) in *.
  assert (Fo' : Forall (fun x => 0 < x)%Z o). { apply Forall_forall. intros x Hx. apply (In_nth _ _ 0%Z) in Hx. destruct Hx as (i & Hi & <-). rewrite No by lia. apply P. lia. }
  assert (Fz' : Forall (fun x => 0 < x)%Z z). { apply Forall_forall. intros x Hx. apply (In_nth _ _ 0%Z) in Hx. destruct Hx as (i & Hi & <-). rewrite Nz by lia. apply P. lia. }
  destruct (Z.ltb_spec (o0 + z0)%Z w) as [Hw|Hw].
  - assert (K : (0 < w / o0 + z0)%Z). { assert (0 <= w / o0)%Z by (apply Z.div_pos; lia). lia. }
    exists (map (fun x => x * (w / o0 + z0))%Z o), (map (fun x => x * (w / o0 + z0))%Z z). split; [reflexivity|]. split.
    { split; [rewrite map_length; exact Lo'|]. split; [rewrite map_length; exact Lz'|]. split; apply Forall_forall; intros x Hx; apply in_map_iff in Hx; destruct Hx as (y & <- & Hy).
      - rewrite Forall_forall in Fo'. specialize (Fo' y Hy). nia. - rewrite Forall_forall in Fz'. specialize (Fz' y Hy). nia. }
    exists (w / o0 + z0)%Z. split; [exact K|]. rewrite !map_length. split; [lia|]. split; [lia|]. split; [lia|]. split; [reflexivity|]. intros i Hi. cbn zeta.
    rewrite (map_as_seq _ o), (map_as_seq _ z), Lo', Lz', !nth_map_seq by exact Hi. rewrite No, Nz by exact Hi. split; ring.
  - exists o, z. split; [reflexivity|]. split; [repeat split; auto|]. exists 1%Z. split; [lia|]. split; [lia|]. split; [lia|]. split; [reflexivity|]. split; [lia|].
    intros i Hi. cbn zeta. rewrite No, Nz by exact Hi. split; ring.
Qed.
Lemma bit_range n bits i : bits_of_length n bits -> i < n -> (0 <= nth i bits 0 <= 1)%Z.
Proof. intros [L H] Hi. rewrite Forall_forall in H. destruct (H (nth i bits 0%Z)) as [->| ->]; [apply nth_In|..]; lia. Qed.
Lemma added_priors n ones zeros bits : priors n ones zeros -> bits_of_length n bits -> priors n (added ones bits n) (unadded zeros bits n).
Proof.
  intros (Lo & Lz & Fo & Fz) Hb. unfold added, unadded. split; [rewrite map_length, seq_length; reflexivity|]. split; [rewrite map_length, seq_length; reflexivity|].
  split; apply Forall_forall; intros x Hx; apply in_map_iff in Hx; destruct Hx as (i & <- & Hi); apply in_seq in Hi.
  - pose proof (nth_positive n ones i Lo Fo ltac:(lia)). pose proof (bit_range n bits i Hb ltac:(lia)). lia.
  - pose proof (nth_positive n zeros i Lz Fz ltac:(lia)). pose proof (bit_range n bits i Hb ltac:(lia)). lia.
Qed.
Lemma mode_R o z : w_mode Rops o z = beta_mode o z.
Proof.
  unfold w_mode, beta_mode. destruct (Z.eqb_spec (o + z)%Z 2%Z); [reflexivity|]. cbn [fdiv fz Rops]. rewrite !minus_IZR, plus_IZR. reflexivity.
Qed.
Lemma bayes_variance_R c ones zeros : length ones = length zeros -> w_bayes_variance Rops c ones zeros = beta_spread (w_flip Rops c) ones zeros.
Proof.
  intro L. unfold w_bayes_variance, beta_spread. rewrite (zip_with_as_seq _ ones zeros 0%Z 0%Z) by exact L. rewrite fmean_R. cbn [fmul fdiv fsub fz Rops].
  assert (E : map (fun i => (IZR (nth i ones 0 * nth i zeros 0)%Z / IZR ((nth i ones 0 + nth i zeros 0 + 1) * ((nth i ones 0 + nth i zeros 0) * (nth i ones 0 + nth i zeros 0)))%Z)%R) (seq 0 (length ones))
            = map (fun i => beta_variance (nth i ones 0%Z) (nth i zeros 0%Z)) (seq 0 (length ones))).
  { apply map_ext. intro i. unfold beta_variance. rewrite !mult_IZR, !plus_IZR. f_equal. f_equal. ring. }
  change (F Rops) with R in *. rewrite E. ring.
Qed.
Lemma bayes_learn c w m bits : w_bayes Rops c = true -> w_window Rops c = Some w -> w_flip Rops c <> (1 / 2)%R -> 1 <= w_length Rops c -> bits_of_length (w_length Rops c) bits ->
  priors (w_length Rops c) (wm_ones Rops m) (wm_zeros Rops m) ->
  exists ones zeros m', w_update Rops c m bits = (m', Ok tt) /\ wm_ones Rops m' = ones /\ wm_zeros Rops m' = zeros /\ priors (w_length Rops c) ones zeros /\
    reduced w (added (wm_ones Rops m) bits (w_length Rops c)) (unadded (wm_zeros Rops m) bits (w_length Rops c)) ones zeros /\
    w_knows m' (map (fun i => unflipped (w_flip Rops c) (beta_mode (nth i ones 0%Z) (nth i zeros 0%Z))) (seq 0 (w_length Rops c))) (beta_spread (w_flip Rops c) ones zeros).
Proof.
  intros Hy Hw Hf Hn Hb Hp. set (n := w_length Rops c) in *. unfold w_update. fold n. rewrite (proj1 Hb), Nat.eqb_refl, Hy, Hw. cbn [negb].
  pose proof Hp as (Lo & Lz & Fo & Fz). pose proof Hb as [Lb Bb]. rewrite broadcast_same by lia. rewrite broadcast_same by (rewrite map_length; lia).
  assert (E1 : zip_with Z.add (wm_ones Rops m) bits = added (wm_ones Rops m) bits n). { rewrite (zip_with_as_seq _ _ _ 0%Z 0%Z) by lia. rewrite Lo. reflexivity. }
  assert (E2 : zip_with Z.add (wm_zeros Rops m) (map (fun b => 1 - b)%Z bits) = unadded (wm_zeros Rops m) bits n).
  { rewrite (zip_with_as_seq _ _ _ 0%Z 0%Z) by (rewrite map_length; lia). rewrite Lz. apply map_ext_in. intros i Hi. apply in_seq in Hi. f_equal.
    rewrite map_as_seq, nth_map_seq by lia. reflexivity. }
  rewrite E1, E2. destruct (reduce_spec n w _ _ Hn (added_priors n _ _ bits Hp Hb)) as (ones & zeros & Er & Pr & Rd). rewrite Er.
  assert (Ef : feq Rops (fsub Rops (fz Rops 1) (fmul Rops (fz Rops 2) (w_flip Rops c))) (fz Rops 0) = false) by (apply Reqb_false; cbn [fsub fmul fz Rops]; lra).
  change (F Rops) with R in *. rewrite Ef.
  exists ones, zeros. set (ps := map (fun i => unflipped (w_flip Rops c) (beta_mode (nth i ones 0%Z) (nth i zeros 0%Z))) (seq 0 n)).
  assert (Ep : map (corrected Rops (w_flip Rops c)) (zip_with (w_mode Rops) ones zeros) = ps).
  { destruct Pr as (Lo' & Lz' & _). rewrite (zip_with_as_seq _ ones zeros 0%Z 0%Z) by lia. rewrite map_map, Lo'. apply map_ext. intro i. rewrite corrected_R. f_equal. apply mode_R. }
  change (F Rops) with R in *. rewrite Ep. assert (Up : Forall (fun x => (0 <= x <= 1)%R) ps).
  { apply Forall_forall. intros x Hx. apply in_map_iff in Hx. destruct Hx as (i & <- & _). apply unflipped_unit. }
  rewrite finish_R; [|unfold ps; destruct n; [lia|discriminate]|exact Up|reflexivity]. cbn [wm_data wm_ones wm_zeros wm_rows wm_cols wm_var].
  eexists. split; [reflexivity|]. split; [reflexivity|]. split; [reflexivity|]. split; [exact Pr|]. split; [exact Rd|].
  split; [reflexivity|]. split; [reflexivity|]. split; [reflexivity|]. cbn [wm_var]. f_equal. apply bayes_variance_R. destruct Pr as (? & ? & _). lia.
Qed.

(** Counts of ones and zeros, each starting at one. *)
Definition counts (n : nat) (h : list (list Z)) (ones zeros : list Z) : Prop :=
  length ones = n /\ length zeros = n /\ forall i, i < n -> nth i ones 0%Z = (1 + Z.of_nat (votes h 1 i))%Z /\ nth i zeros 0%Z = (1 + Z.of_nat (votes h 0 i))%Z.
Lemma counts_priors n h ones zeros : counts n h ones zeros -> priors n ones zeros.
Proof.
  intros (L1 & L2 & H). repeat split; auto; apply Forall_forall; intros x Hx; apply (In_nth _ _ 0%Z) in Hx; destruct Hx as (i & Hi & <-); destruct (H i ltac:(lia)); lia.
Qed.
Lemma counts_add n h ones zeros bits : counts n h ones zeros -> bits_of_length n bits -> counts n (h ++ [bits]) (added ones bits n) (unadded zeros bits n).
Proof.
  intros (L1 & L2 & H) [Lb Bb]. unfold added, unadded. repeat split; try (rewrite map_length, seq_length; reflexivity).
  - rewrite nth_map_seq by exact H0. rewrite (proj1 (H i H0)), votes_app, votes_one. rewrite (nth_indep bits (-1)%Z 0%Z) by lia. rewrite Forall_forall in Bb.
    destruct (Bb (nth i bits 0%Z) ltac:(apply nth_In; lia)) as [->| ->]; cbn [Z.eqb Pos.eqb]; lia.
  - rewrite nth_map_seq by exact H0. rewrite (proj2 (H i H0)), votes_app, votes_one. rewrite (nth_indep bits (-1)%Z 0%Z) by lia. rewrite Forall_forall in Bb.
    destruct (Bb (nth i bits 0%Z) ltac:(apply nth_In; lia)) as [->| ->]; cbn [Z.eqb Pos.eqb]; lia.
Qed.
Lemma counts_mode n h ones zeros i : counts n h ones zeros -> Forall (bits_of_length n) h -> h <> [] -> i < n -> beta_mode (nth i ones 0%Z) (nth i zeros 0%Z) = share h 1 i.
Proof.
  intros (L1 & L2 & H) Hb N Hi. destruct (H i Hi) as [-> ->]. unfold beta_mode, share. pose proof (votes_total n h i Hb Hi) as T.
  assert (P : 0 < length h) by (destruct h; [contradiction|cbn; lia]). destruct (Z.eqb_spec (1 + Z.of_nat (votes h 1 i) + (1 + Z.of_nat (votes h 0 i)))%Z 2%Z); [lia|].
  rewrite !plus_IZR, <- !INR_IZR_INZ. rewrite <- T, plus_INR. f_equal; ring.
Qed.

(** ** One decoding *)
Section Decode.
Context {D X : Type}.
Variable parser : bytes -> res D.
Variable c : w_conf Rops.
Notation answer := (res (list Z * X * nat * (list (list R) * list (list R)) * (list nat * list nat))).
Lemma hard_sign word : hard Rops word = map sign_bit word.
Proof.
  unfold hard. apply map_ext. intro x. unfold sign_bit. cbn [flt fz Rops]. destruct (Rltb x 0) eqn:E; [apply Rltb_spec in E|apply Rltb_false in E]; destruct (Rlt_dec x 0); auto; lra.
Qed.
(** What follows the last run. *)
Definition w_after (a b : w_model Rops) (e : list Z) (x : X) (msgs : nat) (other : list Z) : w_model Rops * w_model Rops * answer :=
  let bits := picked e (w_idx Rops c) in
  let '(a, u) := if recognised parser bits then w_update Rops c a bits else (a, Ok tt) in
  match u with
  | Err y => (a, b, Err y)
  | Ok _ =>
      let '(b, u) := w_update Rops c b other in
      match u with
      | Err y => (a, b, Err y)
      | Ok _ => (a, b, w_answer Rops c a b e x msgs)
      end
  end.
Lemma picked_take e idx : Forall (fun i => i < length e) idx -> take e idx = Ok (picked e idx).
Proof. intro H. apply take_ok. exact H. Qed.
Lemma w_decode_final (ldpc : list R -> res (list Z * X * bool)) a b word e x ok parts v s :
  last_run ldpc (w_predict Rops c a b) word (e, x, ok) -> Forall (fun i => i < length e) (w_idx Rops c) -> Forall (fun i => i < length word) (w_idx Rops c) ->
  segment_buffer parser (pack (picked e (w_idx Rops c))) = Ok (parts, v, s) ->
  exists bits, all_bits (Y := unit) parser (w_idx Rops c) (ldpc, word) (Ok (e, x, length s, tt, ([], []))) = [bits] /\
    w_decode Rops parser c ldpc (a, b) word = w_after a b e x (length s) bits.
Proof.
  intros Lr Re Rw Sg. unfold all_bits. cbn [fst snd]. unfold w_decode, w_after. destruct Lr as [[E1 E2]|(r0 & w & E0 & S0 & Ep & E)].
  - cbn [snd] in E2. subst ok. rewrite E1. cbn [orb]. eexists. split; [reflexivity|]. rewrite (picked_take e _ Re). cbn [bind]. change (F Rops) with R in *. rewrite Sg. cbn [bind].
    rewrite (recognised_parts parser _ _ _ _ Sg). destruct (negb (existsb is_unknown parts)); reflexivity.
  - destruct r0 as [[e0 x0] ok0]. cbn [snd] in S0. subst ok0. rewrite E0. cbn [orb]. change (F Rops) with R in *. rewrite Ep. cbn [bind]. rewrite E. cbn [bind].
    rewrite (picked_take e _ Re). cbn [bind]. rewrite Sg. cbn [bind]. rewrite (recognised_parts parser _ _ _ _ Sg).
    destruct (negb (existsb is_unknown parts)); eexists; (split; [reflexivity|]); [reflexivity|].
    rewrite hard_sign. pose proof (picked_take (map sign_bit word) (w_idx Rops c)) as T. rewrite map_length in T. rewrite (T Rw). reflexivity.
Qed.
Lemma w_decode_ok (ldpc : list R -> res (list Z * X * bool)) a b word a' b' e x msgs ds st :
  w_decode Rops parser c ldpc (a, b) word = (a', b', Ok (e, x, msgs, ds, st)) ->
  (exists ok, last_run ldpc (w_predict Rops c a b) word (e, x, ok)) /\ Forall (fun i => i < length e) (w_idx Rops c) /\
  (exists parts v s, segment_buffer parser (pack (picked e (w_idx Rops c))) = Ok (parts, v, s) /\ msgs = length s) /\
  (if recognised parser (picked e (w_idx Rops c)) then w_update Rops c a (picked e (w_idx Rops c)) = (a', Ok tt) else a' = a) /\
  (exists bits, all_bits parser (w_idx Rops c) (ldpc, word) (Ok (e, x, msgs, ds, st)) = [bits] /\ w_update Rops c b bits = (b', Ok tt) /\
     (bits = picked e (w_idx Rops c) \/ bits = picked (map sign_bit word) (w_idx Rops c) /\ Forall (fun i => i < length word) (w_idx Rops c))) /\
  w_answer Rops c a' b' e x msgs = Ok (e, x, msgs, ds, st).
Proof.
  intro H. unfold w_decode in H. unfold all_bits. cbn [fst snd]. change (F Rops) with R in *. destruct (ldpc word) as [[[e0 x0] [|]]|y] eqn:E0; [| |inversion H].
  - rewrite take_total with (d := 0%Z) in H. destruct (forallb _ _) eqn:Fr; cbn [bind] in H; [|inversion H].
    assert (Re : Forall (fun i => i < length e0) (w_idx Rops c)). { apply Forall_forall. intros i Hi. rewrite forallb_forall in Fr. apply Nat.ltb_lt, Fr, Hi. }
    change (map (fun i => nth i e0 0%Z) (w_idx Rops c)) with (picked e0 (w_idx Rops c)) in H. destruct (segment_buffer _ _) as [[[parts v] s]|y] eqn:Sg; cbn [bind] in H; [|inversion H].
    rewrite <- (recognised_parts parser _ _ _ _ Sg) in H. destruct (if recognised parser (picked e0 (w_idx Rops c)) then _ else _) as [a1 [u|y]] eqn:Ua; [|inversion H].
    destruct (w_update Rops c b _) as [b1 [u'|y]] eqn:Ub; [|inversion H]. inversion H as [[Ha Hb Hr]]. subst a1 b1.
    assert (e0 = e /\ x0 = x /\ length s = msgs). { unfold w_answer in Hr. destruct (mask_index _ _); cbn [bind] in Hr; [|discriminate]. destruct (mask_index _ _); cbn [bind] in Hr; [|discriminate]. inversion Hr; auto. }
    destruct H0 as (-> & -> & <-). destruct u, u'. split; [exists true; left; auto|]. split; [exact Re|]. split; [exists parts, v, s; auto|]. split.
    { destruct (recognised _ _); [exact Ua|inversion Ua; reflexivity]. }
    split; [|first [exact Hr|reflexivity]]. cbn [orb]. eexists. split; [reflexivity|]. split; [exact Ub|]. left. reflexivity.
  - destruct (w_predict Rops c a b word) as [w|y] eqn:Ep; cbn [bind] in H; [|inversion H]. destruct (ldpc w) as [[[e1 x1] ok1]|y] eqn:E1; cbn [bind] in H; [|inversion H].
    rewrite take_total with (d := 0%Z) in H. destruct (forallb _ _) eqn:Fr; cbn [bind] in H; [|inversion H].
    assert (Re : Forall (fun i => i < length e1) (w_idx Rops c)). { apply Forall_forall. intros i Hi. rewrite forallb_forall in Fr. apply Nat.ltb_lt, Fr, Hi. }
    change (map (fun i => nth i e1 0%Z) (w_idx Rops c)) with (picked e1 (w_idx Rops c)) in H. destruct (segment_buffer _ _) as [[[parts v] s]|y] eqn:Sg; cbn [bind] in H; [|inversion H].
    rewrite <- (recognised_parts parser _ _ _ _ Sg) in H.
    assert (An : forall a1 b1, w_answer Rops c a1 b1 e1 x1 (length s) = Ok (e, x, msgs, ds, st) -> e1 = e /\ x1 = x /\ length s = msgs).
    { intros a1 b1 Hr. unfold w_answer in Hr. destruct (mask_index _ _); cbn [bind] in Hr; [|discriminate]. destruct (mask_index _ _); cbn [bind] in Hr; [|discriminate]. inversion Hr; auto. }
    destruct (recognised parser (picked e1 (w_idx Rops c))) eqn:Rc.
    + destruct (w_update Rops c a _) as [a1 [u|y]] eqn:Ua; [|inversion H]. destruct (w_update Rops c b _) as [b1 [u'|y]] eqn:Ub; [|inversion H]. inversion H as [[Ha Hb Hr]]. subst a1 b1.
      destruct (An _ _ Hr) as (-> & -> & <-). destruct u, u'. split; [exists ok1; right; exists (e0, x0, false), w; auto|]. split; [exact Re|]. split; [exists parts, v, s; auto|].
      rewrite Rc. split; [exact Ua|]. split; [|first [exact Hr|reflexivity]]. cbn [orb]. eexists. split; [reflexivity|]. split; [exact Ub|]. left. reflexivity.
    + clear Fr. rewrite take_total with (d := 0%Z) in H. destruct (forallb _ (w_idx Rops c)) eqn:Fw; cbn [bind] in H; [|inversion H]. rewrite hard_sign in *.
      change (map (fun i => nth i (map sign_bit word) 0%Z) (w_idx Rops c)) with (picked (map sign_bit word) (w_idx Rops c)) in H.
      destruct (w_update Rops c b _) as [b1 [u'|y]] eqn:Ub; [|inversion H]. inversion H as [[Ha Hb Hr]]. subst a' b1.
      destruct (An _ _ Hr) as (-> & -> & <-). destruct u'. split; [exists ok1; right; exists (e0, x0, false), w; auto|]. split; [exact Re|]. split; [exists parts, v, s; auto|].
      rewrite Rc. split; [reflexivity|]. split; [|first [exact Hr|reflexivity]]. cbn [orb]. eexists. split; [reflexivity|]. split; [exact Ub|]. right. split; [reflexivity|].
      apply Forall_forall. intros i Hi. rewrite forallb_forall in Fw. specialize (Fw i Hi). apply Nat.ltb_lt in Fw. rewrite map_length in Fw. exact Fw.
Qed.
Lemma w_decode_none (ldpc : list R -> res (list Z * X * bool)) a b word : (forall r, ~ last_run ldpc (w_predict Rops c a b) word r) -> exists y, w_decode Rops parser c ldpc (a, b) word = (a, b, Err y).
Proof.
  intro H. unfold w_decode. change (F Rops) with R in *. destruct (ldpc word) as [[[e0 x0] [|]]|y] eqn:E0; [| |eauto].
  - exfalso. apply (H (e0, x0, true)). left. auto.
  - destruct (w_predict Rops c a b word) as [w|y] eqn:Ep; cbn [bind]; [|eauto]. destruct (ldpc w) as [[[e1 x1] ok1]|y] eqn:E1; cbn [bind]; [|eauto].
    exfalso. apply (H (e1, x1, ok1)). right. exists (e0, x0, false), w. auto.
Qed.
End Decode.

(** ** Histories *)
Lemma in_turn_length {S C O} (step : S -> C -> S * O) : forall calls s, length (snd (in_turn step s calls)) = length calls.
Proof. induction calls as [|x t IH]; intro s; [reflexivity|]. cbn [in_turn]. destruct (step s x) as [s1 o]. specialize (IH s1). destruct (in_turn step s1 t) as [s2 os]. cbn [snd length] in *. lia. Qed.
Inductive learns (c : w_conf Rops) : w_model Rops -> list (list Z) -> w_model Rops -> Prop :=
| learns_nil m : learns c m [] m
| learns_cons m bits m1 t m' : w_update Rops c m bits = (m1, Ok tt) -> learns c m1 t m' -> learns c m (bits :: t) m'.
Lemma sign_is_bit x : is_bit (sign_bit x).
Proof. unfold sign_bit. destruct (Rlt_dec x 0); [right|left]; reflexivity. Qed.
Lemma picked_bits e idx : Forall is_bit e -> Forall (fun i => i < length e) idx -> bits_of_length (length idx) (picked e idx).
Proof.
  intros B R. split; [apply map_length|]. unfold picked. apply Forall_forall. intros z Hz. apply in_map_iff in Hz. destruct Hz as (i & <- & Hi). rewrite Forall_forall in R, B. apply B, nth_In, R, Hi.
Qed.
Lemma history_learns {D X} (parser : bytes -> res D) c : forall (calls : list ((list R -> res (list Z * X * bool)) * list R)) a b a' b' outs,
  in_turn (fun s call => w_decode Rops parser c (fst call) s (snd call)) (a, b) calls = ((a', b'), outs) -> Forall is_ok outs -> Forall (Forall is_bit) (w_estimates outs) ->
  learns c a (goods parser (w_idx Rops c) outs) a' /\ learns c b (alls parser (w_idx Rops c) calls outs) b' /\
  Forall (bits_of_length (length (w_idx Rops c))) (goods parser (w_idx Rops c) outs) /\ Forall (bits_of_length (length (w_idx Rops c))) (alls parser (w_idx Rops c) calls outs) /\
  Forall (fun x => recognised parser x = true) (goods parser (w_idx Rops c) outs) /\ length (alls parser (w_idx Rops c) calls outs) = length calls.
Proof.
  induction calls as [|[ldpc word] t IH]; intros a b a' b' outs E O B.
  - inversion E; subst. unfold goods, alls. cbn [flat_map combine]. repeat split; constructor.
  - change (F Rops) with R in *. cbn [in_turn fst snd] in E. destruct (w_decode Rops parser c ldpc (a, b) word) as [[a1 b1] o] eqn:E1.
    destruct (in_turn _ (a1, b1) t) as [[a2 b2] os] eqn:E2. inversion E; subst. clear E. pose proof (Forall_inv O) as Oo. pose proof (Forall_inv_tail O) as Ot.
    destruct o as [[[[[e x] msgs] ds] st]|y]; [|contradiction]. unfold w_estimates in B. cbn [flat_map app] in B. pose proof (Forall_inv B) as Be. pose proof (Forall_inv_tail B) as Bt.
    destruct (w_decode_ok parser c ldpc a b word a1 b1 e x msgs ds st E1) as (_ & Re & _ & Ua & (bits & Eb & Ub & Or) & _).
    specialize (IH a1 b1 a' b' os E2 Ot Bt). destruct IH as (I1 & I2 & I3 & I4 & I5 & I6). unfold goods, alls in *. cbn [flat_map combine fst snd]. change (F Rops) with R in *. rewrite Eb. cbn [app].
    assert (Pe : bits_of_length (length (w_idx Rops c)) (picked e (w_idx Rops c))) by (apply picked_bits; auto).
    unfold good_bits at 1 3 5. destruct (recognised parser (picked e (w_idx Rops c))) eqn:Rc; cbn [app].
    + split; [econstructor; [exact Ua|exact I1]|]. split; [econstructor; [exact Ub|exact I2]|]. split; [constructor; [exact Pe|exact I3]|].
      split; [|split; [constructor; [exact Rc|exact I5]|cbn [length]; lia]]. constructor; [|exact I4]. destruct Or as [->|[-> Hw]]; [exact Pe|].
      apply picked_bits; [apply Forall_forall; intros z Hz; apply in_map_iff in Hz; destruct Hz as (r & <- & _); apply sign_is_bit|rewrite map_length; exact Hw].
    + subst a1. split; [exact I1|]. split; [econstructor; [exact Ub|exact I2]|]. split; [exact I3|].
      split; [|split; [exact I5|cbn [length]; lia]]. constructor; [|exact I4]. destruct Or as [->|[-> Hw]]; [exact Pe|].
      apply picked_bits; [apply Forall_forall; intros z Hz; apply in_map_iff in Hz; destruct Hz as (r & <- & _); apply sign_is_bit|rewrite map_length; exact Hw].
Qed.
(** The state of a model that stores buffers. *)
Definition taught (c : w_conf Rops) (h : list (list Z)) (m : w_model Rops) : Prop :=
  let data := kept (w_window Rops c) h in
  let ps := map (bit_estimate (w_corrected Rops c) (w_flip Rops c) data) (seq 0 (w_length Rops c)) in
  wm_data Rops m = data /\ (h = [] -> untaught c m) /\ (h <> [] -> mixed data /\ w_knows m ps (bernoulli_spread ps)).
Lemma learns_taught c h : w_bayes Rops c = false -> 1 <= w_length Rops c -> forall m h0 m', taught c h0 m -> Forall (bits_of_length (w_length Rops c)) (h0 ++ h) -> learns c m h m' -> taught c (h0 ++ h) m'.
Proof.
  intros Hy Hn. induction h as [|bits t IH]; intros m h0 m' T B L; inversion L; subst; [rewrite app_nil_r; exact T|].
  change (bits :: t) with ([bits] ++ t) in *. rewrite app_assoc in *. apply (IH m1 _ m'); auto.
  assert (B' : Forall (bits_of_length (w_length Rops c)) (h0 ++ [bits])) by (apply Forall_app in B; apply B).
  destruct T as (T1 & _). destruct (mle_learn c m h0 bits Hy Hn B' T1) as (M1 & M2).
  assert (Dm : mixed (kept (w_window Rops c) (h0 ++ [bits])) \/ ~ mixed (kept (w_window Rops c) (h0 ++ [bits]))).
  { unfold mixed. destruct (in_dec Z.eq_dec 0%Z (concat (kept (w_window Rops c) (h0 ++ [bits])))); [|tauto]. destruct (in_dec Z.eq_dec 1%Z (concat (kept (w_window Rops c) (h0 ++ [bits])))); tauto. }
  destruct Dm as [M|M].
  - destruct (M1 M) as (m2 & E & D & K). rewrite H2 in E. inversion E; subst. split; [exact D|]. split; [intro Q; destruct h0; discriminate|]. intros _. auto.
  - destruct (M2 M) as (m2 & E & _). rewrite H2 in E. discriminate.
Qed.
(** The state of a model that counts, as long as nothing was reduced. *)
Definition tallied (c : w_conf Rops) (h : list (list Z)) (m : w_model Rops) : Prop :=
  let ps := map (fun i => unflipped (w_flip Rops c) (share h 1 i)) (seq 0 (w_length Rops c)) in
  counts (w_length Rops c) h (wm_ones Rops m) (wm_zeros Rops m) /\ (h = [] -> untaught c m) /\
  (h <> [] -> w_knows m ps (beta_spread (w_flip Rops c) (wm_ones Rops m) (wm_zeros Rops m))).
Lemma learns_tallied c w h : w_bayes Rops c = true -> w_window Rops c = Some w -> w_flip Rops c <> (1 / 2)%R -> 1 <= w_length Rops c ->
  forall m h0 m', tallied c h0 m -> Forall (bits_of_length (w_length Rops c)) (h0 ++ h) -> (Z.of_nat (length (h0 ++ h)) + 2 <= 2 * w)%Z -> learns c m h m' -> tallied c (h0 ++ h) m'.
Proof.
  intros Hy Hw Hf Hn. induction h as [|bits t IH]; intros m h0 m' T B Hs L; inversion L; subst; [rewrite app_nil_r; exact T|].
  change (bits :: t) with ([bits] ++ t) in *. rewrite app_assoc in *. apply (IH m1 _ m'); auto. clear IH.
  assert (B' : Forall (bits_of_length (w_length Rops c)) (h0 ++ [bits])) by (apply Forall_app in B; apply B).
  assert (Hb : bits_of_length (w_length Rops c) bits) by (rewrite Forall_forall in B'; apply B', in_or_app; right; left; reflexivity).
  destruct T as (T1 & _). destruct (bayes_learn c w m bits Hy Hw Hf Hn Hb (counts_priors _ _ _ _ T1)) as (ones & zeros & m2 & E & Eo & Ez & Pr & Rd & K).
  rewrite H2 in E. inversion E; subst m2. clear E. set (n := w_length Rops c) in *. pose proof (counts_add n h0 _ _ bits T1 Hb) as C.
  unfold reduced in Rd. cbn zeta in Rd. pose proof C as (_ & _ & C0). destruct (C0 0 ltac:(lia)) as [C1 C2]. rewrite C1, C2 in Rd. pose proof (votes_total n (h0 ++ [bits]) 0 B' ltac:(lia)) as V.
  rewrite app_length in Hs. destruct (Z.leb_spec (1 + Z.of_nat (votes (h0 ++ [bits]) 1 0) + (1 + Z.of_nat (votes (h0 ++ [bits]) 0 0)))%Z (2 * w)%Z); [|lia].
  destruct Rd as [-> ->]. rewrite <- Eo, <- Ez in C. split; [exact C|]. split; [intro Q; destruct h0; discriminate|]. intros N. rewrite Eo, Ez in C. rewrite Eo, Ez.
  assert (Em : map (fun i => unflipped (w_flip Rops c) (beta_mode (nth i (added (wm_ones Rops m) bits n) 0%Z) (nth i (unadded (wm_zeros Rops m) bits n) 0%Z))) (seq 0 n)
             = map (fun i => unflipped (w_flip Rops c) (share (h0 ++ [bits]) 1 i)) (seq 0 n)).
  { apply map_ext_in. intros i Hi. apply in_seq in Hi. f_equal. apply (counts_mode n); auto. lia. }
  rewrite Em in K. exact K.
Qed.
(** And in general. *)
Lemma learns_priors c w h : w_bayes Rops c = true -> w_window Rops c = Some w -> w_flip Rops c <> (1 / 2)%R -> 1 <= w_length Rops c -> Forall (bits_of_length (w_length Rops c)) h ->
  forall m m', priors (w_length Rops c) (wm_ones Rops m) (wm_zeros Rops m) -> learns c m h m' ->
  priors (w_length Rops c) (wm_ones Rops m') (wm_zeros Rops m') /\
  (h <> [] -> w_knows m' (map (fun i => unflipped (w_flip Rops c) (beta_mode (nth i (wm_ones Rops m') 0%Z) (nth i (wm_zeros Rops m') 0%Z))) (seq 0 (w_length Rops c)))
                        (beta_spread (w_flip Rops c) (wm_ones Rops m') (wm_zeros Rops m'))).
Proof.
  intros Hy Hw Hf Hn. induction 1 as [|bits t Hb Ht IH]; intros m m' P L; inversion L as [|? ? m1 ? ? U1 U2]; subst; [split; [exact P|congruence]|].
  destruct (bayes_learn c w m bits Hy Hw Hf Hn Hb P) as (ones & zeros & m2 & E & Eo & Ez & Pr & Rd & K). rewrite U1 in E. inversion E; subst m2. clear E.
  rewrite <- Eo, <- Ez in Pr, K. destruct (IH m1 m' Pr U2) as (P' & K'). split; [exact P'|]. intros _. destruct t as [|b t]; [inversion U2; subst; exact K|apply K'; discriminate].
Qed.
Lemma fresh_mle c a b : w_bayes Rops c = false -> w_init Rops c = Ok (a, b) -> a = b /\ taught c [] a.
Proof.
  intros Hy E. unfold w_init in E. rewrite Hy in E. inversion E; subst. split; [reflexivity|]. split; [cbn; unfold kept, last_n; destruct (w_window Rops c); [rewrite skipn_nil|]; reflexivity|].
  split; [|congruence]. intros _. unfold untaught, counted. rewrite Hy. cbn. split; [reflexivity|]. split; [left; auto|reflexivity].
Qed.
Lemma fresh_bayes c a b : w_bayes Rops c = true -> 1 <= w_length Rops c -> length (w_idx Rops c) = w_length Rops c -> w_init Rops c = Ok (a, b) -> a = b /\ tallied c [] a.
Proof.
  intros Hy Hn L E. unfold w_init in E. rewrite Hy, L in E. destruct (w_window Rops c); [|discriminate]. inversion E; subst. split; [reflexivity|].
  assert (N : forall i, i < w_length Rops c -> nth i (repeat 1%Z (w_length Rops c)) 0%Z = 1%Z).
  { intros i Hi. rewrite (nth_indep _ 0%Z 1%Z) by (rewrite repeat_length; exact Hi). apply nth_repeat. }
  split; [|split; [|congruence]].
  - cbn [wm_ones wm_zeros]. repeat split; try apply repeat_length; apply N; assumption.
  - intros _. unfold untaught, counted. rewrite Hy. cbn [wm_entropy wm_ones wm_zeros wm_var]. split; [reflexivity|]. rewrite !N by lia. split; [|reflexivity].
    split; [|split; [|reflexivity]]; intro Q; apply (f_equal (@length Z)) in Q; rewrite repeat_length in Q; cbn in Q; lia.
Qed.

(** ** Prediction *)
Lemma sel_nil {A} (l : list A) : sel l [] = [].
Proof. unfold sel. destruct l; reflexivity. Qed.
Definition low_mask (thr : R) (ps : list R) : list bool := map (fun p => Rltb (bit_entropy p) thr) ps.
Lemma low_mask_nth thr ps j : nth j (low_mask thr ps) false = true <-> structural thr ps j.
Proof.
  unfold low_mask, structural. destruct (Nat.lt_ge_cases j (length ps)) as [H|H].
  - rewrite (nth_indep _ false (Rltb (bit_entropy 0%R) thr)) by (rewrite map_length; exact H). rewrite (map_nth (fun p => Rltb (bit_entropy p) thr)), Rltb_spec. tauto.
  - rewrite nth_overflow by (rewrite map_length; exact H). split; [discriminate|lia].
Qed.
Lemma w_low_R c m ps n v : opinion c m ps n v -> w_low Rops c m = low_mask (w_threshold Rops c) ps.
Proof.
  intros [(-> & _ & U & _)|((_ & _ & E & _) & _)]; unfold w_low; [rewrite U; reflexivity|]. rewrite E, map_map. reflexivity.
Qed.
Lemma w_mask c m ps n v : opinion c m ps n v -> mask_index (w_idx Rops c) (w_low Rops c m) = Ok (sel (w_idx Rops c) (low_mask (w_threshold Rops c) ps)).
Proof.
  intro H. rewrite (w_low_R _ _ _ _ _ H). destruct H as [(-> & _)|(_ & L & _)]; [cbn; rewrite sel_nil; reflexivity|]. apply mask_index_ok. unfold low_mask. rewrite map_length. exact L.
Qed.
Lemma any_structural idx thr ps : (ps = [] \/ length ps = length idx) -> any_index (sel idx (low_mask thr ps)) = true <-> exists j, structural thr ps j /\ nth j idx 0 <> 0.
Proof.
  intros [->|L]; unfold any_index.
  - unfold low_mask. cbn [map]. rewrite sel_nil. cbn. split; [discriminate|]. intros (j & [H _] & _). cbn in H. lia.
  - rewrite existsb_exists. assert (Lm : length (low_mask thr ps) = length idx) by (unfold low_mask; rewrite map_length; exact L). split.
    + intros (x & Hx & Nx). apply (sel_in idx _ x 0 Lm) in Hx. destruct Hx as (j & Hj & M & <-). exists j. split; [apply low_mask_nth; exact M|]. destruct (Nat.eqb_spec (nth j idx 0) 0); [discriminate|assumption].
    + intros (j & St & Nz). exists (nth j idx 0). split; [|destruct (Nat.eqb_spec (nth j idx 0) 0); [contradiction|reflexivity]]. apply (sel_in idx _ _ 0 Lm). exists j.
      split; [destruct St; lia|]. split; [apply low_mask_nth; exact St|reflexivity].
Qed.
Lemma confidence_R n center slope : model_confidence Rops n center slope = trust center slope n.
Proof. unfold model_confidence, trust. destruct (n <=? 1)%Z; [reflexivity|]. cbn [fdiv fz fadd fexp fmul fneg fsub Rops]. unfold Rdiv. rewrite Rmult_1_l. reflexivity. Qed.
Lemma size_R c m ps n v : opinion c m ps n v -> w_size Rops c m = Ok n.
Proof.
  intro H. assert (C : counted c m n) by (destruct H as [(_ & -> & _ & C & _)|(_ & _ & _ & C)]; exact C). clear H. unfold counted in C. unfold w_size. destruct (w_bayes Rops c).
  - destruct C as (N1 & N2 & ->). rewrite !index_nth; [reflexivity| |]; [destruct (wm_zeros Rops m)|destruct (wm_ones Rops m)]; try contradiction; cbn; lia.
  - destruct C as [[-> ->]|[-> Nd]]; [reflexivity|]. unfold em_size, em_empty. destruct (wm_data Rops m) as [|b t]; [reflexivity|]. pose proof (Forall_inv Nd) as Nb. destruct b; [contradiction|reflexivity].
Qed.
Lemma schemes_R c a b ac bc va vb : (w_scheme Rops c = 4%Z -> wm_var Rops a = VNum Rops va /\ wm_var Rops b = VNum Rops vb) ->
  w_schemes Rops c a b ac bc = Ok (weights (w_scheme Rops c) ac bc va vb).
Proof.
  intro H. unfold w_schemes, weights. destruct (Z.eqb_spec (w_scheme Rops c) 0) as [->|N0]; [reflexivity|]. destruct (Z.eqb_spec (w_scheme Rops c) 1) as [->|N1].
  { cbn [fadd fz flt fmul fdiv Rops]. destruct (Rltb 0 (ac + bc)) eqn:E; [apply Rltb_spec in E|apply Rltb_false in E]; destruct (Rlt_dec 0 (ac + bc)); try lra; [|reflexivity].
    f_equal. f_equal; unfold Rdiv; ring. }
  destruct (Z.eqb_spec (w_scheme Rops c) 3) as [->|N3]; [reflexivity|]. destruct (Z.eqb_spec (w_scheme Rops c) 4) as [E4|N4].
  { destruct (H E4) as [-> ->]. rewrite E4. unfold w_variance_factor. cbn [bind]. f_equal. unfold by_spread. cbn [feq fz fsub fexp fdiv fmul Rops].
    destruct (Reqb va 0) eqn:Ea; [apply Reqb_spec in Ea|apply Reqb_false in Ea]; (destruct (Req_EM_T va 0); try contradiction);
      (destruct (Reqb vb 0) eqn:Eb; [apply Reqb_spec in Eb|apply Reqb_false in Eb]; (destruct (Req_EM_T vb 0); try contradiction));
      repeat (replace (-1 / 10)%R with (- (1 / 10))%R by lra); reflexivity. }
  destruct (Z.eqb_spec (w_scheme Rops c) 5) as [->|N5]; [reflexivity|].
  destruct (w_scheme Rops c) as [|p|p]; try reflexivity. destruct p as [p|p|]; [destruct p as [p|p|]|destruct p as [p|p|]|]; try reflexivity; try lia; destruct p; try reflexivity; lia.
Qed.
Lemma shifted_none idx on r obs : (forall j, j < length idx -> ~ on j) -> shifted idx on r obs obs.
Proof. intro H. repeat split; auto. intros j Hj On. destruct (H j Hj On). Qed.
Lemma add_R c m ps n v wgt obs : opinion c m ps n v -> (ps = [] -> (wgt <= 0)%R) -> NoDup (w_idx Rops c) -> Forall (fun i => i < length obs) (w_idx Rops c) ->
  exists out, w_add Rops c m wgt (sel (w_idx Rops c) (low_mask (w_threshold Rops c) ps)) obs = Ok out /\
    shifted (w_idx Rops c) (fun j => structural (w_threshold Rops c) ps j /\ (0 < wgt)%R) (fun j => (wgt * log_ratio (nth j ps 0))%R) obs out.
Proof.
  intros O Hz N Rg. unfold w_add. cbn [flt fz Rops]. destruct (Rltb 0 wgt) eqn:E; [apply Rltb_spec in E|apply Rltb_false in E].
  2: { exists obs. split; [reflexivity|]. apply shifted_none. intros j _ [_ Q]. lra. }
  pose proof (w_low_R _ _ _ _ _ O) as Lw. destruct O as [(Q & _)|((C & Rw & He & _) & L & _)]; [specialize (Hz Q); lra|].
  rewrite Lw. unfold column. rewrite C, Rw. cbn [Nat.ltb Nat.leb bind]. rewrite !map_map. cbn [nth]. rewrite broadcast_same by (rewrite !map_length; reflexivity). cbn [bind].
  assert (Ez : zip_with (fun a b => flog Rops (fdiv Rops (fadd Rops (feps Rops) a) (fadd Rops b (feps Rops)))) (map (fun x => (1 - x)%R) ps) (map (fun x => x) ps) = map log_ratio ps).
  { pose proof (log_ratios_R (@EM Rops [] (map (fun p => [1 - p; p]%R) ps) 2 (map bit_entropy ps)) ps ltac:(repeat split)) as Q. unfold log_ratios, column in Q. cbn [em_rows em_cols Nat.ltb Nat.leb bind] in Q.
    rewrite !map_map in Q. cbn [nth] in Q. rewrite broadcast_same in Q by (rewrite !map_length; reflexivity). inversion Q. reflexivity. }
  change (F Rops) with R in *. rewrite Ez. rewrite mask_index_ok by (unfold low_mask; rewrite !map_length; reflexivity). cbn [bind]. rewrite <- sel_map, map_map.
  set (r := map (fun p => fmul Rops wgt (log_ratio p)) ps). set (mask := low_mask (w_threshold Rops c) ps).
  destruct (add_selected Rops obs r (w_idx Rops c) mask 0%R N Rg) as (out & Ea & Lo & H1 & H2 & H3).
  { unfold mask, low_mask. rewrite map_length. exact L. } { unfold r. rewrite map_length. exact L. }
  exists out. split; [exact Ea|]. split; [exact Lo|]. split; [|split; [|exact H3]].
  - intros j Hj [St _]. rewrite H1; [|exact Hj|apply low_mask_nth; exact St]. change (fadd Rops) with Rplus. f_equal. unfold r. rewrite <- L in Hj.
    rewrite (nth_indep _ 0%R (fmul Rops wgt (log_ratio 0%R))) by (rewrite map_length; exact Hj). rewrite (map_nth (fun p => fmul Rops wgt (log_ratio p))). reflexivity.
  - intros j Hj On. apply H2; [exact Hj|]. apply not_true_is_false. intro Q. apply On. split; [apply low_mask_nth; exact Q|exact E].
Qed.
Lemma weights_zero s a b va vb : (a = 0 -> fst (weights s a b va vb) <= 0)%R /\ (b = 0 -> snd (weights s a b va vb) <= 0)%R.
Proof.
  unfold weights. split; intros ->; destruct s as [|p|p]; cbn [fst snd]; try lra; repeat (destruct p as [p|p|]; cbn [fst snd]; try lra); try (destruct (Rlt_dec _ _); cbn [fst snd]; unfold Rdiv; lra).
Qed.
Lemma predict_opinion c a b psa na va psb nb vb obs mx : opinion c a psa na va -> opinion c b psb nb vb ->
  NoDup (w_idx Rops c) -> Forall (fun i => i < length obs) (w_idx Rops c) -> largest obs mx ->
  let thr := w_threshold Rops c in
  let some := exists j, (structural thr psa j \/ structural thr psb j) /\ nth j (w_idx Rops c) 0 <> 0 in
  let w := weights (w_scheme Rops c) (trust (w_a_center Rops c) (w_a_slope Rops c) na) (trust (w_b_center Rops c) (w_b_slope Rops c) nb) va vb in
  (~ some -> w_predict Rops c a b obs = Ok obs) /\
  (some -> w_scheme Rops c = 4%Z -> psa = [] \/ psb = [] -> w_predict Rops c a b obs = Err (if w_bayes Rops c then ZeroDivision else AttributeError)) /\
  (some -> w_scheme Rops c <> 4%Z \/ psa <> [] /\ psb <> [] -> exists mid out,
     shifted (w_idx Rops c) (fun j => structural thr psa j /\ (0 < fst w)%R) (fun j => (fst w * log_ratio (nth j psa 0))%R) obs mid /\
     shifted (w_idx Rops c) (fun j => structural thr psb j /\ (0 < snd w)%R) (fun j => (snd w * log_ratio (nth j psb 0))%R) mid out /\
     w_predict Rops c a b obs = Ok (map (limited (w_clip Rops c * mx)) out)).
Proof.
  intros Oa Ob N Rg Mx. cbn zeta. set (thr := w_threshold Rops c).
  assert (La : psa = [] \/ length psa = length (w_idx Rops c)) by (destruct Oa as [(-> & _)|(_ & L & _)]; auto).
  assert (Lb : psb = [] \/ length psb = length (w_idx Rops c)) by (destruct Ob as [(-> & _)|(_ & L & _)]; auto).
  unfold w_predict. rewrite (w_mask _ _ _ _ _ Oa), (w_mask _ _ _ _ _ Ob). cbn [bind]. fold thr.
  pose proof (any_structural (w_idx Rops c) thr psa La) as Aa. pose proof (any_structural (w_idx Rops c) thr psb Lb) as Ab.
  split; [|rewrite (size_R _ _ _ _ _ Oa), (size_R _ _ _ _ _ Ob); cbn [bind]; rewrite !confidence_R].
  { intro Nn. destruct (any_index (sel (w_idx Rops c) (low_mask thr psa))) eqn:Ea; [exfalso; apply Nn; destruct (proj1 Aa eq_refl) as (j & S1 & Nz); exists j; auto|].
    destruct (any_index (sel (w_idx Rops c) (low_mask thr psb))) eqn:Eb; [exfalso; apply Nn; destruct (proj1 Ab eq_refl) as (j & S1 & Nz); exists j; auto|]. reflexivity. }
  assert (Go : (exists j, (structural thr psa j \/ structural thr psb j) /\ nth j (w_idx Rops c) 0 <> 0) ->
             (negb (any_index (sel (w_idx Rops c) (low_mask thr psa))) && negb (any_index (sel (w_idx Rops c) (low_mask thr psb))))%bool = false).
  { intros (j & [S1|S1] & Nz); [rewrite (proj2 Aa) by eauto|rewrite (proj2 Ab) by eauto]; [reflexivity|apply andb_false_r]. }
  split.
  - intros So E4 Em. rewrite (Go So). unfold w_schemes. rewrite E4. cbn [Z.eqb Pos.eqb].
    destruct Oa as [(Ea & _ & _ & _ & Va)|((_ & _ & _ & Va) & _ & Na & _)].
    + rewrite Va. destruct (w_bayes Rops c); reflexivity.
    + destruct Em as [Q|Q]; [contradiction|]. destruct Ob as [(Eb & _ & _ & _ & Vb)|(_ & _ & Nb & _)]; [|contradiction]. rewrite Va, Vb. cbn [w_variance_factor bind]. destruct (w_bayes Rops c); reflexivity.
  - intros So Or. rewrite (Go So). rewrite (schemes_R c a b _ _ va vb).
    2: { intro E4. destruct Or as [Q|[Qa Qb]]; [contradiction|]. destruct Oa as [(Q & _)|((_ & _ & _ & Va) & _)]; [contradiction|]. destruct Ob as [(Q & _)|((_ & _ & _ & Vb) & _)]; [contradiction|]. auto. }
    cbn [bind]. rewrite (pymax_largest obs mx Mx). cbn [bind].
    set (w := weights _ _ _ _ _). assert (Za : psa = [] -> (fst w <= 0)%R). { intro Q. apply weights_zero. destruct Oa as [(_ & -> & _)|(_ & _ & Q' & _)]; [reflexivity|contradiction]. }
    assert (Zb : psb = [] -> (snd w <= 0)%R). { intro Q. apply weights_zero. destruct Ob as [(_ & -> & _)|(_ & _ & Q' & _)]; [reflexivity|contradiction]. }
    destruct (add_R c a psa na va (fst w) obs Oa Za N Rg) as (mid & E1 & S1). change (F Rops) with R in *. fold thr in E1. rewrite E1. cbn [bind].
    assert (R2 : Forall (fun i => i < length mid) (w_idx Rops c)) by (rewrite (proj1 S1); exact Rg).
    destruct (add_R c b psb nb vb (snd w) mid Ob Zb N R2) as (out & E2 & S2). change (F Rops) with R in *. fold thr in E2. rewrite E2. cbn [bind].
    exists mid, out. split; [exact S1|]. split; [exact S2|]. f_equal. apply map_ext. intro x. rewrite fclip_R. unfold limited. cbn [fneg fmul Rops]. rewrite Rmin_comm, Rmax_comm. reflexivity.
Qed.

(** ** From histories to opinions *)
Lemma taught_opinion c h m : w_bayes Rops c = false -> 1 <= w_length Rops c -> length (w_idx Rops c) = w_length Rops c -> Forall (bits_of_length (w_length Rops c)) h -> taught c h m ->
  let data := kept (w_window Rops c) h in
  let ps := match h with [] => [] | _ => map (bit_estimate (w_corrected Rops c) (w_flip Rops c) data) (seq 0 (w_length Rops c)) end in
  opinion c m ps (Z.of_nat (length data)) (bernoulli_spread ps).
Proof.
  intros Hy Hn L Hb (T1 & T2 & T3). cbn zeta. destruct h as [|b t].
  - left. split; [reflexivity|]. split; [|apply T2; reflexivity]. unfold kept, last_n. destruct (w_window Rops c); [rewrite skipn_nil|]; reflexivity.
  - right. destruct (T3 ltac:(discriminate)) as (_ & K). split; [exact K|]. rewrite map_length, seq_length. split; [congruence|]. split; [destruct (w_length Rops c); [lia|discriminate]|].
    unfold counted. rewrite Hy, T1. right. split; [reflexivity|]. apply Forall_forall. intros x Hx Q. apply (kept_incl (w_window Rops c)) in Hx. rewrite Forall_forall in Hb. destruct (Hb x Hx) as [Lx _]. subst x. cbn in Lx. lia.
Qed.
Lemma tallied_opinion c h m : w_bayes Rops c = true -> 1 <= w_length Rops c -> length (w_idx Rops c) = w_length Rops c -> Forall (bits_of_length (w_length Rops c)) h -> tallied c h m ->
  let ps := match h with [] => [] | _ => map (fun i => unflipped (w_flip Rops c) (share h 1 i)) (seq 0 (w_length Rops c)) end in
  opinion c m ps (Z.of_nat (length h)) (beta_spread (w_flip Rops c) (wm_ones Rops m) (wm_zeros Rops m)).
Proof.
  intros Hy Hn L Hb (T1 & T2 & T3). cbn zeta. destruct h as [|b t].
  - left. split; [reflexivity|]. split; [reflexivity|]. apply T2; reflexivity.
  - right. split; [exact (T3 ltac:(discriminate))|]. rewrite map_length, seq_length. split; [congruence|]. split; [destruct (w_length Rops c); [lia|discriminate]|].
    unfold counted. rewrite Hy. destruct T1 as (L1 & L2 & C). split; [destruct (wm_ones Rops m); cbn in *; [lia|discriminate]|]. split; [destruct (wm_zeros Rops m); cbn in *; [lia|discriminate]|].
    destruct (C 0 ltac:(lia)) as [-> ->]. pose proof (votes_total _ _ 0 Hb ltac:(lia)). lia.
Qed.
Lemma bayes_learns c w h : w_bayes Rops c = true -> w_window Rops c = Some w -> w_flip Rops c <> (1 / 2)%R -> 1 <= w_length Rops c -> Forall (bits_of_length (w_length Rops c)) h ->
  forall m, priors (w_length Rops c) (wm_ones Rops m) (wm_zeros Rops m) -> learns c m h (fold_left (fun m b => fst (w_update Rops c m b)) h m).
Proof.
  intros Hy Hw Hf Hn. induction 1 as [|bits t Hb Ht IH]; intros m P; [constructor|]. destruct (bayes_learn c w m bits Hy Hw Hf Hn Hb P) as (ones & zeros & m2 & E & Eo & Ez & Pr & _).
  cbn [fold_left]. rewrite E. cbn [fst]. econstructor; [exact E|]. apply IH. rewrite Eo, Ez. exact Pr.
Qed.
