(** Lemmas about the pieces shared by the decoders. *)
From Coq Require Import List ZArith NArith Reals Lra Bool Lia Arith Sorted.
From Verif.Model Require Import Py Float InfoTheory Clustering Segmentation DecoderBase.
From Verif.Spec Require Import RealOps Info Cluster Stats EmleSpec DecoderSpec.
From Verif.Proofs Require Import Base RealP InfoP EntropyP PerfP ClusterP ClusterH ClusterR EmleP TurboP.
Import ListNotations.
Local Close Scope R_scope.

(** ** Selection by a mask *)
Definition sel {A} (l : list A) (mask : list bool) : list A := map fst (filter snd (combine l mask)).
Lemma sel_in {A} (l : list A) mask x d : length mask = length l -> In x (sel l mask) <-> exists j, j < length l /\ nth j mask false = true /\ nth j l d = x.
Proof.
  unfold sel. revert mask. induction l as [|a l IH]; intros [|b mask] L; cbn in L; try discriminate.
  - split; [intros []|]. intros (j & H & _). cbn in H. lia.
  - injection L as L. cbn [combine filter snd]. destruct b; cbn [map fst In].
    + rewrite (IH mask L). split.
      * intros [->|(j & H1 & H2 & H3)]; [exists 0; repeat split; cbn; auto; lia|exists (S j); repeat split; cbn; auto; lia].
      * intros ([|j] & H1 & H2 & H3); [left; exact H3|right; exists j; cbn in *; repeat split; auto; lia].
    + rewrite (IH mask L). split.
      * intros (j & H1 & H2 & H3). exists (S j). repeat split; cbn; auto; lia.
      * intros ([|j] & H1 & H2 & H3); [discriminate H2|exists j; cbn in *; repeat split; auto; lia].
Qed.
Lemma sel_nodup {A} (l : list A) mask : NoDup l -> NoDup (sel l mask).
Proof.
  unfold sel. intro H. revert mask. induction H as [|a l N H IH]; intros [|b mask]; cbn [combine filter map]; try constructor.
  destruct b; cbn [snd map fst]; [|apply IH]. constructor; [|apply IH]. intro Hin. apply N. apply in_map_iff in Hin. destruct Hin as ([x y] & <- & Hx).
  apply filter_In in Hx. destruct Hx as [Hx _]. apply in_combine_l in Hx. exact Hx.
Qed.
Lemma sel_map {A B} (f : A -> B) l mask : sel (map f l) mask = map f (sel l mask).
Proof. unfold sel. revert mask. induction l as [|a l IH]; intros [|b mask]; cbn [map combine filter]; auto. destruct b; cbn [snd map fst]; rewrite IH; reflexivity. Qed.
Lemma sel_combine {A B} (l : list A) (l' : list B) mask : length l = length l' -> combine (sel l mask) (sel l' mask) = sel (combine l l') mask.
Proof.
  unfold sel. revert l' mask. induction l as [|a l IH]; intros [|b l'] [|m mask] L; cbn in L; try discriminate; try reflexivity.
  injection L as L. cbn [combine filter snd]. destruct m; cbn [map fst combine]; rewrite IH by auto; reflexivity.
Qed.
Lemma sel_length {A B} (l : list A) (l' : list B) mask : length l = length l' -> length (sel l mask) = length (sel l' mask).
Proof.
  unfold sel. revert l' mask. induction l as [|a l IH]; intros [|b l'] [|m mask] L; cbn in L; try discriminate; try reflexivity.
  injection L as L. cbn [combine filter snd]. destruct m; cbn [map length]; rewrite (IH l') by auto; reflexivity.
Qed.
Lemma mask_index_ok {A} (l : list A) mask : length mask = length l -> mask_index l mask = Ok (sel l mask).
Proof. intro H. unfold mask_index. destruct mask as [|b t]; [destruct l; [reflexivity|discriminate]|]. rewrite H, Nat.eqb_refl. reflexivity. Qed.
Lemma mask_index_bad {A} (l : list A) mask : length mask <> length l -> mask <> [] -> mask_index l mask = Err IndexError.
Proof. intros H N. unfold mask_index. destruct mask as [|b t]; [contradiction|]. destruct (Nat.eqb_spec (length (b :: t)) (length l)); [contradiction|reflexivity]. Qed.

(** ** Reading and writing at positions *)
Lemma take_ok {A} (l : list A) idx d : Forall (fun i => i < length l) idx -> take l idx = Ok (map (fun i => nth i l d) idx).
Proof.
  intro H. apply map_res_ok. intros i Hi. rewrite Forall_forall in H. unfold index. rewrite (nth_error_nth' l d (H i Hi)). reflexivity.
Qed.
Lemma take_bad {A} (l : list A) idx : Exists (fun i => length l <= i) idx -> take l idx = Err IndexError.
Proof.
  unfold take. induction 1 as [i t H|i t H IH]; cbn [map_res]; unfold index at 1.
  - rewrite (proj2 (nth_error_None l i) H). reflexivity.
  - destruct (nth_error l i); cbn [bind]; [|reflexivity]. rewrite IH. reflexivity.
Qed.
Lemma take_total {A} (l : list A) idx d : take l idx = if forallb (fun i => Nat.ltb i (length l)) idx then Ok (map (fun i => nth i l d) idx) else Err IndexError.
Proof.
  destruct (forallb _ idx) eqn:E.
  - apply take_ok. rewrite forallb_forall in E. apply Forall_forall. intros i Hi. apply Nat.ltb_lt, E, Hi.
  - apply take_bad. apply Exists_exists. induction idx as [|i t IH]; [discriminate|]. cbn in E. apply andb_false_iff in E. destruct E as [E|E].
    + exists i. split; [left; auto|]. apply Nat.ltb_ge in E. exact E.
    + destruct (IH E) as (j & Hj & L). exists j. split; [right; auto|auto].
Qed.
Lemma fold_set_length {A} (ps : list (nat * A)) : forall l, length (fold_left (fun l iv => set_nth l (fst iv) (snd iv)) ps l) = length l.
Proof. induction ps as [|p t IH]; intro l; [reflexivity|]. cbn [fold_left]. rewrite IH. apply Base.length_set_nth. Qed.
Lemma fold_set_out {A} (ps : list (nat * A)) p d : forall l, ~ In p (map fst ps) -> nth p (fold_left (fun l iv => set_nth l (fst iv) (snd iv)) ps l) d = nth p l d.
Proof.
  induction ps as [|q t IH]; intros l H; [reflexivity|]. cbn [fold_left]. cbn [map In] in H. rewrite IH by tauto. rewrite Base.nth_set_nth.
  destruct (Nat.eqb_spec p (fst q)); [exfalso; apply H; left; auto|reflexivity].
Qed.
Lemma fold_set_in {A} (ps : list (nat * A)) p v d : forall l, NoDup (map fst ps) -> In (p, v) ps -> p < length l ->
  nth p (fold_left (fun l iv => set_nth l (fst iv) (snd iv)) ps l) d = v.
Proof.
  induction ps as [|q t IH]; intros l N H L; [destruct H|]. cbn [fold_left]. cbn [map] in N. inversion N; subst. destruct H as [->|H].
  - cbn [fst snd] in *. rewrite fold_set_out by auto. rewrite Base.nth_set_nth, Nat.eqb_refl. destruct (Nat.ltb_spec p (length l)); [reflexivity|lia].
  - apply IH; auto. rewrite Base.length_set_nth. exact L.
Qed.
Lemma map_fst_combine {A B} (l : list A) (l' : list B) : length l = length l' -> map fst (combine l l') = l.
Proof. revert l'. induction l as [|a l IH]; intros [|b l'] H; cbn in *; try discriminate; auto. f_equal. apply IH. lia. Qed.
Lemma put_ok {A} (l : list A) idx vs : Forall (fun i => i < length l) idx -> length idx = length vs ->
  put l idx vs = Ok (fold_left (fun l iv => set_nth l (fst iv) (snd iv)) (combine idx vs) l).
Proof.
  intros H L. unfold put. destruct (existsb _ idx) eqn:E.
  - apply existsb_exists in E. destruct E as (i & Hi & E). apply Nat.leb_le in E. rewrite Forall_forall in H. specialize (H i Hi). lia.
  - rewrite L, Nat.eqb_refl. reflexivity.
Qed.

(** The common last step: the values [r] are added at the model positions where the mask is on. *)
Lemma add_selected (FO : fops) (obs r : list (F FO)) idx mask d : NoDup idx -> Forall (fun i => i < length obs) idx -> length mask = length idx -> length r = length idx ->
  exists out, add_at FO obs (sel idx mask) (sel r mask) = Ok out /\ length out = length obs /\
    (forall j, j < length idx -> nth j mask false = true -> nth (nth j idx 0) out d = fadd FO (nth (nth j idx 0) obs d) (nth j r d)) /\
    (forall j, j < length idx -> nth j mask false = false -> nth (nth j idx 0) out d = nth (nth j idx 0) obs d) /\
    (forall p, ~ In p idx -> nth p out d = nth p obs d).
Proof.
  intros N R Lm Lr. set (s := sel idx mask). assert (Hs : forall i, In i s -> In i idx).
  { intros i Hi. apply (sel_in idx mask i 0 Lm) in Hi. destruct Hi as (j & Hj & _ & <-). apply nth_In. exact Hj. }
  assert (Rs : Forall (fun i => i < length obs) s). { apply Forall_forall. intros i Hi. rewrite Forall_forall in R. auto. }
  assert (Ls : length s = length (sel r mask)) by (apply sel_length; lia).
  unfold add_at. rewrite (take_ok obs s d Rs). cbn [bind]. rewrite broadcast_same by (rewrite map_length; exact Ls). cbn [bind].
  rewrite put_ok by (auto; rewrite zip_with_length, map_length; lia). eexists. split; [reflexivity|].
  set (vs := zip_with (fadd FO) (map (fun i => nth i obs d) s) (sel r mask)).
  assert (Lv : length s = length vs) by (unfold vs; rewrite zip_with_length, map_length; lia).
  assert (Ns : NoDup (map fst (combine s vs))) by (rewrite map_fst_combine by exact Lv; apply sel_nodup, N).
  split; [apply fold_set_length|]. split; [|split].
  - intros j Hj Hm. apply fold_set_in; [exact Ns| |rewrite Forall_forall in R; apply R, nth_In, Hj].
    assert (E : combine s vs = map (fun ir => (fst ir, fadd FO (nth (fst ir) obs d) (snd ir))) (sel (combine idx r) mask)).
    { rewrite <- (sel_combine idx r mask) by lia. unfold vs, zip_with. fold s. generalize (sel r mask) Ls. clear. induction s as [|i s IH]; intros [|x q] L; cbn in L; try discriminate; [reflexivity|].
      cbn [map combine fst snd]. f_equal. apply IH. lia. }
    rewrite E. apply in_map_iff. exists (nth j idx 0, nth j r d). split; [reflexivity|].
    apply (sel_in (combine idx r) mask _ (0, d)). { rewrite combine_length. lia. } exists j. rewrite combine_length. split; [lia|]. split; [exact Hm|]. apply combine_nth. lia.
  - intros j Hj Hm. apply fold_set_out. rewrite map_fst_combine by exact Lv. intro Hi. apply (sel_in idx mask _ 0 Lm) in Hi.
    destruct Hi as (k & Hk & Mk & E). apply (proj1 (NoDup_nth idx 0) N) in E; auto. subst. congruence.
  - intros p Hp. apply fold_set_out. rewrite map_fst_combine by exact Lv. intro Hi. apply Hp, Hs, Hi.
Qed.

(** ** The positions of the model bits *)
Lemma flatnonzero_in l i : In i (flatnonzero l) <-> nth i l false = true.
Proof.
  unfold flatnonzero. change (map fst (filter snd (combine (seq 0 (length l)) l))) with (sel (seq 0 (length l)) l).
  rewrite (sel_in _ l i 0) by (rewrite seq_length; reflexivity). rewrite seq_length. split.
  - intros (j & Hj & M & E). rewrite seq_nth in E by auto. cbn in E. subst. exact M.
  - intro H. assert (Hi : i < length l). { destruct (Nat.lt_ge_cases i (length l)); auto. rewrite nth_overflow in H by auto. discriminate. }
    exists i. split; [auto|]. split; [auto|]. rewrite seq_nth by auto. reflexivity.
Qed.
Lemma sel_sorted l mask : StronglySorted lt l -> StronglySorted lt (sel l mask).
Proof.
  unfold sel. intro H. revert mask. induction H as [|a l H IH F]; intros [|b mask]; cbn [combine filter map]; try constructor.
  destruct b; cbn [snd map fst]; [|apply IH]. constructor; [apply IH|]. rewrite Forall_forall in F |- *. intros x Hx. apply in_map_iff in Hx.
  destruct Hx as ([y z] & <- & Hx). apply filter_In in Hx. destruct Hx as [Hx _]. apply in_combine_l in Hx. apply F, Hx.
Qed.
Lemma seq_sorted a n : StronglySorted lt (seq a n).
Proof. revert a. induction n as [|n IH]; intro a; cbn; constructor; auto. apply Forall_forall. intros x Hx. apply in_seq in Hx. lia. Qed.
Lemma clear_from_nth n l i : nth i (clear_from n l) false = (Nat.ltb i n && nth i l false)%bool.
Proof.
  unfold clear_from. destruct (Nat.ltb_spec i n) as [H|H].
  - destruct (Nat.lt_ge_cases i (length l)) as [L|L].
    + rewrite app_nth1 by (rewrite firstn_length; lia). rewrite nth_firstn by lia. reflexivity.
    + rewrite (nth_overflow l) by lia. destruct (Nat.lt_ge_cases i (length (firstn n l ++ repeat false (length l - n)))); [|rewrite nth_overflow; auto].
      rewrite app_length, firstn_length, repeat_length in *. lia.
  - cbn [andb]. rewrite app_nth2 by (rewrite firstn_length; lia). apply nth_repeat.
Qed.
Lemma model_index_positions info n : info_positions info n (model_index info n).
Proof.
  split.
  - unfold model_index, flatnonzero. apply (sel_sorted (seq 0 _)). apply seq_sorted.
  - intro i. unfold model_index. rewrite flatnonzero_in, clear_from_nth, andb_true_iff, Nat.ltb_lt. tauto.
Qed.
Lemma sorted_lt_nodup l : StronglySorted lt l -> NoDup l.
Proof. induction 1 as [|a l H IH F]; constructor; auto. intro Hi. rewrite Forall_forall in F. specialize (F a Hi). lia. Qed.
Lemma sorted_lt_ext a b : StronglySorted lt a -> StronglySorted lt b -> (forall v, In v a <-> In v b) -> a = b.
Proof.
  revert b. induction a as [|x t IH]; intros b Ha Hb E.
  - destruct b as [|y b]; [reflexivity|]. destruct (proj2 (E y)); cbn; auto.
  - destruct b as [|y b]; [destruct (proj1 (E x)); cbn; auto|]. inversion Ha as [|? ? Ht Fx]; subst. inversion Hb as [|? ? Hb' Fy]; subst.
    rewrite Forall_forall in Fx, Fy. assert (x = y).
    { destruct (proj1 (E x) (or_introl eq_refl)) as [->|Hx]; auto. destruct (proj2 (E y) (or_introl eq_refl)) as [->|Hy]; auto. specialize (Fx y Hy). specialize (Fy x Hx). lia. }
    subst. f_equal. apply IH; auto. intro v. split; intro Hv.
    + destruct (proj1 (E v) (or_intror Hv)) as [->|]; auto. specialize (Fx v Hv). lia.
    + destruct (proj2 (E v) (or_intror Hv)) as [->|]; auto. specialize (Fy v Hv). lia.
Qed.
(** A full set of model bits means that the code word starts with them. *)
Lemma full_positions info n idx : info_positions info n idx -> length idx = n -> idx = seq 0 n.
Proof.
  intros [Hs Hi] L. apply sorted_lt_ext; auto; [apply seq_sorted|]. assert (I : incl idx (seq 0 n)) by (intros i H; apply in_seq; apply Hi in H; lia).
  intro v. split; [apply I|]. apply NoDup_length_incl; auto; [apply sorted_lt_nodup; auto|rewrite seq_length; lia].
Qed.

(** ** The window *)
Lemma append_kept {A} w (l : list A) x : let d := kept w l ++ [x] in
  kept w (l ++ [x]) = match w with Some w => if (w <? Z.of_nat (length d))%Z then skipn (Z.to_nat (Z.of_nat (length d) - w)) d else d | None => d end.
Proof.
  cbn zeta. destruct w as [w|]; [|reflexivity]. unfold kept, last_n. set (k := Z.to_nat w). rewrite !app_length, skipn_length. cbn [length].
  destruct (Z.ltb_spec w (Z.of_nat (length l - (length l - k) + 1))) as [L|L].
  - assert (Hk : Nat.min (length l) k = length l - (length l - k)) by lia.
    destruct (Z.ltb_spec w 0) as [W|W].
    + assert (Ek : k = 0) by lia. rewrite Ek, !Nat.sub_0_r. rewrite !skipn_all2; auto; rewrite ?app_length, ?skipn_length; cbn [length]; lia.
    + replace (Z.to_nat (Z.of_nat (length l - (length l - k) + 1) - w)) with (length l - (length l - k) + 1 - k) by lia.
      rewrite !skipn_app, skipn_length. replace (length l - (length l - k) + 1 - k) with (if Nat.leb k (length l) then 1 else 0) by (destruct (Nat.leb_spec k (length l)); lia).
      destruct (Nat.leb_spec k (length l)) as [K|K]; [|lia]. replace (length l + 1 - k) with (S (length l - k)) by lia. f_equal.
      * change (skipn 1 (skipn (length l - k) l)) with (tl (skipn (length l - k) l)). generalize (length l - k). clear. intro m. revert m.
        induction l as [|a l IH]; intros [|m]; try reflexivity. cbn [skipn]. apply IH.
      * f_equal. lia.
  - replace (length l + 1 - k) with 0 by lia. replace (length l - k) with 0 by lia. reflexivity.
Qed.
Lemma kept_incl {A} w (l : list A) x : In x (kept w l) -> In x l.
Proof. destruct w as [w|]; [|auto]. unfold kept, last_n. intro H. rewrite <- (firstn_skipn (length l - Z.to_nat w) l). apply in_or_app. auto. Qed.
Lemma kept_length {A} w (l : list A) : length (kept w l) = match w with None => length l | Some z => Nat.min (length l) (Z.to_nat z) end.
Proof. destruct w as [w|]; [|reflexivity]. unfold kept, last_n. rewrite skipn_length. lia. Qed.
Lemma append_buffer_kept w h bits n : 1 <= n -> Forall (fun b => length b = n) h -> append_buffer w (kept w h) bits = kept w (h ++ [bits]).
Proof.
  intros Hn H. rewrite append_kept. unfold append_buffer.
  assert (E : (if em_empty (kept w h) then [bits] else kept w h ++ [bits]) = kept w h ++ [bits]).
  { destruct (kept w h) as [|col t] eqn:K; [reflexivity|]. cbn [em_empty]. rewrite Forall_forall in H. rewrite (H col) by (apply (kept_incl w); rewrite K; left; reflexivity).
    destruct (Nat.eqb_spec n 0); [lia|reflexivity]. }
  rewrite E. reflexivity.
Qed.
