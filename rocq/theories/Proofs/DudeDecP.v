(** Lemmas about the DUDE decoder. *)
From Coq Require Import List ZArith Arith Bool Lia Reals Lra.
From Verif.Model Require Import Py Float InfoTheory Clustering Dude DecoderBase DudeDecoder.
From Verif.Spec Require Import RealOps Info Cluster Stats EmleSpec DecoderSpec WeightedSpec ClassSpec DudeSpec FlipSpec DudeDecSpec.
From Verif.Proofs Require Import Base RealP EmleP ClusterR DecoderP EntropyDecP WeightedP ClassP DudeP DudeR FlipP.
Import ListNotations.
Local Close Scope R_scope.

Section Step.
Variables (flip : R) (mi : list (list R)) (k : nat) (c : dd_conf Rops).
Hypothesis Ed : dd_dude Rops c = Dude Rops (bsc flip) mi hamming_loss (Z.of_nat k) false 2.
Hypothesis Lmi : length mi = 2.
Hypothesis Hk : 1 <= k.
Let d := Dude Rops (bsc flip) mi hamming_loss (Z.of_nat k) false 2.

Lemma bit_alphabet x : is_bit x -> in_alphabet 2 x.
Proof. intros [-> | ->]; unfold in_alphabet; lia. Qed.

(** One bit. *)
Lemma sample_probability past x : Forall is_bit past -> is_bit x ->
  exists p0 cost, denoise_sample Rops d (fed Rops d online_new past) x = (fed Rops d online_new (past ++ [x]), Ok (@Soft Rops [p0; bit_probability flip mi k past x], cost)).
Proof.
  intros Hp Hx. assert (Ap : Forall (in_alphabet 2) past) by (eapply Forall_impl; [exact bit_alphabet|exact Hp]). pose proof (bit_alphabet x Hx) as Ax.
  rewrite fed_snoc. unfold bit_probability. pose proof (fed_inv Rops d k past Hk eq_refl Ap) as I. destruct (Nat.ltb_spec (length past) k) as [L|L].
  - destruct (sample_early Rops d k _ past x eq_refl I L Ax) as [E _]. rewrite E. cbn [fst]. destruct Hx as [-> | ->]; eexists _, _; reflexivity.
  - destruct (sample_late Rops d k _ past x Hk eq_refl I L Ax) as (s' & E & _). rewrite E. cbn [fst]. eexists _, _. f_equal. unfold next_counts. etransitivity; [apply decide_soft; reflexivity || exact Lmi|]. cbn [d_channel d_inv d]. unfold soft_estimate at 1. cbn [nth]. reflexivity.
Qed.

(** All bits of a buffer. *)
Lemma denoise_bits (pasts : list (list Z)) bits : length pasts = length bits -> Forall (Forall is_bit) pasts -> Forall is_bit bits ->
  dd_denoise Rops c (map (fed Rops d online_new) pasts) bits =
  (map (fun pb => fed Rops d online_new (fst pb ++ [snd pb])) (combine pasts bits), Ok (map (fun pb => bit_probability flip mi k (fst pb) (snd pb)) (combine pasts bits))).
Proof.
  revert bits. induction pasts as [|p pasts IH]; intros [|x bits] L Hp Hb; try discriminate; [reflexivity|]. cbn [map dd_denoise combine fst snd]. rewrite Ed. fold d.
  destruct (sample_probability p x (Forall_inv Hp) (Forall_inv Hb)) as (p0 & cost & E). change (F Rops) with R in *. rewrite E. cbn iota beta. rewrite IH; [reflexivity|inversion L; reflexivity|inversion Hp; assumption|inversion Hb; assumption].
Qed.

Definition dudes_of (len : nat) (h : list (list Z)) : list online := map (fun i => fed Rops d online_new (bit_history i h)) (seq 0 len).

Lemma bit_history_bits i h len : Forall (bits_of_length len) h -> Forall is_bit (bit_history i h).
Proof.
  intro H. apply Forall_forall. intros x Hx. apply in_map_iff in Hx. destruct Hx as (b & <- & Hb). rewrite Forall_forall in H. destruct (H b Hb) as [_ Fb].
  destruct (Nat.lt_ge_cases i (length b)); [|left; apply nth_overflow; lia]. rewrite Forall_forall in Fb. apply Fb. apply nth_In. assumption.
Qed.

Lemma combine_seq {A} (f : nat -> A) (l : list Z) : combine (map f (seq 0 (length l))) l = map (fun i => (f i, nth i l 0%Z)) (seq 0 (length l)).
Proof.
  assert (G : forall s, combine (map f (seq s (length l))) l = map (fun i => (f i, nth (i - s) l 0%Z)) (seq s (length l))).
  { induction l as [|x l IH]; intro s; [reflexivity|]. cbn [length seq map combine]. f_equal; [rewrite Nat.sub_diag; reflexivity|]. rewrite IH. apply map_ext_in. intros i Hi. apply in_seq in Hi. replace (i - s) with (S (i - S s)) by lia. reflexivity. }
  rewrite G. apply map_ext. intro i. rewrite Nat.sub_0_r. reflexivity.
Qed.

Lemma predict_bits len h bits n : 1 <= len -> Forall (bits_of_length len) h -> bits_of_length len bits ->
  dd_predict Rops c n (dudes_of len h) bits =
  (dudes_of len (h ++ [bits]), Ok (map (fun i => (trust (dd_center Rops c) (dd_slope Rops c) n * log_ratio (bit_probability flip mi k (bit_history i h) (nth i bits 0%Z)))%R) (seq 0 len))).
Proof.
  intros Hl Hh [Lb Hb]. unfold dd_predict. unfold dudes_of at 1. rewrite <- (map_map (fun i => bit_history i h) (fed Rops d online_new)). rewrite denoise_bits.
  - rewrite <- Lb. rewrite combine_seq, !map_map. cbn [fst snd]. cbn [bind].
    assert (E1 : map (fun i => fed Rops d online_new (bit_history i h ++ [nth i bits 0%Z])) (seq 0 (length bits)) = dudes_of (length bits) (h ++ [bits])).
    { apply map_ext. intro i. unfold bit_history. rewrite map_app. reflexivity. }
    rewrite E1. f_equal. destruct (map (fun i => bit_probability flip mi k (bit_history i h) (nth i bits 0%Z)) (seq 0 (length bits))) as [|q t] eqn:Eq.
    + apply map_eq_nil in Eq. rewrite Lb in Eq. destruct len; [lia|discriminate].
    + f_equal. change (F Rops) with R in *. rewrite <- Eq, map_map. apply map_ext. intro i. rewrite confidence_R. unfold feps, log_ratio. cbn [fmul flog fdiv fadd fsub fz Rops]. f_equal. f_equal. f_equal; lra.
  - rewrite map_length, seq_length, Lb. reflexivity.
  - apply Forall_forall. intros q Hq. apply in_map_iff in Hq. destruct Hq as (i & <- & _). eapply bit_history_bits. exact Hh.
  - exact Hb.
Qed.

(** The label is found without touching the denoisers. *)
Lemma label_parts kl s bits s1 r : dd_label Rops kl c s bits = (s1, r) -> dd_dudes s1 = dd_dudes s /\ dd_size s1 = dd_size s.
Proof.
  unfold dd_label. destruct (Nat.ltb 1 (dd_n Rops c)); [|intro E; inversion E; auto]. destruct (dd_cluster Rops c); [|intro E; inversion E; auto]. destruct (classify Rops kl (dd_classifier s) bits). intro E. inversion E. auto.
Qed.

(** A call that gets a label of a cluster. *)
Lemma call_labelled {X} kl (f : list R -> res (list Z * list R * bool * X)) s word s1 u len h n mx :
  1 <= len -> length (dd_idx Rops c) = len -> NoDup (dd_idx Rops c) -> Forall (fun i => i < length word) (dd_idx Rops c) -> peak word mx ->
  dd_label Rops kl c s (received (dd_idx Rops c) word) = (s1, Ok (Z.of_nat u)) -> nth_error (dd_size s) u = Some n -> nth_error (dd_dudes s) u = Some (dudes_of len h) ->
  Forall (bits_of_length len) h ->
  let bits := received (dd_idx Rops c) word in
  exists sum, denoised (dd_idx Rops c) (trust (dd_center Rops c) (dd_slope Rops c) (n + 1)) (fun j => bit_probability flip mi k (bit_history j h) (nth j bits 0%Z)) word sum /\
    dd_decode Rops kl c f s word =
      (DdState (set_nth (dd_dudes s) u (dudes_of len (h ++ [bits]))) (set_nth (dd_size s) u (n + 1)%Z) (dd_classifier s1) (dd_running s1), sum,
       let given := map (limited (dd_clip Rops c * mx)) sum in do! (e, llr, ok, x) <- f given in Ok (e, llr, ok, x, Z.of_nat u, map sign_bit given)).
Proof.
  intros Hl Li N Rg Mx El En Eu Hh bits. destruct (label_parts _ _ _ _ _ El) as [D1 D2].
  assert (Bb : bits_of_length len bits).
  { unfold bits, received. rewrite <- Li. apply picked_bits; [|rewrite map_length; exact Rg]. apply Forall_forall. intros z Hz. apply in_map_iff in Hz. destruct Hz as (y & <- & _). apply sign_is_bit. }
  set (r := map (fun i => (trust (dd_center Rops c) (dd_slope Rops c) (n + 1) * log_ratio (bit_probability flip mi k (bit_history i h) (nth i bits 0%Z)))%R) (seq 0 len)).
  assert (Lr : length r = length (dd_idx Rops c)) by (unfold r; rewrite map_length, seq_length; lia).
  destruct (add_selected Rops word r (dd_idx Rops c) (repeat true len) 0%R N Rg) as (sum & Es & Ls & H1 & _ & H3); [rewrite repeat_length; lia|exact Lr|].
  assert (Sel : forall (A : Type) (l : list A), length l = len -> sel l (repeat true len) = l).
  { intros A l <-. clear. induction l as [|y l IH]; [reflexivity|]. cbn [length repeat]. unfold sel in *. cbn [combine filter map fst snd]. f_equal. exact IH. }
  rewrite (Sel nat) in Es by exact Li. rewrite (Sel (F Rops)) in Es by (change (F Rops) with R; lia).
  exists sum. split.
  - split; [exact Ls|]. split; [|split; [intros j Hj Q; destruct (Q I)|exact H3]]. intros j Hj _. etransitivity; [apply (H1 j Hj); rewrite (nth_indep _ false true) by (rewrite repeat_length; lia); apply nth_repeat|]. cbn [fadd Rops]. f_equal. unfold r. rewrite PerfP.nth_map_seq by lia. reflexivity.
  - unfold dd_decode. change (F Rops) with R in *. rewrite (received_take _ _ Rg). fold bits. fold bits in El. change (F Rops) with R in *. rewrite El. cbn iota beta. destruct (Z.ltb_spec (Z.of_nat u) 0); [lia|]. rewrite Nat2Z.id. unfold index at 1. rewrite D2, En. cbn [dd_dudes dd_size dd_classifier dd_running].
    assert (Ep : pymax Rops (map (fabs Rops) word) = Ok mx) by (apply pymax_largest; exact Mx). change (F Rops) with R in *. rewrite Ep. unfold index. rewrite D1, Eu. rewrite (predict_bits len h bits (n + 1)%Z Hl Hh Bb). cbn [bind]. fold r. change (F Rops) with R in *. rewrite Es.
    assert (Eg : map (fun x : R => fclip Rops x (fneg Rops (fmul Rops (dd_clip Rops c) mx)) (fmul Rops (dd_clip Rops c) mx)) sum = map (limited (dd_clip Rops c * mx)) sum).
    { apply map_ext. intro x. rewrite fclip_R. unfold limited. cbn [fneg fmul Rops]. rewrite Rmin_comm, Rmax_comm. reflexivity. }
    cbv zeta. change (F Rops) with R in *. rewrite Eg. rewrite hard_sign. reflexivity.
Qed.
End Step.

(** A call that gets no label of a cluster. *)
Lemma call_other {X} (c : dd_conf Rops) kl (f : list R -> res (list Z * list R * bool * X)) s word s1 r : Forall (fun i => i < length word) (dd_idx Rops c) ->
  dd_label Rops kl c s (received (dd_idx Rops c) word) = (s1, r) -> (forall l, r = Ok l -> (l < 0)%Z \/ length (dd_size s) <= Z.to_nat l) ->
  exists o, dd_decode Rops kl c f s word = (s1, word, o) /\
    (forall l, r = Ok l -> (l < 0)%Z -> o = (do! (e, llr, ok, x) <- f word in Ok (e, llr, ok, x, l, map sign_bit word))) /\ (forall l, r = Ok l -> (0 <= l)%Z -> o = Err IndexError) /\ (forall e, r = Err e -> o = Err e).
Proof.
  intros Rg El Hr. unfold dd_decode. change (F Rops) with R in *. rewrite (received_take _ _ Rg), El. destruct (label_parts _ _ _ _ _ _ El) as [D1 D2]. destruct r as [l|e].
  2:{ eexists. split; [reflexivity|]. split; [discriminate|]. split; [discriminate|]. intros e' Q. inversion Q. reflexivity. }
  destruct (Z.ltb_spec l 0) as [H|H].
  - eexists. split; [reflexivity|]. split; [|split; [|discriminate]]; intros l' Q; inversion Q; [|lia]. intros _. rewrite hard_sign. reflexivity.
  - destruct (Hr l eq_refl) as [Q|Q]; [lia|]. unfold index. rewrite D2. apply nth_error_None in Q. rewrite Q. eexists. split; [reflexivity|]. split; [|split; [|discriminate]]; intros l' Q' N; inversion Q'; [lia|reflexivity].
Qed.

Section History.
Variables (flip : R) (mi : list (list R)) (k n len : nat) (kl : list R -> list R -> R) (c : dd_conf Rops) (s0 : dd_state).
Hypothesis Fresh : dd_fresh flip mi k n len c s0.
Hypothesis Lmi : length mi = 2.
Hypothesis Hk : 1 <= k.
Hypothesis Hl : 1 <= len.
Hypothesis Li : length (dd_idx Rops c) = len.
Hypothesis Nd : NoDup (dd_idx Rops c).
Notation K0 := (dd_classifier s0).
Notation rec := (fun call => received (dd_idx Rops c) (snd call)).

Lemma label_at_app bits b t : t < length bits -> label_at kl c K0 (bits ++ [b]) t = label_at kl c K0 bits t.
Proof.
  intro H. unfold label_at. rewrite firstn_app. replace (t - length bits) with 0 by lia. rewrite firstn_O, app_nil_r, app_nth1 by exact H. reflexivity.
Qed.
Lemma labelled_snoc bits b v : labelled kl c K0 (bits ++ [b]) v =
  labelled kl c K0 bits v ++ match label_at kl c K0 (bits ++ [b]) (length bits) with Some l => if Z.eqb l (Z.of_nat v) then [b] else [] | None => [] end.
Proof.
  unfold labelled. rewrite app_length. cbn [length]. rewrite Nat.add_1_r, seq_S, flat_map_app. cbn [flat_map Nat.add]. rewrite app_nil_r, nth_middle. f_equal.
  rewrite !flat_map_concat_map. f_equal. apply map_ext_in. intros t Ht. apply in_seq in Ht. rewrite label_at_app, app_nth1 by lia. reflexivity.
Qed.
Lemma labelled_bits words v : Forall (fun w => Forall (fun i => i < length w) (dd_idx Rops c)) words -> Forall (bits_of_length len) (labelled kl c K0 (map (received (dd_idx Rops c)) words) v).
Proof.
  intro H. apply Forall_forall. intros b Hb. unfold labelled in Hb. apply in_flat_map in Hb. destruct Hb as (t & Ht & Hb). apply in_seq in Ht. rewrite map_length in Ht.
  assert (Q : b = nth t (map (received (dd_idx Rops c)) words) []).
  { destruct (label_at _ _ _ _ t) as [l|]; [|destruct Hb]. destruct (Z.eqb l (Z.of_nat v)); [|destruct Hb]. destruct Hb as [Q|[]]. symmetry. exact Q. }
  rewrite (nth_indep _ [] (received (dd_idx Rops c) [])) in Q by (rewrite map_length; lia). rewrite map_nth in Q. rewrite Q, <- Li. unfold received.
  apply picked_bits; [|rewrite map_length; rewrite Forall_forall in H; apply H; apply nth_In; lia]. apply Forall_forall. intros z Hz. apply in_map_iff in Hz. destruct Hz as (y & <- & _). apply sign_is_bit.
Qed.

(** The state reached after the given received buffers. *)
Definition reached (bits : list (list Z)) (s : dd_state) : Prop :=
  (1 < n -> dd_cluster Rops c = true -> dd_classifier s = after Rops kl K0 bits) /\
  (1 < n -> dd_cluster Rops c = false -> dd_running s = match bits with [] => (-1)%Z | _ => ((Z.of_nat (length bits) - 1) mod Z.of_nat n)%Z end) /\
  length (dd_size s) = n /\ length (dd_dudes s) = n /\
  forall v, v < n -> nth_error (dd_size s) v = Some (Z.of_nat (length (labelled kl c K0 bits v))) /\ nth_error (dd_dudes s) v = Some (dudes_of flip mi k len (labelled kl c K0 bits v)).

Lemma reached_label bits s b : reached bits s -> exists s1 r, dd_label Rops kl c s b = (s1, r) /\
  label_at kl c K0 (bits ++ [b]) (length bits) = match r with Ok l => Some l | Err _ => None end /\
  (1 < n -> dd_cluster Rops c = true -> dd_classifier s1 = after Rops kl K0 (bits ++ [b])) /\
  (1 < n -> dd_cluster Rops c = false -> dd_running s1 = ((Z.of_nat (length (bits ++ [b])) - 1) mod Z.of_nat n)%Z).
Proof.
  destruct Fresh as (_ & En & _). intros (C1 & C2 & _). unfold dd_label, label_at. rewrite En. rewrite firstn_app, firstn_all, Nat.sub_diag, firstn_O, app_nil_r, nth_middle.
  destruct (Nat.ltb_spec 1 n) as [Hn|Hn]; destruct (Nat.leb_spec n 1) as [Hm|Hm]; try lia.
  - specialize (C1 Hn). specialize (C2 Hn). destruct (dd_cluster Rops c).
    + rewrite <- C1 by reflexivity. destruct (classify Rops kl (dd_classifier s) b) as [k' r] eqn:E. eexists _, r. split; [reflexivity|]. split; [reflexivity|]. split; [|discriminate]. intros _ _. cbn [dd_classifier]. unfold after. rewrite fold_left_app. cbn [fold_left]. fold (after Rops kl K0 bits). rewrite <- C1 by reflexivity. rewrite E. reflexivity.
    + rewrite C2 by reflexivity. eexists _, _. split; [reflexivity|]. rewrite app_length. cbn [length dd_running]. assert (Q : ((match bits with [] => -1 | _ :: _ => (Z.of_nat (length bits) - 1) mod Z.of_nat n end + 1) mod Z.of_nat n = Z.of_nat (length bits) mod Z.of_nat n)%Z).
      { destruct bits as [|y q]; [reflexivity|]. rewrite Zplus_mod_idemp_l. f_equal. lia. }
      rewrite Q. split; [reflexivity|]. split; [discriminate|]. intros _ _. f_equal. lia.
  - eexists _, _. split; [reflexivity|]. split; [reflexivity|]. split; lia.
Qed.

Lemma reached_start : reached [] s0.
Proof.
  destruct Fresh as (_ & _ & _ & Dd & Ds & Dr). split; [reflexivity|]. split; [intros _ _; exact Dr|]. rewrite Ds, Dd, !repeat_length. split; [reflexivity|]. split; [reflexivity|]. intros v Hv. unfold labelled. cbn [length seq flat_map].
  split; [rewrite nth_error_repeat by exact Hv; reflexivity|]. rewrite nth_error_repeat by exact Hv. f_equal. unfold dudes_of, bit_history. cbn [map]. cbn [fed fold_left]. clear. generalize 0. induction len as [|m IH]; intro i; [reflexivity|]. cbn [repeat seq map]. f_equal. apply IH.
Qed.

Lemma nth_error_set {A} (l : list A) i x v : i < length l -> nth_error (set_nth l i x) v = if Nat.eqb v i then Some x else nth_error l v.
Proof. revert i v. induction l as [|y l IH]; intros i v H; [cbn in H; lia|]. destruct i as [|i], v as [|v]; cbn; try reflexivity. apply IH. cbn in H. lia. Qed.

Lemma reached_step {X} bits s (f : list R -> res (list Z * list R * bool * X)) word s' w o : reached bits s -> Forall (bits_of_length len) bits -> (forall v, Forall (bits_of_length len) (labelled kl c K0 bits v)) ->
  Forall (fun i => i < length word) (dd_idx Rops c) -> dd_decode Rops kl c f s word = (s', w, o) -> reached (bits ++ [received (dd_idx Rops c) word]) s'.
Proof.
  intros Rc _ Lb Rg E. destruct (reached_label bits s (received (dd_idx Rops c) word) Rc) as (s1 & r & El & Ea & K1 & K2). destruct Rc as (_ & _ & Ls & Ld & Rv). destruct (label_parts _ _ _ _ _ _ El) as [D1 D2].
  assert (Key : (exists u, r = Ok (Z.of_nat u) /\ u < n) \/ (forall l, r = Ok l -> (l < 0)%Z \/ n <= Z.to_nat l)).
  { destruct r as [l|]; [|right; discriminate]. destruct (Z.ltb_spec l 0); [right; intros l' Q; inversion Q; left; congruence|]. destruct (Nat.lt_ge_cases (Z.to_nat l) n); [left; exists (Z.to_nat l); rewrite Z2Nat.id by lia; auto|right; intros l' Q; inversion Q; subst; right; assumption]. }
  assert (Tail : forall q : dd_state, dd_classifier q = dd_classifier s1 -> dd_running q = dd_running s1 -> 
     (1 < n -> dd_cluster Rops c = true -> dd_classifier q = after Rops kl K0 (bits ++ [received (dd_idx Rops c) word])) /\
     (1 < n -> dd_cluster Rops c = false -> dd_running q = match bits ++ [received (dd_idx Rops c) word] with [] => (-1)%Z | _ => ((Z.of_nat (length (bits ++ [received (dd_idx Rops c) word])) - 1) mod Z.of_nat n)%Z end)).
  { intros q -> ->. split; [exact K1|]. intros A B. rewrite (K2 A B). destruct bits; reflexivity. }
  destruct Key as [(u & -> & Hu)|Key].
  - destruct (Rv u Hu) as [En Eu]. destruct Fresh as (Ed & _). destruct (dd_idx Rops c) as [|i0 idx0] eqn:Ei; [cbn in Li; lia|]. rewrite <- Ei in *.
    assert (Wn : word <> []) by (intros ->; rewrite Ei in Rg; apply Forall_inv in Rg; cbn in Rg; lia). destruct (peak_ex word Wn) as (mx & _ & Pk).
    destruct (call_labelled flip mi k c Ed Lmi Hk kl f s word s1 u len _ _ mx Hl Li Nd Rg Pk El En Eu (Lb u)) as (sum & _ & Ec). rewrite Ec in E. inversion E. subst s' w. clear E H2.
    destruct (Tail (DdState (set_nth (dd_dudes s) u (dudes_of flip mi k len (labelled kl c K0 bits u ++ [received (dd_idx Rops c) word]))) (set_nth (dd_size s) u (Z.of_nat (length (labelled kl c K0 bits u)) + 1)%Z) (dd_classifier s1) (dd_running s1)) eq_refl eq_refl) as [T1 T2].
    split; [exact T1|]. split; [exact T2|]. cbn [dd_size dd_dudes]. rewrite !length_set_nth. split; [exact Ls|]. split; [exact Ld|]. intros v Hv. rewrite !nth_error_set by lia. rewrite labelled_snoc, Ea.
    destruct (Nat.eqb_spec v u) as [->|Nv].
    + rewrite Z.eqb_refl. rewrite app_length. cbn [length]. split; [f_equal; lia|reflexivity].
    + destruct (Z.eqb_spec (Z.of_nat u) (Z.of_nat v)); [lia|]. rewrite app_nil_r. apply Rv. exact Hv.
  - destruct (call_other c kl f s word s1 r Rg El) as (o' & Ec & _); [rewrite Ls; exact Key|]. rewrite Ec in E. inversion E; subst s' w. destruct (Tail s1 eq_refl eq_refl) as [T1 T2]. split; [exact T1|]. split; [exact T2|]. rewrite D1, D2. split; [exact Ls|]. split; [exact Ld|].
    intros v Hv. rewrite labelled_snoc, Ea. destruct r as [l|]; [|rewrite app_nil_r; apply Rv; exact Hv]. destruct (Z.eqb_spec l (Z.of_nat v)) as [->|]; [|rewrite app_nil_r; apply Rv; exact Hv]. destruct (Key _ eq_refl); lia.
Qed.

Lemma history_reached {X} (calls : list ((list R -> res (list Z * list R * bool * X)) * list R)) s outs : Forall (fun call => Forall (fun i => i < length (snd call)) (dd_idx Rops c)) calls ->
  dd_history kl c s0 calls = (s, outs) -> reached (map rec calls) s.
Proof.
  intro Rg. revert s outs. induction calls as [|[f w] calls IH] using rev_ind; intros s outs E; [inversion E; subst; apply reached_start|]. apply Forall_app in Rg. destruct Rg as [Rg Rw]. apply Forall_inv in Rw. cbn [snd] in Rw.
  unfold dd_history in *. rewrite history_snoc in E. destruct (in_turn (fun s call => let '(s', w, o) := dd_decode Rops kl c (fst call) s (snd call) in (s', (w, o))) s0 calls) as [s1 os] eqn:E1. cbn [fst snd] in E.
  destruct (dd_decode Rops kl c f s1 w) as [[s2 w2] o] eqn:E2. inversion E; subst s2 outs. rewrite map_app. cbn [map snd].
  assert (Rg' : Forall (fun w => Forall (fun i => i < length w) (dd_idx Rops c)) (map snd calls)) by (rewrite Forall_map; exact Rg).
  assert (Em : map rec calls = map (received (dd_idx Rops c)) (map snd calls)) by (rewrite map_map; reflexivity).
  apply (reached_step (map rec calls) s1 f w s w2 o); auto.
  - apply (IH Rg s1 os). reflexivity.
  - rewrite Em. apply Forall_forall. intros b Hb. apply in_map_iff in Hb. destruct Hb as (y & <- & Hy). rewrite <- Li. unfold received. apply picked_bits; [|rewrite map_length; rewrite Forall_forall in Rg'; apply Rg'; exact Hy].
    apply Forall_forall. intros z Hz. apply in_map_iff in Hz. destruct Hz as (x & <- & _). apply sign_is_bit.
  - intro v. rewrite Em. apply labelled_bits. exact Rg'.
Qed.
End History.

(** ** Probabilities *)
Lemma present_counted k past x : k <= length past -> is_bit x ->
  exists c0 c1, counts_of 2 (past ++ [x]) (follows k (past ++ [x]) (last_k k past)) = [c0; c1] /\ (0 <= c0)%Z /\ (0 <= c1)%Z /\ (x = 0%Z -> (1 <= c0)%Z) /\ (x = 1%Z -> (1 <= c1)%Z).
Proof.
  intros L Hx. do 2 eexists. split; [reflexivity|]. split; [lia|]. split; [lia|]. rewrite follows_snoc by exact L. destruct (list_eq_dec Z.eq_dec (last_k k past) (last_k k past)) as [_|N]; [|congruence].
  unfold holding. split; intros ->; rewrite filter_app; cbn [filter]; rewrite nth_middle; cbn [Z.eqb Z.of_nat Nat.add Pos.of_succ_nat Pos.eqb]; rewrite app_length; cbn [length]; lia.
Qed.
Lemma noiseless_inverse mi : inverse_of 2 (bsc 0) mi -> (ent mi 0 0 = 1 /\ ent mi 0 1 = 0 /\ ent mi 1 0 = 0 /\ ent mi 1 1 = 1)%R.
Proof.
  intro H. pose proof (H 0 0 ltac:(lia) ltac:(lia)) as H00. pose proof (H 0 1 ltac:(lia) ltac:(lia)) as H01. pose proof (H 1 0 ltac:(lia) ltac:(lia)) as H10. pose proof (H 1 1 ltac:(lia) ltac:(lia)) as H11.
  cbn [seq map Rsum fold_right Nat.eqb] in *. set (p := ent mi 0 0) in *. set (q := ent mi 0 1) in *. set (r := ent mi 1 0) in *. set (s := ent mi 1 1) in *. unfold ent, bsc in H00, H01, H10, H11. cbn [nth] in *. lra.
Qed.
Lemma noiseless_probability mi k past x : inverse_of 2 (bsc 0) mi -> is_bit x -> bit_probability 0 mi k past x = IZR x.
Proof.
  intros Hi Hx. unfold bit_probability. destruct (Nat.ltb_spec (length past) k) as [L|L]; [reflexivity|]. destruct (present_counted k past x L Hx) as (c0 & c1 & Ec & P0 & P1 & Q0 & Q1). rewrite Ec. clear Ec.
  destruct (noiseless_inverse mi Hi) as (I00 & I01 & I10 & I11). unfold soft_estimate, soft_weights, input_counts. cbn [seq map Rsum fold_right nth]. rewrite I00, I01, I10, I11.
  replace (IZR c0 * 1 + (IZR c1 * 0 + 0))%R with (IZR c0) by ring. replace (IZR c0 * 0 + (IZR c1 * 1 + 0))%R with (IZR c1) by ring. apply (IZR_le 0) in P0, P1.
  unfold smoothed. destruct Hx as [-> | ->]; cbn [Z.to_nat Pos.to_nat Pos.iter_op Nat.add]; unfold ent, bsc; cbn [nth].
  - specialize (Q0 eq_refl). apply (IZR_le 1) in Q0. destruct (Rlt_dec (IZR c0) 1); [lra|]. destruct (Rlt_dec (IZR c1) 1); cbn [fst snd]; unfold Rdiv; ring.
  - specialize (Q1 eq_refl). apply (IZR_le 1) in Q1. destruct (Rlt_dec (IZR c0) 1); [|destruct (Rlt_dec (IZR c1) 1); [lra|]]; cbn [fst snd]; change (Pos.to_nat 1) with 1%nat; cbn iota; field; lra.
Qed.
Lemma noisy_probability flip mi k past x : (0 < flip < / 2)%R -> inverse_of 2 (bsc flip) mi -> k <= length past -> is_bit x -> (0 < bit_probability flip mi k past x < 1)%R.
Proof.
  intros Hf Hi L Hx. unfold bit_probability. destruct (Nat.ltb_spec (length past) k) as [Q|_]; [lia|]. destruct (present_counted k past x L Hx) as (c0 & c1 & -> & P0 & P1 & Q0 & Q1).
  assert (Hc : (1 <= c0 + c1)%Z) by (destruct Hx as [E|E]; [specialize (Q0 E)|specialize (Q1 E)]; lia). assert (Ho : Z.to_nat x < 2) by (destruct Hx as [-> | ->]; cbn; lia).
  assert (Nc : noisy_binary_channel (bsc flip)) by (exists (1 - flip)%R, flip, flip, (1 - flip)%R; split; [reflexivity|]; lra).
  destruct (soft_positive _ _ c0 c1 (Z.to_nat x) Nc Hi Hc Ho) as [W0 W1]. destruct (soft_distribution _ _ _ _ W0 W1) as (p0 & p1 & -> & A & B & C). cbn [nth]. lra.
Qed.

(** ** Signs *)
Lemma limited_sign_bit c x : (0 < c)%R -> sign_bit (limited c x) = sign_bit x.
Proof.
  intro H. destruct (limited_sign c x H) as (A & B & C). unfold sign_bit. destruct (Rlt_dec x 0) as [L|L]; destruct (Rlt_dec (limited c x) 0) as [M|M]; try reflexivity; exfalso; [exact (M (B L))|]. destruct (Rle_lt_or_eq_dec 0 x ltac:(lra)) as [Q|Q]; [specialize (A Q); lra|]. symmetry in Q. specialize (C Q). lra.
Qed.
Lemma trust_nonneg center slope n : (0 <= trust center slope n)%R.
Proof. unfold trust. destruct (n <=? 1)%Z; [lra|]. apply Rlt_le, Rinv_0_lt_compat. pose proof (exp_pos (- (IZR n - center) * slope)). lra. Qed.
Lemma noiseless_sum idx weight p word sum clip mx : (0 <= weight)%R -> (0 < clip)%R -> peak word mx -> Forall (fun i => i < length word) idx ->
  (forall j, j < length idx -> p j = IZR (nth j (received idx word) 0%Z)) -> denoised idx weight p word sum -> map sign_bit (map (limited (clip * mx)) sum) = map sign_bit word.
Proof.
  intros Hw Hc Pk Rg Hp (Ls & Sh & _ & Ot). pose proof (peak_nonneg _ _ Pk) as Mx.
  assert (Each : forall i, i < length word -> exists l, nth i sum 0%R = (nth i word 0 + l)%R /\ ((nth i word 0 < 0)%R -> (l <= 0)%R) /\ ((0 <= nth i word 0)%R -> (0 <= l)%R)).
  { intros i Hi. destruct (in_dec Nat.eq_dec i idx) as [I|N].
    - apply (In_nth _ _ 0%nat) in I. destruct I as (j & Hj & <-). exists (weight * log_ratio (p j))%R. split; [apply Sh; auto|]. rewrite (Hp j Hj). unfold received, picked. 
      rewrite (nth_indep _ 0%Z (nth 0%nat (map sign_bit word) 0%Z)) by (rewrite map_length; exact Hj). rewrite (map_nth (fun i => nth i (map sign_bit word) 0%Z) idx 0%nat).
      rewrite (nth_indep _ 0%Z (sign_bit 0)) by (rewrite map_length; exact Hi). rewrite map_nth. unfold sign_bit. destruct (Rlt_dec (nth (nth j idx 0%nat) word 0%R) 0) as [L|L].
      + split; [|lra]. intros _. destruct (log_ratio_sign 1 ltac:(lra)) as (_ & G & _). assert (Q : (log_ratio 1 < 0)%R) by (apply G; lra). rewrite <- (Rmult_0_r weight). apply Rmult_le_compat_l; lra.
      + split; [lra|]. intros _. destruct (log_ratio_sign 0 ltac:(lra)) as (G & _). assert (Q : (0 < log_ratio 0)%R) by (apply G; lra). apply Rmult_le_pos; lra.
    - exists 0%R. rewrite (Ot i N). split; [ring|]. split; lra. }
  rewrite map_map. apply (nth_ext_eq _ _ 0%Z); [rewrite !map_length; exact Ls|]. rewrite map_length. intros i Hi. rewrite Ls in Hi.
  rewrite (nth_indep _ 0%Z (sign_bit (limited (clip * mx) 0))) by (rewrite map_length; lia). rewrite (map_nth (fun x => sign_bit (limited (clip * mx) x)) sum 0%R i).
  rewrite (nth_indep (map sign_bit word) 0%Z (sign_bit 0)) by (rewrite map_length; lia). rewrite map_nth. destruct (Each i Hi) as (l & -> & L1 & L2).
  destruct (Rle_lt_or_eq_dec _ _ Mx) as [Q|Q].
  - rewrite limited_sign_bit by (apply Rmult_lt_0_compat; lra). unfold sign_bit. destruct (Rlt_dec (nth i word 0%R) 0) as [K|K]; [specialize (L1 K)|specialize (L2 ltac:(lra))]; destruct (Rlt_dec (nth i word 0%R + l) 0); try reflexivity; exfalso; lra.
  - subst mx. rewrite Rmult_0_r. assert (Zr : limited 0 (nth i word 0%R + l) = 0%R) by (destruct (limited_bound 0 (nth i word 0%R + l) ltac:(lra)); lra). rewrite Zr.
    assert (Z0 : nth i word 0%R = 0%R). { destruct Pk as [_ Pk]. rewrite Forall_map, Forall_forall in Pk. specialize (Pk (nth i word 0%R) (nth_In _ _ Hi)). pose proof (Rabs_pos (nth i word 0%R)). destruct (Req_dec (nth i word 0%R) 0) as [|W]; [assumption|]. apply Rabs_pos_lt in W. lra. }
    rewrite Z0. reflexivity.
Qed.
