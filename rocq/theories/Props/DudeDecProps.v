(** C66: the decoder with one denoiser per bit and cluster. *)
From Coq Require Import List ZArith Arith Bool Lia Reals Lra.
From Verif.Model Require Import Py Float InfoTheory Clustering Dude DecoderBase DudeDecoder.
From Verif.Spec Require Import RealOps Info Cluster Stats EmleSpec DecoderSpec WeightedSpec ClassSpec DudeSpec FlipSpec DudeDecSpec.
From Verif.Proofs Require Import Base RealP EmleP ClusterR DecoderP EntropyDecP WeightedP ClassP DudeP DudeR FlipP DudeDecP.
Import ListNotations.
Local Close Scope R_scope.

(** What is constructed; construction fails exactly when the channel matrix cannot be inverted. *)
Theorem c66_construct inv info model_length clip training n k center slope flip cluster : 1 <= n -> 1 <= model_length -> 1 <= k ->
  match inv (bsc flip) with
  | Err e => dd_new Rops inv info model_length clip training n (Z.of_nat k) center slope flip cluster = Err e
  | Ok mi => exists c s, dd_new Rops inv info model_length clip training n (Z.of_nat k) center slope flip cluster = Ok (c, s) /\ dd_fresh flip mi k n model_length c s /\
      (count_occ Bool.bool_dec info true <= model_length -> dd_idx Rops c = seq 0 model_length) /\
      (model_length < count_occ Bool.bool_dec info true -> info_positions info model_length (dd_idx Rops c)) /\
      dd_clip Rops c = clip /\ dd_center Rops c = center /\ dd_slope Rops c = slope /\ (dd_cluster Rops c = true <-> cluster <> 0%Z) /\
      dd_classifier s = classifier_new training (Z.of_nat n) CLogLikelihood MHellinger WLinear
  end.
Proof.
  intros Hn Hm Hk. unfold dd_new, dude_new. destruct (Nat.eqb_spec (n * model_length) 0) as [Q|_]; [destruct n, model_length; cbn in Q; lia|]. cbn [fz fsub Rops]. change [[(1 - flip)%R; flip]; [flip; (1 - flip)%R]] with (bsc flip).
  destruct (inv (bsc flip)) as [mi|e]; cbn [bind]; [|reflexivity]. eexists _, _. split; [reflexivity|]. split; [repeat split|]. cbn [dd_idx dd_clip dd_center dd_slope dd_cluster dd_classifier].
  assert (C : length (filter (fun b => b) info) = count_occ Bool.bool_dec info true).
  { induction info as [|b t IH]; [reflexivity|]. cbn [filter count_occ]. destruct b; destruct (Bool.bool_dec _ _); try congruence. cbn [length]. f_equal. exact IH. }
  unfold model_index'. rewrite C. split; [intro H; destruct (Nat.leb_spec (count_occ Bool.bool_dec info true) model_length); [reflexivity|lia]|]. split; [intro H; destruct (Nat.leb_spec (count_occ Bool.bool_dec info true) model_length); [lia|apply model_index_positions]|].
  repeat split; try reflexivity.
  - intros H Q. subst. discriminate.
  - intro H. destruct (Z.eqb_spec cluster 0); [contradiction|reflexivity].
Qed.
Print Assumptions c66_construct.

(** A call, after any sequence of calls whatever the LDPC decoder answered in each, is determined by the label of the received bits and by
    the buffers received with that label: the LDPC decoder is given the received word plus, at the model positions, the log ratios of the
    probabilities that the denoisers give to a one, weighted by the number of buffers received with the label (this one included), all
    limited to the largest received magnitude times the clipping factor; the answer adds the label and the signs of that word; the array of
    the caller is left holding the sum before it was limited.  With a negative label (training) the LDPC decoder gets the received word and
    the array is untouched. *)
Theorem c66_call {X} flip mi k n len kl c s0 (calls : list ((list R -> res (list Z * list R * bool * X)) * list R)) s outs (f : list R -> res (list Z * list R * bool * X)) word s' w out mx :
  dd_fresh flip mi k n len c s0 -> length mi = 2 -> 1 <= k -> 1 <= len -> 1 <= n -> length (dd_idx Rops c) = len -> NoDup (dd_idx Rops c) ->
  Forall (fun w => Forall (fun i => i < length w) (dd_idx Rops c)) (map snd calls ++ [word]) -> peak word mx ->
  dd_history kl c s0 calls = (s, outs) -> dd_decode Rops kl c f s word = (s', w, out) ->
  let past := map (fun call => received (dd_idx Rops c) (snd call)) calls in
  let bits := received (dd_idx Rops c) word in
  match label_at kl c (dd_classifier s0) (past ++ [bits]) (length calls) with
  | None => w = word /\ exists e, out = Err e
  | Some u =>
      ((u < 0)%Z -> w = word /\ out = (do! (e, llr, ok, x) <- f word in Ok (e, llr, ok, x, u, map sign_bit word))) /\
      ((0 <= u < Z.of_nat n)%Z ->
         let before := labelled kl c (dd_classifier s0) past (Z.to_nat u) in
         denoised (dd_idx Rops c) (trust (dd_center Rops c) (dd_slope Rops c) (Z.of_nat (length before) + 1))
                  (fun j => bit_probability flip mi k (bit_history j before) (nth j bits 0%Z)) word w /\
         let given := map (limited (dd_clip Rops c * mx)) w in
         out = (do! (e, llr, ok, x) <- f given in Ok (e, llr, ok, x, u, map sign_bit given))) /\
      ((Z.of_nat n <= u)%Z -> w = word /\ out = Err IndexError)
  end.
Proof.
  intros Fr Lm Hk Hl Hn Li Nd Rg Pk Eh E. apply Forall_app in Rg. destruct Rg as [Rc Rw]. apply Forall_inv in Rw. rewrite Forall_map in Rc. cbn zeta.
  assert (Rm : Forall (fun w => Forall (fun i => i < length w) (dd_idx Rops c)) (map snd calls)) by (rewrite Forall_map; exact Rc).
  pose proof (history_reached flip mi k n len kl c s0 Fr Lm Hk Hl Li Nd calls s outs Rc Eh) as Re. set (past := map (fun call => received (dd_idx Rops c) (snd call)) calls) in *.
  destruct (reached_label flip mi k n len kl c s0 Fr Lm Hk Hl Li past s (received (dd_idx Rops c) word) Re) as (s1 & r & El & Ea & _). destruct Re as (_ & _ & Ls & Ld & Rv).
  assert (Lp : length past = length calls) by apply map_length. rewrite <- Lp, Ea. destruct r as [u|e].
  - split; [|split].
    + intro Hu. destruct (call_other c kl f s word s1 (Ok u) Rw El) as (o & Ec & Eo & _ & _); [intros l Q; inversion Q; subst; left; exact Hu|].
      rewrite Ec in E. inversion E; subst. split; [reflexivity|]. apply Eo; auto.
    + intro Hu. assert (Eu : u = Z.of_nat (Z.to_nat u)) by lia. set (v := Z.to_nat u) in *. clearbody v. subst u. assert (Hv : v < n) by lia. destruct (Rv v Hv) as [En Eu]. destruct Fr as (Ed & _).
      assert (Hb : Forall (bits_of_length len) (labelled kl c (dd_classifier s0) past v)).
      { replace past with (map (received (dd_idx Rops c)) (map snd calls)) by (unfold past; rewrite map_map; reflexivity). apply (labelled_bits mi k len kl c s0 Lm Hk Hl Li). exact Rm. }
      destruct (call_labelled flip mi k c Ed Lm Hk kl f s word s1 v len _ _ mx Hl Li Nd Rw Pk El En Eu Hb) as (sum & Hs & Ec). rewrite Ec in E. inversion E; subst. split; [exact Hs|reflexivity].
    + intro Hu. destruct (call_other c kl f s word s1 (Ok u) Rw El) as (o & Ec & _ & Eo & _); [intros l Q; inversion Q; subst; right; lia|].
      rewrite Ec in E. inversion E; subst. split; [reflexivity|]. apply (Eo u); [reflexivity|lia].
  - destruct (call_other c kl f s word s1 (Err e) Rw El) as (o & Ec & _ & _ & Eo); [discriminate|]. rewrite Ec in E. inversion E; subst. split; [reflexivity|]. exists e. apply Eo. reflexivity.
Qed.
Print Assumptions c66_call.

(** The denoisers of a cluster that are consulted are those that saw the buffers of that label only; the others do not change. *)
Theorem c66_isolated {X} kl c (f : list R -> res (list Z * list R * bool * X)) s word s' w e llr ok x u b : dd_decode Rops kl c f s word = (s', w, Ok (e, llr, ok, x, u, b)) ->
  forall v, Z.of_nat v <> u -> nth_error (dd_dudes s') v = nth_error (dd_dudes s) v /\ nth_error (dd_size s') v = nth_error (dd_size s) v.
Proof.
  assert (NS : forall A (l : list A) i x v, v <> i -> nth_error (set_nth l i x) v = nth_error l v).
  { clear. intros A l. induction l as [|y l IH]; intros [|i] x [|v] H; cbn; auto; try lia. }
  intros E v Hv. unfold dd_decode in E. destruct (take (hard Rops word) (dd_idx Rops c)) as [bits|y]; [|discriminate]. destruct (dd_label Rops kl c s bits) as [s1 lab] eqn:El. destruct (label_parts _ _ _ _ _ _ El) as [D1 D2]. destruct lab as [l|y]; [|discriminate].
  destruct (Z.ltb_spec l 0) as [H|H]; [inversion E; subst s'; rewrite D1, D2; auto|]. destruct (index (dd_size s1) (Z.to_nat l)) as [n|y]; [|discriminate]. destruct (pymax Rops (map (fabs Rops) word)) as [mx|y]; [|discriminate]. cbn [dd_dudes] in E.
  destruct (index (dd_dudes s1) (Z.to_nat l)) as [dudes|y]; [|discriminate]. destruct (dd_predict Rops c (n + 1) dudes bits) as [dudes' r]. destruct (do! llr <- r in add_at Rops word (dd_idx Rops c) llr) as [sum|y]; [|discriminate].
  assert (Eu : l = u).
  { destruct (f (map (fun x => fclip Rops x (fneg Rops (fmul Rops (dd_clip Rops c) mx)) (fmul Rops (dd_clip Rops c) mx)) sum)) as [[[[? ?] ?] ?]|]; cbn [bind] in E; inversion E. reflexivity. }
  inversion E. subst s'. cbn [dd_dudes dd_size]. rewrite !NS by lia. rewrite D1, D2. auto.
Qed.
Print Assumptions c66_isolated.

(** With a channel that flips bits with a probability below one half the denoisers are never certain, except that the first k buffers are
    taken at face value. *)
Theorem c66_probability flip mi k past x : (0 < flip < / 2)%R -> inverse_of 2 (bsc flip) mi -> is_bit x ->
  (length past < k -> bit_probability flip mi k past x = IZR x) /\ (k <= length past -> (0 < bit_probability flip mi k past x < 1)%R).
Proof.
  intros Hf Hi Hx. split; [|intro; apply noisy_probability; auto]. intro L. unfold bit_probability. destruct (Nat.ltb_spec (length past) k); [reflexivity|lia].
Qed.
Print Assumptions c66_probability.

(** With the default flip probability, which is zero, the denoisers believe whatever was received: no bit is ever changed by denoising. *)
Theorem c66_noiseless {X} mi k n len kl c s0 (calls : list ((list R -> res (list Z * list R * bool * X)) * list R)) s outs (f : list R -> res (list Z * list R * bool * X)) word s' w e llr ok x u b :
  dd_fresh 0 mi k n len c s0 -> inverse_of 2 (bsc 0) mi -> length mi = 2 -> 1 <= k -> 1 <= len -> 1 <= n -> length (dd_idx Rops c) = len -> NoDup (dd_idx Rops c) ->
  Forall (fun w => Forall (fun i => i < length w) (dd_idx Rops c)) (map snd calls ++ [word]) -> (0 < dd_clip Rops c)%R ->
  dd_history kl c s0 calls = (s, outs) -> dd_decode Rops kl c f s word = (s', w, Ok (e, llr, ok, x, u, b)) -> b = map sign_bit word.
Proof.
  intros Fr Hi Lm Hk Hl Hn Li Nd Rg Hc Eh E. assert (Rg' := Rg). apply Forall_app in Rg'. destruct Rg' as [_ Rw]. apply Forall_inv in Rw.
  assert (Wn : word <> []) by (intros ->; destruct (dd_idx Rops c) as [|i0 q]; [cbn in Li; lia|]; apply Forall_inv in Rw; cbn in Rw; lia). destruct (peak_ex word Wn) as (mx & _ & Pk).
  pose proof (c66_call 0 mi k n len kl c s0 calls s outs f word s' w _ mx Fr Lm Hk Hl Hn Li Nd Rg Pk Eh E) as K. cbn zeta in K.
  destruct (label_at _ _ _ _ _) as [v|]; [|destruct K as (_ & y & Q); discriminate]. destruct K as (K1 & K2 & K3). destruct (Z.lt_ge_cases v 0) as [Hv|Hv].
  - destruct (K1 Hv) as [_ Q]. destruct (f word) as [[[[? ?] ?] ?]|]; cbn [bind] in Q; inversion Q. reflexivity.
  - destruct (Z.lt_ge_cases v (Z.of_nat n)) as [Hn2|Hn2].
    + destruct (K2 (conj Hv Hn2)) as [Hs Q]. destruct (f (map (limited (dd_clip Rops c * mx)) w)) as [[[[? ?] ?] ?]|]; cbn [bind] in Q; [|discriminate]. assert (Eb : b = map sign_bit (map (limited (dd_clip Rops c * mx)) w)) by (inversion Q; reflexivity). rewrite Eb. clear Q Eb.
      eapply noiseless_sum; [apply trust_nonneg|exact Hc|exact Pk|exact Rw| |exact Hs]. intros j Hj. cbn beta. apply noiseless_probability; [exact Hi|].
      destruct (picked_bits (map sign_bit word) (dd_idx Rops c)) as [_ Bt].
      { apply Forall_forall. intros z Hz. apply in_map_iff in Hz. destruct Hz as (y & <- & _). apply sign_is_bit. }
      { rewrite map_length. exact Rw. }
      rewrite Forall_forall in Bt. apply Bt. apply nth_In. unfold received, picked. rewrite map_length. exact Hj.
    + destruct (K3 Hn2) as [_ Q]. discriminate.
Qed.
Print Assumptions c66_noiseless.

(** Defect: when not all of the first [model_length] code word bits are information bits (and there are more information bits than model
    bits) the position table is too short: no call that consults a denoiser is answered. *)
Theorem c66_short_table_refuted {X} kl c (f : list R -> res (list Z * list R * bool * X)) s word s' w out dudes :
  dd_n Rops c <= 1 -> nth_error (dd_dudes s) 0 = Some dudes -> length (dd_idx Rops c) < length dudes -> dd_decode Rops kl c f s word = (s', w, out) -> w = word /\ exists e, out = Err e.
Proof.
  intros Hn Ed L E. unfold dd_decode in E. change (F Rops) with R in *. destruct (take (hard Rops word) (dd_idx Rops c)) as [bits|y] eqn:Et; [|inversion E; subst; split; [reflexivity|eauto]]. assert (Lb : length bits = length (dd_idx Rops c)) by (apply received_inv in Et; destruct Et as [-> _]; unfold received, picked; apply map_length).
  unfold dd_label in E. destruct (Nat.ltb_spec 1 (dd_n Rops c)) as [|_]; [lia|]. cbn [Z.ltb Z.compare Z.to_nat] in E. destruct (index (dd_size s) 0) as [q|y]; [|inversion E; subst; split; [reflexivity|eauto]]. match type of E with context [pymax ?a ?b] => destruct (pymax a b) as [mx|y] end; [|inversion E; subst; split; [reflexivity|eauto]].
  cbn [dd_dudes] in E. unfold index in E. rewrite Ed in E. unfold dd_predict in E.
  assert (D : forall ds os, length os < length ds -> exists e, snd (dd_denoise Rops c ds os) = Err e).
  { clear. induction ds as [|d ds IH]; intros os H; [cbn in H; lia|]. cbn [dd_denoise]. destruct os as [|o os]; [eexists; reflexivity|]. destruct (denoise_sample Rops (dd_dude Rops c) d o) as [s r]. destruct r as [[[h|p] cost]|y]; try (eexists; reflexivity).
    destruct (IH os ltac:(cbn in H; lia)) as (e & Q). destruct (dd_denoise Rops c ds os) as [t rs]. cbn [snd] in *. subst rs. exists e. reflexivity. }
  destruct (D dudes bits ltac:(lia)) as (e & Q). destruct (dd_denoise Rops c dudes bits) as [d' r]. cbn [snd] in Q. subst r. cbn [bind] in E. inversion E; subst; split; [reflexivity|eauto].
Qed.
Print Assumptions c66_short_table_refuted.

(** A first call.  Two model bits of three, one cluster, the default flip probability. *)
Definition ex_identity : list (list R) := [[1; 0]; [0; 1]]%R.
Example c66_ex_inverse : inverse_of 2 (bsc 0) ex_identity.
Proof. intros [|[|i]] [|[|j]] Hi Hj; try lia; unfold ent, bsc, ex_identity; cbn [seq map nth Rsum fold_right Nat.eqb]; lra. Qed.
Definition ex_ldpc : list R -> res (list Z * list R * bool * nat) := fun w => Ok ([0; 1; 1]%Z, w, true, 7).
Definition ex_word : list R := [1; -2; 1]%R.
Example c66_ex_start : exists c s0, dd_new Rops (fun _ => Ok ex_identity) [true; true; false] 2 1%R 5 1 1 3%R 1%R 0%R 1 = Ok (c, s0) /\
  dd_fresh 0 ex_identity 1 1 2 c s0 /\ dd_idx Rops c = [0; 1] /\ dd_clip Rops c = 1%R /\ dd_n Rops c = 1 /\ dd_center Rops c = 3%R /\ dd_slope Rops c = 1%R.
Proof.
  eexists _, _. split; [reflexivity|]. split; [|repeat split]. split; [|repeat split]. cbn [dd_dude]. unfold bsc, hamming_loss. cbn [fz fsub Rops]. reflexivity.
Qed.

Lemma ex_range : Forall (fun i => i < length ex_word) [0; 1].
Proof. repeat (constructor; [cbn; lia|]). constructor. Qed.
Lemma ex_peak : peak ex_word 2%R.
Proof.
  unfold peak, largest, ex_word. cbn [map]. replace (Rabs (-2)) with 2%R by (rewrite Rabs_left; lra). rewrite !(Rabs_pos_eq 1) by lra. split; [right; left; reflexivity|]. repeat (apply Forall_cons; [lra|]). constructor.
Qed.

(** Defect: the array of the caller is overwritten with the sum.  Two calls with the same word: after the second its values at the model
    positions have changed. *)
Theorem c66_array_refuted : exists c s0 s outs s' w out,
  dd_fresh 0 ex_identity 1 1 2 c s0 /\ dd_history (fun _ _ => 0%R) c s0 [(ex_ldpc, ex_word)] = (s, outs) /\ dd_decode Rops (fun _ _ => 0%R) c ex_ldpc s ex_word = (s', w, out) /\
  (nth 0 ex_word 0 < nth 0 w 0)%R /\ (nth 1 w 0 < nth 1 ex_word 0)%R /\ exists llr, out = Ok ([0; 1; 1]%Z, llr, true, 7, 0%Z, [0; 1; 0]%Z).
Proof.
  destruct c66_ex_start as (c & s0 & _ & Fr & Ei & Ec & En & Ect & Esl). exists c, s0. destruct (dd_history (fun _ _ => 0%R) c s0 [(ex_ldpc, ex_word)]) as [s outs] eqn:Eh. destruct (dd_decode Rops (fun _ _ => 0%R) c ex_ldpc s ex_word) as [[s' w] out] eqn:E.
  exists s, outs, s', w, out. split; [exact Fr|]. split; [reflexivity|]. split; [exact E|].
  assert (Li : length (dd_idx Rops c) = 2) by (rewrite Ei; reflexivity). assert (Nd : NoDup (dd_idx Rops c)) by (rewrite Ei; repeat (constructor; [cbn; intuition discriminate|]); constructor).
  assert (Rg : Forall (fun w => Forall (fun i => i < length w) (dd_idx Rops c)) (map snd [(ex_ldpc, ex_word)] ++ [ex_word])) by (rewrite Ei; repeat (constructor; [exact ex_range|]); constructor).
  pose proof (c66_call 0 ex_identity 1 1 2 _ c s0 _ s outs ex_ldpc ex_word s' w out 2%R Fr eq_refl (le_n 1) (le_S _ _ (le_n 1)) (le_n 1) Li Nd Rg ex_peak Eh E) as K. cbn zeta in K.
  assert (Lb : forall bits t, label_at (fun _ _ => 0%R) c (dd_classifier s0) bits t = Some 0%Z) by (intros; unfold label_at; rewrite En; reflexivity). rewrite Lb in K. destruct K as (_ & K & _). destruct (K ltac:(lia)) as [Hs Eo]. clear K.
  assert (Bf : labelled (fun _ _ => 0%R) c (dd_classifier s0) [received (dd_idx Rops c) ex_word] 0 = [received (dd_idx Rops c) ex_word]) by (unfold labelled; cbn [length seq flat_map]; rewrite Lb; reflexivity).
  assert (Rb : received (dd_idx Rops c) ex_word = [0; 1]%Z).
  { rewrite Ei. unfold received, picked, ex_word, sign_bit. cbn [map nth]. destruct (Rlt_dec 1 0); [lra|]. destruct (Rlt_dec (-2) 0); [|lra]. reflexivity. }
  destruct Hs as (Ls & Sh & _). cbn [map snd Z.to_nat] in Sh. rewrite Bf, Rb, Ei, Ect, Esl in Sh. cbn [length] in Sh. pose proof (Sh 0 ltac:(lia) I) as S0. pose proof (Sh 1 ltac:(lia) I) as S1. cbn [nth] in S0, S1.
  rewrite noiseless_probability in S0, S1 by (apply c66_ex_inverse || (left; reflexivity) || (right; reflexivity)).
  assert (T : (0 < trust 3 1 (Z.of_nat 1 + 1))%R) by (unfold trust; cbn [Z.of_nat Pos.of_succ_nat Z.add Pos.add Z.leb Z.compare Pos.compare Pos.compare_cont]; apply Rinv_0_lt_compat; pose proof (exp_pos (- (IZR 2 - 3) * 1)); lra).
  set (t := trust 3 1 (Z.of_nat 1 + 1)) in *. assert (L0 : (0 < log_ratio 0)%R) by (apply (log_ratio_sign 0); lra). assert (L1 : (log_ratio 1 < 0)%R) by (apply (log_ratio_sign 1); lra).
  assert (P0 : (0 < t * log_ratio 0)%R) by (apply Rmult_lt_0_compat; lra). assert (P1 : (t * log_ratio 1 < 0)%R) by (rewrite <- (Rmult_0_r t); apply Rmult_lt_compat_l; lra).
  change (F Rops) with R in *. change (IZR 0) with 0%R in S0. change (IZR 1) with 1%R in S1. split; [rewrite S0; lra|]. split; [rewrite S1; lra|]. eexists. unfold ex_ldpc in Eo. cbn [bind] in Eo.
  assert (B : map sign_bit (map (limited (dd_clip Rops c * 2)) w) = map sign_bit ex_word).
  { assert (Hc : (0 < dd_clip Rops c)%R) by (rewrite Ec; lra). rewrite Eo in E. exact (c66_noiseless ex_identity 1 1 2 _ c s0 _ s outs ex_ldpc ex_word s' w _ _ _ _ _ _ Fr c66_ex_inverse eq_refl (le_n 1) (le_S _ _ (le_n 1)) (le_n 1) Li Nd Rg Hc Eh E). }
  rewrite Eo, B. unfold ex_word, sign_bit. cbn [map]. destruct (Rlt_dec 1 0); [lra|]. destruct (Rlt_dec (-2) 0); [|lra]. reflexivity.
Qed.
Print Assumptions c66_array_refuted.

(** A noisy channel: the denoiser of a bit received as 0 0 1 is not certain of the one. *)
Example c66_ex_noisy : (0 < bit_probability (/ 4) [[3 / 2; - / 2]; [- / 2; 3 / 2]] 1 [0; 0]%Z 1 < 1)%R.
Proof.
  apply (c66_probability (/ 4) [[3 / 2; - / 2]; [- / 2; 3 / 2]]%R 1 [0; 0]%Z 1); [lra| |right; reflexivity|cbn; lia].
  intros [|[|i]] [|[|j]] Hi Hj; try lia; unfold ent, bsc; cbn [seq map nth Rsum fold_right Nat.eqb]; lra.
Qed.
